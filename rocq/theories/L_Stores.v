(** Lemmas on files that hold a document. *)
From Coq Require Import ZArith List Bool Lia Sorted Relations.
From Verif Require Import Base Spec_IO M_Header M_Table M_Load M_Stream M_Tree M_Open M_Item
  Spec_Stream Spec_Load Spec_Tree Spec_Open Spec_Content L_Base L_Load L_Stream2 L_Open2 L_Exact L_Tree L_Tree2 L_Tree3 L_Session
  P_Tree L_Export3 Spec_Write Spec_Stores.
Import ListNotations.
Open Scope Z_scope.

Notation by_slot := (StronglySorted (fun a b => de_id a < de_id b)).

Lemma sorted_same (a : list dirent) : forall b, by_slot a -> by_slot b -> (forall x, In x a <-> In x b) -> a = b.
Proof.
  induction a as [|x a IH]; intros [|y b] Ha Hb HI; [reflexivity|exfalso; apply (HI y); now left|exfalso; apply (HI x); now left|].
  inversion Ha as [|? ? Ha1 Ha2]; subst. inversion Hb as [|? ? Hb1 Hb2]; subst. rewrite Forall_forall in Ha2, Hb2.
  assert (x = y).
  { destruct (proj1 (HI x) (or_introl eq_refl)) as [E|Hx]; [congruence|]. destruct (proj2 (HI y) (or_introl eq_refl)) as [E|Hy]; [congruence|].
    specialize (Ha2 y Hy). specialize (Hb2 x Hx). lia. }
  subst y. f_equal. apply IH; auto. intros z. split; intros Hz.
  - destruct (proj1 (HI z) (or_intror Hz)) as [<-|H]; [|exact H]. specialize (Ha2 x Hz). lia.
  - destruct (proj2 (HI z) (or_intror Hz)) as [<-|H]; [|exact H]. specialize (Hb2 x Hz). lia.
Qed.

Lemma children_unique l d ds ds' : children l d ds -> children l d ds' -> ds = ds'.
Proof. intros (H1 & H2) (H3 & H4). apply sorted_same; auto. intros x. now rewrite H2, H4. Qed.

(** * The bytes at the same place *)
Lemma slice_1 (f : list Z) p b : znth f p = Some b -> slice f p 1 = [b].
Proof.
  intros Hb. pose proof (znth_range _ _ _ Hb). apply znth_ext; [rewrite zlen_slice by lia; reflexivity|].
  intros k Hk. rewrite zlen_slice in Hk by lia. rewrite znth_slice by lia. assert (k = 0) by lia. subst k. now rewrite Z.add_0_r.
Qed.

Lemma byte_same rd f f' p b : io_sound rd f -> io_sound rd f' -> io_total rd f' -> znth f' p = Some b -> znth f p = Some b.
Proof.
  intros S1 S2 T Hb. pose proof (znth_range _ _ _ Hb) as Hp.
  destruct (T [] p 1 ltac:(lia) ltac:(lia) ltac:(lia)) as (l & R1 & R2).
  destruct (S1 [] p 1 l ltac:(lia) ltac:(lia) R1 R2) as (L & E1). destruct (S2 [] p 1 l ltac:(lia) ltac:(lia) R1 R2) as (_ & E2).
  rewrite (slice_1 _ _ _ Hb) in E2. destruct (znth_some f p) as (b' & Hb'); [lia|]. rewrite (slice_1 _ _ _ Hb') in E1. congruence.
Qed.

Lemma contents_bytes f v d s : Forall is_byte f -> contents f v d s -> Forall is_byte s.
Proof.
  intros Hf (_ & _ & HC). apply Forall_forall. intros b Hb. apply In_nth_error in Hb as (j & Hj).
  destruct (HC (Z.of_nat j) b) as (p & _ & Hp).
  { unfold znth. rewrite (proj2 (Z.ltb_ge (Z.of_nat j) 0)) by lia. now rewrite Nat2Z.id. }
  unfold znth in Hp. destruct (p <? 0); [discriminate|]. eapply Forall_forall; [exact Hf|]. eapply nth_error_In; eauto.
Qed.

Lemma contents_unique f v d s s' : contents f v d s -> contents f v d s' -> s = s'.
Proof.
  intros (_ & L1 & C1) (_ & L2 & C2). apply znth_ext; [congruence|]. intros i Hi.
  destruct (znth_some s i Hi) as (b & Hb). destruct (znth_some s' i) as (b' & Hb'); [congruence|]. rewrite Hb, Hb'.
  destruct (C1 i b Hb) as (p & P1 & F1). destruct (C2 i b' Hb') as (p' & P2 & F2).
  rewrite (stream_position_fun _ _ _ _ _ P2 P1) in F2. congruence.
Qed.

Lemma contains_unique f v l ds fo : contains f v l ds fo -> forall fo', contains f v l ds fo' -> fo = fo'.
Proof.
  induction 1 as [|d ds n c m s r H1 H2 H3 H4 H5 H6 H7 H8 H9 IH|d ds ds' n c m a r H1 H2 H3 H4 H5 H6 H7 IHa H8 IH]; intros fo' H'.
  - inversion H'. reflexivity.
  - inversion H'; subst; [|congruence]. f_equal; [eapply contents_unique; eauto|auto].
  - inversion H'; subst; [congruence|]. f_equal; [|auto]. apply IHa. match goal with H : children _ _ ?x |- contains _ _ _ ?y _ => idtac end.
    rewrite (children_unique l d ds' ds'0); auto.
Qed.

(** * The tree of an opened file *)
Section Tree.
Variables (u : una) (rd : reader) (f : list Z) (o : opened) (t : trace) (tr : tree) (root : dirent).
Hypothesis Hu : una_ok u.
Hypothesis HB : io_bytes rd.
Hypothesis HS : io_sound rd f.
Hypothesis HT : io_total rd f.
Hypothesis HO : open_read u rd [] = (Ok o, t).
Hypothesis Ho : o_tree o = Some tr.
Hypothesis HR : first_root (o_entries o) root.
Hypothesis H0 : de_id root = 0.
Let v := opened_volume o.
Let l := o_entries o.

Lemma volume_opened : v = volume_of (o_header o) (o_sat o) (o_ssat o) root.
Proof.
  destruct (opened_made u rd Hu HB o t HO tr Ho) as (root' & HM).
  assert (root' = root) by (eapply opened_root_unique; eauto). subst root'.
  unfold v, opened_volume, volume_of. rewrite Ho. destruct HM as (_ & _ & _ & _ & -> & _). reflexivity.
Qed.

(** The sub items of a node are the children of its entry. *)
Lemma node_children k nd : nth_error (tr_nodes tr) k = Some nd ->
  exists ds, Forall2 (item_entry tr) (n_subs nd) ds /\ children l (n_entry nd) ds.
Proof.
  intros Hk. assert (Hd : item_entry tr k (n_entry nd)) by (exists nd; auto).
  assert (HE : exists ds, Forall2 (item_entry tr) (n_subs nd) ds).
  { pose proof (opened_subs_valid u rd Hu HB o t HO tr k nd Ho Hk) as HV. clear - HV.
    induction HV as [|j js (d & Hd) _ (ds & IH)]; [exists []; constructor|exists (d :: ds); constructor; auto]. }
  destruct HE as (ds & HE). exists ds. split; [exact HE|]. split.
  - destruct (C24_sub_item_order u rd o t tr k _ Hu HB HO Ho Hd) as (n & _ & _ & _ & _ & _ & HC).
    assert (HG : forall i j, nth_error (n_subs nd) i = Some j -> get_sub_item tr k (Z.of_nat i) = Ok j).
    { intros i j Hj. unfold get_sub_item, sub_nodes. rewrite Hk. cbn [rbind]. unfold znth.
      rewrite (proj2 (Z.ltb_ge (Z.of_nat i) 0)) by lia. rewrite Nat2Z.id, Hj. reflexivity. }
    assert (HP : forall a b da db, (a < b)%nat -> nth_error ds a = Some da -> nth_error ds b = Some db -> de_id da < de_id db).
    { intros a b da db Hab Ha Hb.
      assert (HX : forall i d, nth_error ds i = Some d -> exists j, nth_error (n_subs nd) i = Some j /\ item_entry tr j d).
      { clear - HE. induction HE as [|j d js ds Hjd HE IH]; intros [|i] d' Hd'; try discriminate; cbn in *.
        - injection Hd' as <-. eauto.
        - eauto. }
      destruct (HX a da Ha) as (ja & A1 & A2). destruct (HX b db Hb) as (jb & B1 & B2).
      eapply (HC (Z.of_nat a) (Z.of_nat b)); eauto. lia. }
    clear - HP. induction ds as [|d ds IH]; constructor.
    + apply IH. intros a b da db Hab Ha Hb. apply (HP (S a) (S b)); auto. lia.
    + apply Forall_forall. intros x Hx. apply In_nth_error in Hx as (i & Hi). apply (HP O (S i)); auto. lia.
  - intros s. destruct (C23_sub_items u rd o t tr root Hu HB HO Ho HR H0) as (_ & _ & HC). unfold l. rewrite <- (HC k _ s Hd). split.
    + intros Hs. assert (forall js, Forall2 (item_entry tr) js ds -> In s ds -> exists j, In j js /\ item_entry tr j s) as G.
      { clear. intros js H. induction H as [|j d js ds' Hjd H IH]; intros []; [subst; exists j; split; [now left|auto]|].
        destruct (IH H0) as (j' & A & B). exists j'. split; [now right|auto]. }
      destruct (G _ HE Hs) as (j & A & B). exists j. split; [exists nd; auto|auto].
    + intros (j & (nd' & N1 & Hj) & Hs). assert (nd' = nd) by congruence. subst nd'.
      clear - HE Hj Hs. revert Hj. induction HE as [|j' d js ds' Hjd HE IH]; intros []; [subst|right; auto].
      destruct Hs as (a & A1 & A2). destruct Hjd as (b & B1 & B2). left. congruence.
Qed.

Lemma shows_contains js fo : shows rd v tr js fo -> (forall k nd, nth_error (tr_nodes tr) k = Some nd -> de_type (n_entry nd) = 1 -> de_size (n_entry nd) = 0) ->
  forall ds, Forall2 (item_entry tr) js ds -> contains f v l ds fo.
Proof.
  intros H Hnd. induction H as [|j js nd n c m s r H1 H2 H3 H4 H5 H6 H7 H8 IH|j js nd n c m a r H1 H2 IHa H3 H4 H5 H6 H7 IH]; intros ds HF.
  - inversion HF. constructor.
  - inversion HF as [|? d ? ds' Hd HF']; subst. destruct Hd as (nd' & N1 & <-). assert (nd' = nd) by congruence. subst nd'.
    destruct (node_children j nd H1) as (ds & HE & HC). rewrite H2 in HE. inversion HE; subst.
    destruct H7 as (_ & _ & SO & _ & IN & f' & S' & T' & C1 & C2 & C3).
    constructor; auto. split; [exact C1|]. split; [exact C2|]. intros i b Hb. destruct (C3 i b Hb) as (p & P1 & P2).
    exists p. split; [exact P1|]. eapply byte_same; eauto.
  - inversion HF as [|? d ? ds' Hd HF']; subst. destruct Hd as (nd' & N1 & <-). assert (nd' = nd) by congruence. subst nd'.
    destruct (node_children j nd H1) as (ds & HE & HC). econstructor; eauto.
Qed.

Lemma contains_shows ds fo : Forall is_byte f -> contains f v l ds fo ->
  forall js, Forall2 (item_entry tr) js ds -> shows rd v tr js fo.
Proof.
  intros Hf. induction 1 as [|d ds n c m s r H1 H2 H3 H4 H5 H6 H7 H8 H9 IH|d ds ds' n c m a r H1 H2 H3 H4 H5 H6 H7 IHa H8 IH]; intros js HF.
  - inversion HF. constructor.
  - inversion HF as [|j ? js' ? Hd HF']; subst. pose proof Hd as (nd & N1 & N2). rewrite <- N2 in *.
    destruct (node_children j nd N1) as (ds' & HE & HC). rewrite (children_unique _ _ _ _ HC H5) in HE. inversion HE; subst.
    econstructor; eauto. split; [exact (opened_volume_ok u rd Hu HB o t HO)|].
    split; [eapply opened_item_ok; eauto|]. split; [exact H8|]. split; [eapply contents_bytes; eauto|]. split; [exact H7|]. eauto.
  - inversion HF as [|j ? js' ? Hd HF']; subst. pose proof Hd as (nd & N1 & N2). rewrite <- N2 in *.
    destruct (node_children j nd N1) as (ds2 & HE & HC). rewrite (children_unique _ _ _ _ HC H6) in HE.
    econstructor; eauto.
Qed.

Lemma contains_no_data ds fo : contains f v l ds fo ->
  forall d x, In d ds -> below l d x -> de_type x = 1 -> de_size x = 0.
Proof.
  induction 1 as [|d ds n c m s r H1 H2 H3 H4 H5 H6 H7 H8 H9 IH|d ds ds' n c m a r H1 H2 H3 H4 H5 H6 H7 IHa H8 IH]; intros d' x Hd Hx Ht.
  - destruct Hd.
  - destruct Hd as [<-|Hd]; [|eauto]. apply clos_rt_rt1n in Hx. destruct Hx as [|y x Hy Hx]; [congruence|].
    apply H5 in Hy. destruct Hy.
  - destruct Hd as [<-|Hd]; [|eauto]. apply clos_rt_rt1n in Hx. destruct Hx as [|y x Hy Hx]; [congruence|].
    apply H6 in Hy. apply clos_rt1n_rt in Hx. eauto.
Qed.

Lemma stored_no_data ds fo : children l root ds -> contains f v l ds fo -> forall k nd,
  nth_error (tr_nodes tr) k = Some nd -> de_type (n_entry nd) = 1 -> de_size (n_entry nd) = 0.
Proof.
  intros HC H k nd Hk Ht. destruct (C23_sub_items u rd o t tr root Hu HB HO Ho HR H0) as (_ & HBl & _).
  assert (Hx : below l root (n_entry nd)). { apply HBl. unfold tree_entries. apply in_map. eapply nth_error_In; eauto. }
  apply clos_rt_rt1n in Hx. remember (n_entry nd) as e. destruct Hx as [|y e Hy Hx'].
  - destruct HR as (H5 & _). congruence.
  - apply HC in Hy. apply clos_rt1n_rt in Hx'. eapply contains_no_data; eauto.
Qed.
End Tree.
