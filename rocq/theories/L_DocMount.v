(** Lemmas on mounted documents. *)
From Coq Require Import ZArith List Bool Lia.
From Verif Require Import Base Spec_IO M_Header M_Table M_Load M_Stream M_Tree M_Open M_Item
  Spec_Stream Spec_Load Spec_Tree Spec_Open Spec_Content Spec_Item M_Mount M_Fuse Spec_Mount Spec_Fuse
  L_Base L_Item L_Mount L_Fuse L_Fuse2 P_Mount P_Fuse L_Load L_Write L_Write2 L_Write6 L_Write7 Spec_Write Spec_Doc L_Doc Spec_DocMount.
Import ListNotations.
Open Scope Z_scope.

Lemma mapped {A B} (R : A -> B -> Prop) l : Forall (fun x => exists y, R x y) l -> exists ys, Forall2 R l ys.
Proof.
  induction 1 as [|x l (y & Hy) _ (ys & IH)]; [exists []; constructor|exists (y :: ys); constructor; assumption].
Qed.

Section Mounted.
Variable m : mounted.
Variable rd : reader.
Variable h : file_header.
Variable root : dirent.
Variable doc : document.
Variable chars : list Z -> list Z.
Hypothesis HM : mounts m rd h root doc chars.

Notation same := (fun q n => same_list q (chars n)).

Lemma mounted_tree : exists o t tr, mount_of m o rd t /\ o_tree o = Some tr /\ mt_tree m = Some tr /\
  v_byte_order (mt_volume m) = fh_byte_order h /\ 4 <= v_sector_size (mt_volume m) /\
  v_short_sector_size (mt_volume m) = fh_short_sector_size h /\
  item_at rd (mt_volume m) tr doc Top 0 /\
  (forall k nd, nth_error (tr_nodes tr) k = Some nd -> de_type (n_entry nd) = 1 -> de_size (n_entry nd) = 0) /\
  (forall d, item_entry tr 0 d -> de_size d = de_size root).
Proof.
  pose proof (ms_holds _ _ _ _ _ _ HM) as HH.
  destruct (holds_opens _ _ _ _ _ HH) as (o & t & tr & H1 & H2 & H3 & H4 & H5 & H6).
  destruct (ms_mounted _ _ _ _ _ _ HM o t H1) as (M1 & M2).
  exists o, t, tr. rewrite M1.
  split.
  { split; [exact (ms_ok _ _ _ _ _ _ HM)|]. split; [exact (hd_una _ _ _ _ _ HH)|].
    split; [exact (hd_bytes _ _ _ _ _ HH)|]. auto. }
  split; [exact H2|]. split; [congruence|]. cbn [opened_volume v_byte_order v_sector_size v_short_sector_size]. rewrite H3.
  split; [reflexivity|]. split; [exact (holds_sector _ _ _ _ _ HH)|]. split; [reflexivity|]. split; [exact H4|]. split; [exact H5|].
  intros d (x & X1 & <-). destruct H6 as (y & Y1 & <-). congruence.
Qed.

Lemma walk_reached tr css ns p k : v_byte_order (mt_volume m) = fh_byte_order h ->
  (forall k nd, nth_error (tr_nodes tr) k = Some nd -> de_type (n_entry nd) = 1 -> de_size (n_entry nd) = 0) ->
  Forall2 (text (mt_codec m)) css ns -> Forall path_name css -> item_at rd (mt_volume m) tr doc p k ->
  (forall cs l, path_name cs -> text (mt_codec m) cs l ->
     names_ok (fun n => una_utf8_compare (mt_una m) l n (fh_byte_order h) = Ok (same_list cs (chars n))) (below doc p)) ->
  answer rd (mt_volume m) tr doc (reached doc same p css)
    (lookup_names (sub_node_by_utf8_name (mt_una m) (fh_byte_order h) tr) k ns).
Proof.
  intros He Hnd HT. revert p k. induction HT as [|cs n css ns Ht HT IH]; intros p k HPN HI HC; cbn [reached lookup_names].
  - exists k. auto.
  - inversion HPN as [|? ? Hcs HPN']; subst. pose proof HI as (nd & H1 & _ & H3 & _). unfold sub_node_by_utf8_name at 1, sub_nodes. rewrite H1. cbn [rbind].
    pose proof (loop_finds rd (mt_volume m) tr doc (fun x => una_utf8_compare (mt_una m) n x (fh_byte_order h))
                  (fun x => same_list cs (chars x)) _ _ (shows_members rd (mt_volume m) tr doc Hnd _ _ H3)) as HL.
    specialize (HL (names_members _ _ (HC cs n Hcs Ht))). destruct (find _ _) as [i|] eqn:E.
    + destruct HL as (j & -> & Hj). apply IH; [exact HPN'|exact Hj|]. apply find_some in E as (E & _).
      intros cs' l Hp Hl. eapply names_below; [|exact E]. exact (HC cs' l Hp Hl).
    + rewrite HL. reflexivity.
Qed.

Lemma path_names css path : mount_path_of m css path ->
  exists ns fs, path = mount_path fs /\ file_names_of m css ns fs.
Proof.
  intros (H1 & H2 & fs & H3 & -> & H4).
  destruct (mapped (fun cs l => text (mt_codec m) cs l /\ zlen l <= 922337203685477580) css H2) as (ns & HN).
  exists ns, fs. split; [reflexivity|].
  assert (HT : Forall2 (text (mt_codec m)) css ns).
  { clear - HN. induction HN; constructor; tauto. }
  split; [exact HT|]. split; [exact H1|]. split; [|exact H4].
  clear H2 H4 HT. revert fs H3. induction HN as [|cs n css ns (Ht & Hl) HN IH]; intros fs H3; inversion H3; subst; constructor.
  - inversion H1 as [|? ? (P1 & P2) P3]; subst. apply (proj2 (C36_exact (mt_codec m) cs n _ (mo_codec _ (ms_ok _ _ _ _ _ _ HM)) Ht P1
      ltac:(eapply Forall_impl; [|exact P2]; cbn; intros; lia) Hl)). assumption.
  - inversion H1; subst. apply IH; assumption.
Qed.

Lemma walk_answer tr css ns : v_byte_order (mt_volume m) = fh_byte_order h -> item_at rd (mt_volume m) tr doc Top 0 ->
  (forall k nd, nth_error (tr_nodes tr) k = Some nd -> de_type (n_entry nd) = 1 -> de_size (n_entry nd) = 0) ->
  Forall2 (text (mt_codec m)) css ns -> Forall path_name css ->
  answer rd (mt_volume m) tr doc (reached doc same Top css) (walk m tr ns).
Proof.
  intros He H0 Hnd HT HPN. unfold walk. rewrite He. apply walk_reached; auto. exact (ms_compare _ _ _ _ _ _ HM).
Qed.

Lemma looks_describes p d s : entry_of doc p d -> (p = Top -> de_size d = de_size root) ->
  describes (mt_time m) d s -> looks m root doc p s.
Proof.
  intros HE HT [D1 D2 D3 D4 D5 D6]. destruct p as [|[n c t l|n c t a]]; cbn [entry_of] in HE.
  - destruct HE as (E1 & _ & _ & E4). destruct (D2 (or_intror E1)) as (M1 & M2). constructor; cbn; auto; try congruence.
    rewrite D1. auto.
  - destruct HE as (E1 & _ & _ & E4 & E5). destruct D3 as (M1 & M2); [congruence|congruence|]. constructor; cbn; auto; congruence.
  - destruct HE as (E1 & _ & _ & E4 & E5). destruct (D2 (or_introl E1)) as (M1 & M2). constructor; cbn; auto; congruence.
Qed.

Lemma entry_mtime p d : entry_of doc p d -> de_mtime d = place_mtime doc p.
Proof. destruct p as [|[n c t l|n c t a]]; cbn [entry_of place_mtime]; tauto. Qed.

Lemma reached_top css : forall p, reached doc same p css = Some Top -> css = [].
Proof.
  induction css as [|q css IH]; intros p H; [reflexivity|]. cbn [reached] in H. destruct (find _ _) as [i|]; [|discriminate H].
  pose proof (IH _ H) as ->. discriminate H.
Qed.

(** What is found at a path, with its entry. *)
Lemma found tr css path p : mt_tree m = Some tr -> v_byte_order (mt_volume m) = fh_byte_order h ->
  item_at rd (mt_volume m) tr doc Top 0 ->
  (forall k nd, nth_error (tr_nodes tr) k = Some nd -> de_type (n_entry nd) = 1 -> de_size (n_entry nd) = 0) ->
  (forall d, item_entry tr 0 d -> de_size d = de_size root) ->
  mount_path_of m css path -> reached doc same Top css = Some p ->
  exists ns fs k d, path = mount_path fs /\ file_names_of m css ns fs /\ walk m tr ns = Ok (Some k) /\ item_entry tr k d /\
    item_at rd (mt_volume m) tr doc p k /\ entry_of doc p d /\ (p = Top -> de_size d = de_size root) /\
    entry_by_path m path = Ok (Some {| fe_node := k; fe_name := last fs []; fe_cursor := 0 |}).
Proof.
  intros Ht He H0 Hnd Hsz HP HR. destruct (path_names css path HP) as (ns & fs & -> & HN).
  pose proof (walk_answer tr css ns He H0 Hnd (proj1 HN) (proj1 (proj2 HN))) as HA. rewrite HR in HA. destruct HA as (k & Hw & HI).
  pose proof HI as (nd & N1 & N2 & _). exists ns, fs, k, (n_entry nd). split; [reflexivity|]. split; [exact HN|]. split; [exact Hw|].
  split; [exists nd; auto|]. split; [exact HI|]. split; [exact N2|]. split.
  - intros ->. apply reached_top in HR. subst css. destruct HN as (HT & _). inversion HT; subst. unfold walk in Hw. cbn in Hw.
    assert (k = 0%nat) by congruence. subst k. apply Hsz. exists nd. auto.
  - exact (proj1 (C53_path m tr css ns fs (ms_ok _ _ _ _ _ _ HM) Ht HN) k Hw).
Qed.

Lemma not_found tr css path : mt_tree m = Some tr -> v_byte_order (mt_volume m) = fh_byte_order h ->
  item_at rd (mt_volume m) tr doc Top 0 ->
  (forall k nd, nth_error (tr_nodes tr) k = Some nd -> de_type (n_entry nd) = 1 -> de_size (n_entry nd) = 0) ->
  mount_path_of m css path -> reached doc same Top css = None -> entry_by_path m path = Ok None.
Proof.
  intros Ht He H0 Hnd HP HR. destruct (path_names css path HP) as (ns & fs & -> & HN).
  pose proof (walk_answer tr css ns He H0 Hnd (proj1 HN) (proj1 (proj2 HN))) as HA. rewrite HR in HA.
  exact (proj1 (proj2 (C53_path m tr css ns fs (ms_ok _ _ _ _ _ _ HM) Ht HN)) HA).
Qed.

(** The stat structure of an item that is found. *)
Lemma stat_looks tr o t k d p : mount_of m o rd t -> o_tree o = Some tr -> item_entry tr k d ->
  entry_of doc p d -> (p = Top -> de_size d = de_size root) -> timely doc p ->
  exists s, entry_stat m k = Ok s /\ looks m root doc p s.
Proof.
  intros HO Ho Hk HE HT Hf. destruct (C54_opened m o rd t tr HO Ho) as (Ht & _ & HB).
  destruct (entry_stat_fits m tr (ms_ok _ _ _ _ _ _ HM) Ht (fun k d H => proj1 (HB k d H)) k d Hk) as (s & Hs & Hd).
  { rewrite (entry_mtime p d HE). exact Hf. }
  exists s. split; [exact Hs|]. eapply looks_describes; eauto.
Qed.

(** The listing of the items. *)
Lemma items_listed tr o t js l : mount_of m o rd t -> o_tree o = Some tr -> v_byte_order (mt_volume m) = fh_byte_order h ->
  Forall2 (fun j i => item_at rd (mt_volume m) tr doc (At i) j) js l ->
  Forall (fun i => path_name (chars (name_of i)) /\
      exists x, mt_name m (name_of i) (fh_byte_order h) = Some x /\ text (mt_codec m) (chars (name_of i)) x /\ zlen x <= 922337203685477580) l ->
  Forall (fun i => timely doc (At i)) l ->
  exists rest, Forall2 (lists m tr) js rest /\
    Forall2 (fun i x => file_name_text (mt_codec m) (chars (name_of i)) (fst x) /\ looks m root doc (At i) (snd x)) l rest.
Proof.
  intros HO Ho He HF. induction HF as [|j i js l HI HF IH]; intros HN HT; [exists []; split; constructor|].
  inversion HN as [|? ? ((P1 & P2) & x & X1 & X2 & X3) HN']; subst. inversion HT as [|? ? T1 HT']; subst.
  destruct (IH HN' HT') as (rest & R1 & R2).
  pose proof HI as (nd & N1 & N2 & _). assert (Hk : item_entry tr j (n_entry nd)) by (exists nd; auto).
  destruct (stat_looks tr o t j (n_entry nd) (At i) HO Ho Hk N2 ltac:(discriminate) T1) as (s & S1 & S2).
  assert (P0 : Forall (fun c => c <> 0) (chars (name_of i))) by (eapply Forall_impl; [|exact P2]; cbn; intros; lia).
  destruct (file_name_ok (mt_codec m) _ x (mo_codec _ (ms_ok _ _ _ _ _ _ HM)) X2 P1 P0 X3) as (f & F1 & _).
  destruct (file_name_good (mt_codec m) _ x f (mo_codec _ (ms_ok _ _ _ _ _ _ HM)) X2 P1 P0 F1) as (_ & _ & F2).
  destruct (C54_opened m o rd t tr HO Ho) as (Ht & _ & HB).
  exists ((f, s) :: rest). split; constructor; auto.
  - cbn [fst snd]. exists (n_entry nd), x, f. split; [exact Hk|].
    assert (En : de_name (n_entry nd) = name_of i) by (destruct i; cbn [entry_of name_of] in *; tauto).
    rewrite En, He. split; [exact X1|]. split; [exact F1|]. split; [auto|]. rewrite (entry_mtime (At i) _ N2). split; [exact T1|].
    destruct (entry_stat_fits m tr (ms_ok _ _ _ _ _ _ HM) Ht (fun k d H => proj1 (HB k d H)) j (n_entry nd) Hk) as (s' & Hs & Hd).
    { rewrite (entry_mtime (At i) _ N2). exact T1. }
    assert (s' = s) by congruence. subst s'. exact Hd.
  - cbn [fst snd]. split; [|exact S2].
    exact (proj1 (C36_exact (mt_codec m) _ x f (mo_codec _ (ms_ok _ _ _ _ _ _ HM)) X2 P1 P0 X3) F1).
Qed.
End Mounted.

(** * ASCII *)
Lemma text_of_ascii cd cs ys : codec_ok cd -> text cd cs ys -> Forall (fun y => 1 <= y < 128) ys -> Forall (fun c => c <> 0) cs -> cs = ys.
Proof.
  intros OK. induction 1 as [|c units cs bytes Hc Ht IH]; intros HY H0; [reflexivity|].
  inversion H0 as [|? ? C0 H0']; subst. apply Forall_app in HY as (HU & HY).
  assert (Hr : 0 <= c). { destruct (co_inverse _ OK _ _ Hc) as (_ & Hd). specialize (Hd [] []). apply (co_range _ OK) in Hd. lia. }
  destruct (Z_lt_ge_dec c 128) as [Hlt|Hge].
  - pose proof (co_ascii _ OK c ltac:(lia)) as Ha. rewrite Hc in Ha. assert (units = [c]) by congruence. subst units.
    cbn [app]. f_equal. auto.
  - exfalso. pose proof (co_other _ OK _ _ Hc ltac:(lia)) as Ho. destruct (co_inverse _ OK _ _ Hc) as (Hne & _).
    destruct units as [|b units]; [congruence|]. inversion HU; subst. inversion Ho; subst. lia.
Qed.

Lemma text_fun cd cs l l' : text cd cs l -> text cd cs l' -> l = l'.
Proof.
  intros H. revert l'. induction H as [|c units cs bytes Hc _ IH]; intros l' H'; inversion H' as [|? units' ? bytes' Hc' Ht']; subst; [reflexivity|].
  rewrite Hc in Hc'. apply Ok_inj in Hc'. subst units'. f_equal. auto.
Qed.
