(** Lemmas on the finished item tree. *)
From Coq Require Import ZArith List Bool Lia ZifyBool ZifyNat Permutation Sorted Relations.
From Verif Require Import Base Spec_Stream Spec_Load Spec_Tree L_Base M_Table M_Load M_Tree
  L_Load L_Load2 L_Tree L_Tree2.
Import ListNotations.
Open Scope Z_scope.

Definition final (t : tree) : tstate :=
  {| t_nodes := tr_nodes t; t_flags := tl (tr_flags t) |}.

(** What success of [create_tree] means. *)
Definition tree_made (u : una) (e : endian) (l : list dirent) (root : dirent) (tr : tree) : Prop :=
  find_root l = Some root /\ In root l /\ de_type root = 5 /\ de_sub root <> FREE /\
  tr_container_start tr = de_sector root /\
  tr_flags tr = de_id root :: t_flags (final tr) /\
  ((de_id root <> 0 /\ final tr = start_state root) \/
   (de_id root = 0 /\ exists newv a b c,
      grown u e l (start_state root) (final tr) (links l 0 (root, None)) newv /\
      entry_fine u e l (root, None) /\
      unfolds l [root] (Entry root a b c) /\
      Permutation (map fst newv) (unfolded a ++ unfolded b ++ unfolded c))).

Lemma create_tree_made u e l tr : una_ok u -> entries_ok l ->
  create_tree u e l = Ok (Some tr) -> exists root, tree_made u e l root tr.
Proof.
  intros Hu Hl H. unfold create_tree in H. destruct l as [|d0 l0]; [discriminate|].
  set (l := d0 :: l0) in *. destruct (find_root l) as [root|] eqn:Er; [|discriminate].
  destruct (find_root_In l root Er) as [Hin Ht].
  change UNUSED with FREE in H. destruct (de_sub root =? FREE) eqn:Es; [discriminate|].
  fold (start_state root) in H.
  apply rbind_ok in H as (st & Hst & H). injection H as <-.
  exists root. split; auto. split; auto. split; auto. split; [lia|]. split; auto. split; auto.
  assert (Hfin : final {| tr_nodes := t_nodes st; tr_flags := de_id root :: t_flags st; tr_container_start := de_sector root |} = st)
    by (destruct st; reflexivity).
  rewrite Hfin. clear Hfin.
  destruct (Z.eq_dec (de_id root) 0) as [E|E].
  - right. split; auto. rewrite E in Hst.
    destruct (process_entry_effect u e l Hl _ (start_state root) 0%nat root None st (start_wf _ _ Hin) Hin eq_refl Hst)
      as (Hf & newv & G).
    destruct (process_entry_finds u e l Hl _ (start_state root) 0%nat root None st (start_wf _ _ Hin) Hin eq_refl Hst)
      as (a & b & c & Hun & _ & v & Hv & Hp).
    exists newv, a, b, c. split; auto. split; auto. split; auto.
    pose proof (gr_vw _ _ _ _ _ _ _ G) as Hv'. rewrite Hv' in Hv. apply app_inv_head in Hv. now subst v.
  - left. split; auto. replace (length l + 2)%nat with (S (length l + 1)) in Hst by lia.
    destruct (process_other_root (length l + 1) u e (de_id root) l root E Hu) as [H|H]; congruence.
Qed.

Section Made.
  Variable u : una.
  Variable e : endian.
  Variable l : list dirent.
  Hypothesis Hl : entries_ok l.
  Variable root : dirent.
  Variable tr : tree.
  Hypothesis HM : tree_made u e l root tr.

  Lemma made_wf : wf l (final tr).
  Proof.
    destruct HM as (_ & Hin & _ & _ & _ & _ & [[_ ->]|[_ (newv & a & b & c & G & _)]]).
    - now apply start_wf.
    - apply (gr_wf _ _ _ _ _ _ _ G).
  Qed.

  Lemma made_entries : tree_entries tr = map fst (vw (final tr)).
  Proof. unfold tree_entries, vw. rewrite map_map. reflexivity. Qed.

  Lemma made_nodup : NoDup (map de_id (tree_entries tr)).
  Proof.
    rewrite made_entries, map_map.
    destruct HM as (_ & Hin & _ & _ & _ & _ & [[_ ->]|[_ (newv & a & b & c & G & _)]]).
    - repeat constructor. cbn. auto.
    - eapply all_nodup; eauto.
  Qed.

  Lemma made_incl : incl (tree_entries tr) l.
  Proof.
    rewrite made_entries. intros d Hd. apply in_map_iff in Hd as (x & <- & Hx).
    exact (proj1 (Forall_forall _ _) (wf_in _ _ made_wf) _ Hx).
  Qed.

  Lemma made_root : item_entry tr 0 root.
  Proof.
    assert (H : nth_error (vw (final tr)) 0 = Some (root, None)).
    { destruct HM as (_ & Hin & _ & _ & _ & _ & [[_ ->]|[_ (newv & a & b & c & G & _)]]); [reflexivity|].
      rewrite (gr_vw _ _ _ _ _ _ _ G). reflexivity. }
    rewrite vw_nth in H. unfold item_entry. change (tr_nodes tr) with (t_nodes (final tr)).
    destruct (nth_error (t_nodes (final tr)) 0) as [n|]; [|discriminate]. cbn in H. exists n. split; congruence.
  Qed.

  Lemma item_vw k d : item_entry tr k d <-> exists q, nth_error (vw (final tr)) k = Some (d, q).
  Proof.
    unfold item_entry. rewrite vw_nth. change (tr_nodes tr) with (t_nodes (final tr)).
    destruct (nth_error (t_nodes (final tr)) k) as [n|]; cbn.
    - split; [intros (n' & [= <-] & <-); eauto|intros (q & [= <- <-]); eauto].
    - split; [intros (n & ? & _); discriminate|intros (q & ?); discriminate].
  Qed.

  Lemma sub_vw k j : (exists d, item_entry tr k d) ->
    (item_sub tr k j <-> exists d, nth_error (vw (final tr)) j = Some (d, Some k)).
  Proof.
    intros (d & n & Hn & Hd). change (tr_nodes tr) with (t_nodes (final tr)) in Hn.
    destruct (wf_subs _ _ made_wf _ _ Hn) as [_ Hj]. rewrite <- Hj. unfold item_sub.
    change (tr_nodes tr) with (t_nodes (final tr)). split; [intros (n' & Hn' & H)|eauto]. congruence.
  Qed.

  Lemma made_subs k d s : de_id root = 0 -> item_entry tr k d ->
    ((exists j, item_sub tr k j /\ item_entry tr j s) <-> sub_item l d s).
  Proof.
    intros H0 Hk. pose proof (proj1 (item_vw _ _) Hk) as (q & Hkv).
    destruct HM as (_ & Hin & _ & _ & _ & _ & [[? _]|[_ (newv & a & b & c & G & _)]]); [congruence|].
    split.
    - intros (j & Hj & Hs). apply (sub_vw k j) in Hj as (s' & Hj); [|eauto].
      apply item_vw in Hs as (q' & Hs). rewrite Hj in Hs. injection Hs as <- _.
      eapply node_sub_item; eauto.
    - intros Hsub. destruct (sub_item_node u e l root (final tr) newv G _ _ _ _ Hkv Hsub) as (j & Hj).
      exists j. split; [apply sub_vw; eauto|apply item_vw; eauto].
  Qed.

  Lemma made_below d : de_id root = 0 -> (In d (tree_entries tr) <-> below l root d).
  Proof.
    intros H0.
    destruct HM as (_ & Hin & _ & _ & _ & _ & [[? _]|[_ (newv & a & b & c & G & _)]]); [congruence|].
    rewrite made_entries, in_map_iff. split.
    - intros ((d' & q) & <- & Hx). apply In_nth_error in Hx as (j & Hj). eapply node_below; eauto.
    - intros Hb. destruct (below_node u e l root (final tr) newv G d Hb) as (j & q & Hj).
      exists (d, q). split; auto. eapply nth_error_In; eauto.
  Qed.

  Lemma made_other : de_id root <> 0 -> tree_entries tr = [root].
  Proof.
    intros H0. rewrite made_entries.
    destruct HM as (_ & Hin & _ & _ & _ & _ & [[_ ->]|[? _]]); [reflexivity|congruence].
  Qed.

  Lemma made_sorted k n : nth_error (tr_nodes tr) k = Some n ->
    exists ds, Forall2 (item_entry tr) (n_subs n) ds /\ StronglySorted (fun a b => de_id a < de_id b) ds.
  Proof.
    intros Hn. change (tr_nodes tr) with (t_nodes (final tr)) in Hn.
    destruct (wf_subs _ _ made_wf _ _ Hn) as [(ids & Hids & Hso) _].
    generalize dependent ids. generalize (n_subs n) as subs.
    induction subs as [|j subs IH]; intros [|i ids] H Hs; try discriminate.
    - exists []. split; constructor.
    - cbn [map] in H. injection H as Hi H. inversion Hs as [|x y Hs' Hall]; subst.
      destruct (IH _ H Hs') as (ds & F & S).
      unfold id_of, entry_of in Hi. destruct (nth_error (tr_nodes tr) j) as [nj|] eqn:Ej; cbn in Hi; [|discriminate Hi].
      injection Hi as Hi. exists (n_entry nj :: ds). split.
      + constructor; auto. exists nj. auto.
      + constructor; auto. subst i. clear - F H Hall. revert ids H Hall.
        induction F as [|k d ks ds Hd F IH]; intros [|i ids] H Hall; cbn [map] in H; try discriminate; constructor.
        * injection H as Hi _. destruct Hd as (n & Hn & <-). unfold id_of, entry_of in Hi.
          rewrite Hn in Hi. cbn in Hi. injection Hi as ->.
          now inversion Hall.
        * injection H as _ H. inversion Hall; subst. eauto.
  Qed.

  (** Links *)
  Definition targets (d : dirent) : list dirent := sub_targets l d ++ prev_targets l d ++ next_targets l d.

  Lemma map_links k x : map fst (links l k x) = targets (fst x).
  Proof.
    unfold links, targets. rewrite !map_app, !map_map. cbn [fst]. rewrite !map_id. reflexivity.
  Qed.

  Lemma map_all_links xs : forall k, map fst (all_links l k xs) = flat_map targets (map fst xs).
  Proof.
    induction xs as [|x xs IH]; intros k; cbn [all_links map flat_map]; auto.
    rewrite map_app, map_links, IH. reflexivity.
  Qed.

  Lemma made_links : de_id root = 0 ->
    NoDup (map de_id (root :: flat_map targets (tree_entries tr))) /\
    prev_targets l root = [] /\ next_targets l root = [].
  Proof.
    intros H0. pose proof made_nodup as Hnd. rewrite made_entries in *.
    destruct HM as (_ & Hin & _ & _ & _ & _ & [[? _]|[_ (newv & a & b & c & G & _)]]); [congruence|].
    rewrite (gr_vw _ _ _ _ _ _ _ G) in *.
    change (vw (start_state root)) with [(root, @None nat)] in *. cbn [app map fst flat_map] in *.
    pose proof (gr_perm _ _ _ _ _ _ _ G) as Hp. cbn [length] in Hp.
    split.
    - apply (Permutation_map fst) in Hp. rewrite map_app, map_links, map_all_links in Hp. cbn [fst] in Hp.
      eapply Permutation_NoDup; [|exact Hnd]. apply perm_skip. now apply Permutation_map.
    - assert (Hs : forall x, In x (links l 0 (root, None)) -> exists p, snd x = Some p).
      { intros x Hx. eapply newv_some; eauto. eapply Permutation_in; [symmetry; exact Hp|]. apply in_or_app. now left. }
      unfold links in Hs. cbn [fst snd] in Hs. split.
      + destruct (prev_targets l root) as [|s ss]; auto. exfalso.
        destruct (Hs (s, None)) as (p & Hx); [|discriminate]. apply in_or_app. right. apply in_or_app. left. now left.
      + destruct (next_targets l root) as [|s ss]; auto. exfalso.
        destruct (Hs (s, None)) as (p & Hx); [|discriminate]. apply in_or_app. right. apply in_or_app. right. now left.
  Qed.

  Lemma made_fine d : de_id root = 0 -> In d (tree_entries tr) -> fine u e l d.
  Proof.
    intros H0 Hd. rewrite made_entries in Hd.
    destruct HM as (_ & Hin & _ & _ & _ & _ & [[? _]|[_ (newv & a & b & c & G & Hf & _)]]); [congruence|].
    rewrite (gr_vw _ _ _ _ _ _ _ G) in Hd. cbn in Hd. destruct Hd as [<-|Hd]; [exact Hf|].
    apply in_map_iff in Hd as (x & <- & Hx).
    exact (proj1 (Forall_forall _ _) (gr_fine _ _ _ _ _ _ _ G) _ Hx).
  Qed.
End Made.

(** The root on its own. *)
Lemma create_tree_root u e l tr root : una_ok u -> entries_ok l ->
  create_tree u e l = Ok (Some tr) -> find_root l = Some root -> tree_made u e l root tr.
Proof.
  intros Hu Hl H Hr. destruct (create_tree_made u e l tr Hu Hl H) as (root' & HM).
  assert (root' = root) by (destruct HM; congruence). now subst.
Qed.

(** Exact acceptance. *)
Lemma unfolds_In l ds t : unfolds l ds t -> incl ds l -> incl (unfolded t) l.
Proof.
  induction 1 as [|d a b c Ha IHa Hb IHb Hc IHc]; intros Hin x Hx; [destruct Hx|].
  cbn [unfolded] in Hx. destruct Hx as [<-|Hx]; [apply Hin; now left|].
  assert (Hn : forall id, incl (named l id) l) by (intros id y Hy; apply named_In in Hy; tauto).
  rewrite !in_app_iff in Hx. destruct Hx as [Hx|[Hx|Hx]].
  - apply IHa; auto. unfold sub_targets. destruct (_ || _); [intros y []|apply Hn].
  - apply IHb; auto. unfold prev_targets. destruct (_ =? _); [intros y []|apply Hn].
  - apply IHc; auto. unfold next_targets. destruct (_ =? _); [intros y []|apply Hn].
Qed.

Lemma unfolds_nil l t : unfolds l [] t -> t = Nothing.
Proof. now inversion 1. Qed.

Definition acceptable_root (u : una) (e : endian) (l : list dirent) (root : dirent) : Prop :=
  exists t, unfolds l [root] t /\ NoDup (map de_id (unfolded t)) /\
    prev_targets l root = [] /\ next_targets l root = [] /\
    Forall (fun d => ~ dangling_next l d /\ name_comparable u e d) (unfolded t).

Lemma create_tree_exact u e l root : una_ok u -> entries_ok l ->
  find_root l = Some root -> de_id root = 0 -> de_sub root <> FREE ->
  ((exists tr, create_tree u e l = Ok (Some tr)) <-> acceptable_root u e l root).
Proof.
  intros Hu Hl Hr H0 Hs. destruct (find_root_In l root Hr) as [Hin _]. split.
  - intros (tr & H). pose proof (create_tree_root u e l tr root Hu Hl H Hr) as HM.
    destruct (made_links u e l Hl root tr HM H0) as (_ & Hp & Hn).
    pose proof (made_nodup u e l Hl root tr HM) as Hnd.
    pose proof (made_fine u e l root tr HM) as Hf.
    pose proof (made_entries tr) as He.
    destruct HM as (_ & _ & _ & _ & _ & _ & [[? _]|[_ (newv & a & b & c & G & _ & Hun & Hperm)]]); [congruence|].
    rewrite (gr_vw _ _ _ _ _ _ _ G) in He. cbn in He. rewrite He in *.
    assert (HP : Permutation (root :: map fst newv) (unfolded (Entry root a b c))).
    { cbn [unfolded]. now apply perm_skip. }
    exists (Entry root a b c). split; auto. split.
    { eapply Permutation_NoDup; [|exact Hnd]. now apply Permutation_map. }
    split; auto. split; auto.
    apply Forall_forall. intros d Hd. eapply Permutation_in in Hd; [|symmetry; exact HP].
    destruct (Hf d H0 Hd) as [H1 H2]. split; auto. now apply check_summary_fine.
  - intros (t & Hun & Hnd & Hp & Hn & Hf).
    inversion Hun as [|d a b c Ua Ub Uc Ed Et]; subst.
    rewrite Hp in Ub. rewrite Hn in Uc. pose proof (unfolds_nil _ _ Ub). pose proof (unfolds_nil _ _ Uc). subst b c.
    assert (Hfine : Forall (fine u e l) (unfolded (Entry root a Nothing Nothing))).
    { eapply Forall_impl; [|exact Hf]. cbn. intros d [H1 H2]. split; auto. now apply check_summary_fine. }
    assert (Hlen : (length (unfolded (Entry root a Nothing Nothing)) <= length l)%nat).
    { apply NoDup_incl_length; [eapply NoDup_map_inv; exact Hnd|].
      apply (unfolds_In _ _ _ Hun). intros x [<-|[]]. exact Hin. }
    pose proof (height_le (Entry root a Nothing Nothing)) as Hh.
    destruct (process_entry_builds u e l Hl root a Nothing Nothing (length l + 2) Hun Hin Hfine ltac:(lia)
                (start_state root) 0%nat None (start_wf _ _ Hin) eq_refl) as (st & Hst & _).
    + auto.
    + cbn [unfolded map] in Hnd. now inversion Hnd.
    + cbn. auto.
    + unfold create_tree. destruct l as [|d0 l0]; [destruct Hin|]. set (l := d0 :: l0) in *.
      rewrite Hr. change UNUSED with FREE. destruct (de_sub root =? FREE) eqn:E; [lia|].
      fold (start_state root). rewrite H0, Hst. cbn [rbind]. eauto.
Qed.

(** Two links to one entry. *)
Lemma flat_map_NoDup {A} (f : A -> list dirent) xs a b x y :
  NoDup (map de_id (flat_map f xs)) -> In a xs -> In b xs -> a <> b ->
  In x (f a) -> In y (f b) -> de_id x <> de_id y.
Proof.
  induction xs as [|c xs IH]; intros H Ha Hb Hab Hx Hy; [destruct Ha|].
  cbn [flat_map] in H. rewrite map_app in H.
  assert (Hd : forall p q, In p (f c) -> In q (flat_map f xs) -> de_id p <> de_id q).
  { intros p q Hp Hq E. apply (NoDup_app_disj _ _ (de_id p) H); [now apply in_map|].
    rewrite E. now apply in_map. }
  destruct Ha as [->|Ha], Hb as [->|Hb].
  - congruence.
  - apply Hd; auto. apply in_flat_map. eauto.
  - apply not_eq_sym. apply Hd; auto. apply in_flat_map. eauto.
  - apply IH; auto. eapply NoDup_app_r; eauto.
Qed.
