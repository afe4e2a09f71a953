(** Termination of the construction of the item tree and its exact condition
    of success. *)
From Coq Require Import ZArith List Bool Lia ZifyBool ZifyNat Permutation Sorted Relations.
From Verif Require Import Base Spec_Stream Spec_Load Spec_Tree L_Base M_Table M_Load M_Tree L_Load2 L_Tree.
Import ListNotations.
Open Scope Z_scope.

Lemma check_summary_defined u e d : una_ok u -> defined (check_summary_name u e d).
Proof.
  intros [H _]. unfold check_summary_name.
  destruct (zlen (de_name d) =? 28); [|destruct (zlen (de_name d) =? 20); [|exact I]].
  - specialize (H str_document_summary (de_name d) e). destruct (una_utf8_compare _ _ _ _); auto.
  - specialize (H str_summary (de_name d) e). destruct (una_utf8_compare _ _ _ _); auto.
Qed.

Lemma check_summary_fine u e d : una_ok u ->
  check_summary_name u e d = Ok tt <-> name_comparable u e d.
Proof.
  intros [H _]. unfold check_summary_name, name_comparable.
  change summary_stream_name with str_summary. change document_summary_stream_name with str_document_summary.
  pose proof (H str_document_summary (de_name d) e) as H1.
  pose proof (H str_summary (de_name d) e) as H2.
  destruct (zlen (de_name d) =? 28) eqn:E1; [|destruct (zlen (de_name d) =? 20) eqn:E2].
  - destruct (una_utf8_compare u str_document_summary (de_name d) e); cbn in *; try easy.
    + split; auto. intros _. split; intros; [congruence|lia].
    + split; [discriminate|]. intros [Ha _]. exfalso. apply Ha; [lia|reflexivity].
  - destruct (una_utf8_compare u str_summary (de_name d) e); cbn in *; try easy.
    + split; auto. intros _. split; intros; [lia|congruence].
    + split; [discriminate|]. intros [_ Ha]. exfalso. apply Ha; [lia|reflexivity].
  - split; auto. intros _. split; intros; lia.
Qed.

(** * Termination *)
Definition unset (l : list dirent) (st : tstate) : nat :=
  length (filter (fun d => negb (is_set st d)) l).

Lemma filter_le {A} (f g : A -> bool) l :
  (forall x, In x l -> f x = true -> g x = true) ->
  (length (filter f l) <= length (filter g l))%nat.
Proof.
  induction l as [|a l IH]; intros H; cbn [filter]; auto.
  assert (IH' : (length (filter f l) <= length (filter g l))%nat) by (apply IH; intros; apply H; auto; now right).
  pose proof (H a (or_introl eq_refl)).
  destruct (f a), (g a); cbn [length]; lia.
Qed.

Lemma filter_lt {A} (f g : A -> bool) l s :
  (forall x, In x l -> f x = true -> g x = true) -> In s l -> f s = false -> g s = true ->
  (length (filter f l) < length (filter g l))%nat.
Proof.
  induction l as [|a l IH]; intros H Hs H1 H2; [destruct Hs|]. cbn [filter].
  pose proof (H a (or_introl eq_refl)).
  assert (Hle : (length (filter f l) <= length (filter g l))%nat)
    by (apply filter_le; intros; apply H; auto; now right).
  destruct Hs as [->|Hs].
  - rewrite H1, H2. cbn [length]. lia.
  - assert (Hlt : (length (filter f l) < length (filter g l))%nat)
      by (apply IH; auto; intros; apply H; auto; now right).
    destruct (f a), (g a); cbn [length]; lia.
Qed.

Lemma flags_vw l st : wf l st -> t_flags st = rev (map (fun x => de_id (fst x)) (tl (vw st))).
Proof. apply wf_flags. Qed.

Lemma flags_grow l st st' v : wf l st -> wf l st' -> vw st' = vw st ++ v ->
  t_flags st' = rev (map (fun x => de_id (fst x)) v) ++ t_flags st.
Proof.
  intros W W' H. rewrite (wf_flags _ _ W), (wf_flags _ _ W'), H.
  destruct (wf_root _ _ W) as (d & vs & Hr). rewrite Hr. cbn [tl app].
  now rewrite map_app, rev_app_distr.
Qed.

Lemma unset_grow l st st' v : wf l st -> wf l st' -> vw st' = vw st ++ v ->
  (unset l st' <= unset l st)%nat.
Proof.
  intros W W' H. apply filter_le. intros x _ Hx.
  apply negb_true_iff in Hx. apply negb_true_iff. rewrite is_set_false in *.
  rewrite (flags_grow _ _ _ _ W W' H) in Hx. intros Hin. apply Hx. apply in_or_app. now right.
Qed.

Lemma unset_attach l st st' p s : wf l st -> In s l -> is_set st s = false ->
  attached l st st' p s -> (unset l st' < unset l st)%nat.
Proof.
  intros W Hs Hf [W' H]. apply filter_lt with (s := s); auto.
  - intros x _ Hx. apply negb_true_iff in Hx. apply negb_true_iff. rewrite is_set_false in *.
    rewrite (flags_grow _ _ _ _ W W' H) in Hx. intros Hin. apply Hx. apply in_or_app. now right.
  - apply negb_false_iff. destruct (is_set st' s) eqn:E; auto. apply is_set_false in E.
    exfalso. apply E. rewrite (flags_grow _ _ _ _ W W' H). cbn. now left.
  - apply negb_true_iff. exact Hf.
Qed.

Lemma add_node_defined l st p s : wf l st ->
  (forall p', p = Some p' -> (p' < length (t_nodes st))%nat) -> defined (add_node st p s).
Proof.
  intros W Hp. unfold add_node. destruct p as [p|]; [|exact I].
  destruct (nth_error (t_nodes st) p) eqn:E; [|apply nth_error_None in E; specialize (Hp p eq_refl); lia].
  destruct (insert_sub _ _ _ _); exact I.
Qed.

Section Terminates.
  Variable u : una.
  Variable e : endian.
  Variable l : list dirent.
  Hypothesis Hu : una_ok u.
  Hypothesis Hl : entries_ok l.

  Lemma vw_length st : length (vw st) = length (t_nodes st).
  Proof. unfold vw. apply map_length. Qed.

  Lemma parent_valid st k d p : wf l st -> nth_error (vw st) k = Some (d, Some p) ->
    (p < length (t_nodes st))%nat.
  Proof.
    intros W Hk. destruct k as [|k].
    - destruct (wf_root _ _ W) as (dr & vs & Hr). rewrite Hr in Hk. discriminate.
    - destruct (wf_parent _ _ W (S k) _ _ ltac:(lia) Hk) as (p' & [= <-] & Hlt).
      assert (S k < length (vw st))%nat by (apply nth_error_Some; congruence).
      rewrite vw_length in *. lia.
  Qed.

  Lemma process_entry_defined fuel : forall st k d q,
    wf l st -> In d l -> nth_error (vw st) k = Some (d, q) -> (unset l st < fuel)%nat ->
    defined (process_entry fuel u e 0 l st k d).
  Proof.
    induction fuel as [|fuel IH]; intros st k d q W Hd Hk Hf; [lia|].
    cbn [process_entry]. set (process := process_entry fuel u e 0 l) in *.
    pose proof (check_summary_defined u e d Hu) as Hcs.
    destruct (check_summary_name u e d) as [[]| | |] eqn:Ecs; cbn [rbind]; try exact Hcs.
    destruct Hl as [Hnd Hall]. pose proof (proj1 (Forall_forall _ _) Hall _ Hd) as (Hu1 & Hu2 & Hu3 & Hu4).
    (* one link *)
    assert (Hlink : forall st0 p s, wf l st0 -> In s l -> (unset l st0 < S fuel)%nat ->
              (forall p', p = Some p' -> (p' < length (t_nodes st0))%nat) ->
              defined (process_link process st0 p s)).
    { intros st0 p s W0 Hs Hf0 Hp. unfold process_link.
      destruct (is_set st0 s) eqn:Es; [exact I|].
      pose proof (add_node_defined l st0 p s W0 Hp) as Ha.
      destruct (add_node st0 p s) as [[st1 k1]| | |] eqn:Ea; cbn [rbind]; try exact Ha.
      destruct (add_node_ok _ _ _ _ _ _ W0 Hs Es Ea) as (p' & -> & -> & Hlt & Hat).
      pose proof (unset_attach _ _ _ _ _ W0 Hs Es Hat) as Hus.
      destruct Hat as [W1 Hv]. apply (IH _ _ _ (Some p')); auto; [|lia].
      rewrite Hv, nth_error_app2 by (rewrite vw_length; lia). rewrite vw_length, Nat.sub_diag. reflexivity. }
    assert (Hlinkok : forall st0 p s st1, wf l st0 -> In s l ->
              process_link process st0 p s = Ok st1 ->
              exists v, wf l st1 /\ vw st1 = vw st0 ++ v).
    { intros st0 p s st1 W0 Hs H0.
      destruct (process_link_effect u e l process _ _ _ _ (process_entry_effect u e l Hl fuel) W0 Hs H0)
        as (p' & _ & v & Hg). exists v. split; [apply (gr_wf _ _ _ _ _ _ _ Hg)|apply (gr_vw _ _ _ _ _ _ _ Hg)]. }
    assert (S1 : forall r1, r1 = (if negb (de_sub d =? UNUSED) && negb (de_sub d =? 0) && (0 =? 0)
         then match find_entry l (de_sub d) with
              | None => Ok st
              | Some s => process_link process st (Some k) s
              end
         else Ok st) -> defined r1 /\ forall st1, r1 = Ok st1 -> exists v, wf l st1 /\ vw st1 = vw st ++ v).
    { intros r1 ->. assert (Hsame : exists v, wf l st /\ vw st = vw st ++ v)
        by (exists []; split; auto; now rewrite app_nil_r).
      destruct (negb (de_sub d =? UNUSED) && negb (de_sub d =? 0) && (0 =? 0)).
      2: { split; [exact I|]. intros st1 [= <-]. exact Hsame. }
      destruct (find_entry l (de_sub d)) as [s|] eqn:Ef.
      2: { split; [exact I|]. intros st1 [= <-]. exact Hsame. }
      assert (In s l) by (eapply target_In; eauto).
      split; [apply Hlink; auto|intros st1 H1; eapply Hlinkok; eauto].
      intros p' [= <-]. rewrite <- vw_length. apply nth_error_Some. congruence. }
    destruct (S1 _ eq_refl) as [D1 O1].
    destruct (if negb (de_sub d =? UNUSED) && negb (de_sub d =? 0) && (0 =? 0) then _ else _)
      as [st1| | |] eqn:E1; cbn [rbind]; try exact D1.
    destruct (O1 _ eq_refl) as (v1 & W1 & V1). clear S1 D1 O1 E1.
    pose proof (unset_grow _ _ _ _ W W1 V1) as U1.
    assert (Hk1 : nth_error (vw st1) k = Some (d, q)).
    { rewrite V1, nth_error_app1; auto. apply nth_error_Some. congruence. }
    cbn zeta. rewrite (parent_vw _ _ _ _ Hk1).
    assert (S2 : forall r2, r2 = (if negb (de_prev d =? UNUSED)
         then match find_entry l (u32 (s32 (de_prev d))) with
              | None => Ok st1
              | Some s => process_link process st1 q s
              end
         else Ok st1) -> defined r2 /\ forall st2, r2 = Ok st2 -> exists v, wf l st2 /\ vw st2 = vw st1 ++ v).
    { intros r2 ->. assert (Hsame : exists v, wf l st1 /\ vw st1 = vw st1 ++ v)
        by (exists []; split; auto; now rewrite app_nil_r).
      destruct (negb (de_prev d =? UNUSED)).
      2: { split; [exact I|]. intros st2 [= <-]. exact Hsame. }
      destruct (find_entry l (u32 (s32 (de_prev d)))) as [s|] eqn:Ef.
      2: { split; [exact I|]. intros st2 [= <-]. exact Hsame. }
      assert (In s l) by (eapply target_In; eauto).
      split; [apply Hlink; auto; [lia|]|intros st2 H2; eapply Hlinkok; eauto].
      intros p' ->. eapply parent_valid; eauto. }
    destruct (S2 _ eq_refl) as [D2 O2].
    destruct (if negb (de_prev d =? UNUSED) then _ else _) as [st2| | |] eqn:E2; cbn [rbind]; try exact D2.
    destruct (O2 _ eq_refl) as (v2 & W2 & V2). clear S2 D2 O2 E2.
    pose proof (unset_grow _ _ _ _ W1 W2 V2) as U2.
    assert (Hk2 : nth_error (vw st2) k = Some (d, q)).
    { rewrite V2, nth_error_app1; auto. apply nth_error_Some. congruence. }
    rewrite (parent_vw _ _ _ _ Hk2).
    destruct (negb (de_next d =? UNUSED)); [|exact I].
    destruct (find_entry l (u32 (s32 (de_next d)))) as [s|] eqn:Ef; [|exact I].
    assert (In s l) by (eapply target_In; eauto).
    apply Hlink; auto; [lia|]. intros p' ->. eapply parent_valid; eauto.
  Qed.
End Terminates.

Lemma unset_le l st : (unset l st <= length l)%nat.
Proof.
  unfold unset. induction l as [|a l IH]; cbn [filter length]; auto.
  destruct (negb (is_set st a)); cbn [length]; lia.
Qed.

Lemma find_root_In l root : find_root l = Some root -> In root l /\ de_type root = 5.
Proof.
  induction l as [|a l IH]; cbn [find_root]; [discriminate|].
  destruct (de_type a =? TYPE_ROOT_STORAGE) eqn:E.
  - intros [= <-]. split; [now left|]. change TYPE_ROOT_STORAGE with 5 in E. lia.
  - intros H. destruct (IH H) as [H1 H2]. split; [now right|auto].
Qed.

(** A root elsewhere than in slot 0. *)
Lemma process_other_root fuel u e rid l root : rid <> 0 -> una_ok u ->
  process_entry (S fuel) u e rid l (start_state root) 0 root = Err \/
  process_entry (S fuel) u e rid l (start_state root) 0 root = Ok (start_state root).
Proof.
  intros Hr Hu. cbn [process_entry].
  pose proof (check_summary_defined u e root Hu) as Hcs.
  destruct (check_summary_name u e root) as [[]| | |]; cbn [rbind]; try (exfalso; exact Hcs); [|now left].
  destruct (rid =? 0) eqn:E0; [lia|]. rewrite !andb_false_r. cbn [rbind].
  cbn zeta. change (nth_error (t_nodes (start_state root)) 0) with
    (Some {| n_entry := root; n_parent := None; n_subs := [] |}). cbn [n_parent].
  assert (Hpl : forall process s, process_link process (start_state root) None s = Err) by reflexivity.
  destruct (negb (de_prev root =? UNUSED)); cbn [rbind].
  - destruct (find_entry l (u32 (s32 (de_prev root)))); [rewrite Hpl; now left|]. cbn [rbind].
    destruct (negb (de_next root =? UNUSED)); [|now right].
    destruct (find_entry l (u32 (s32 (de_next root)))); [rewrite Hpl|]; now left.
  - destruct (negb (de_next root =? UNUSED)); [|now right].
    destruct (find_entry l (u32 (s32 (de_next root)))); [rewrite Hpl|]; now left.
Qed.

Lemma create_tree_defined u e l : una_ok u -> entries_ok l -> defined (create_tree u e l).
Proof.
  intros Hu Hl. unfold create_tree. destruct l as [|d0 l0]; [exact I|].
  set (l := d0 :: l0) in *. destruct (find_root l) as [root|] eqn:Er; [|exact I].
  destruct (de_sub root =? UNUSED); [exact I|].
  apply find_root_In in Er as [Hin _]. fold (start_state root).
  destruct (Z.eq_dec (de_id root) 0) as [E|E].
  - rewrite E. pose proof (process_entry_defined u e l Hu Hl (length l + 2) (start_state root) 0 root None
      (start_wf _ _ Hin) Hin eq_refl) as H.
    pose proof (unset_le l (start_state root)).
    destruct (process_entry _ _ _ _ _ _ _ _); cbn [rbind]; try exact I; exfalso; apply H; lia.
  - replace (length l + 2)%nat with (S (length l + 1)) by lia.
    destruct (process_other_root (length l + 1) u e (de_id root) l root E Hu) as [-> | ->]; exact I.
Qed.

(** * Success *)
Lemma NoDup_app_l {A} (a b : list A) : NoDup (a ++ b) -> NoDup a.
Proof. induction a; cbn; intros H; [constructor|]. inversion H; subst. constructor; auto. intros Hin. apply H2. apply in_or_app. now left. Qed.

Lemma NoDup_app_r {A} (a b : list A) : NoDup (a ++ b) -> NoDup b.
Proof. induction a; cbn; intros H; auto. inversion H; auto. Qed.

Lemma NoDup_app_disj {A} (a b : list A) x : NoDup (a ++ b) -> In x a -> ~ In x b.
Proof.
  induction a as [|y a IH]; cbn; intros H Hx Hb; [auto|]. inversion H; subst.
  destruct Hx as [->|Hx]; [|now apply IH]. apply H2. apply in_or_app. now right.
Qed.

Section Succeeds.
  Variable u : una.
  Variable e : endian.
  Variable l : list dirent.
  Hypothesis Hl : entries_ok l.

  Definition fine (d : dirent) : Prop := ~ dangling_next l d /\ check_summary_name u e d = Ok tt.

  (** Success gives an unfolding. *)
  Definition grown_by (st st' : tstate) (ds : list dirent) : Prop :=
    wf l st' /\ exists v, vw st' = vw st ++ v /\ Permutation (map fst v) ds.

  Lemma grown_by_nil st : wf l st -> grown_by st st [].
  Proof. intros W. split; auto. exists []. rewrite app_nil_r. auto. Qed.

  Lemma grown_by_trans st st1 st2 a b : grown_by st st1 a -> grown_by st1 st2 b -> grown_by st st2 (a ++ b).
  Proof.
    intros [_ (v1 & V1 & P1)] [W2 (v2 & V2 & P2)]. split; auto. exists (v1 ++ v2).
    rewrite V2, V1, app_assoc. split; auto. rewrite map_app. now apply Permutation_app.
  Qed.

  Lemma grown_by_nth st st' a k x : grown_by st st' a -> nth_error (vw st) k = Some x -> nth_error (vw st') k = Some x.
  Proof.
    intros [_ (v & V & _)] H. rewrite V, nth_error_app1; auto. apply nth_error_Some. congruence.
  Qed.

  Definition finds (process : tstate -> nat -> dirent -> res tstate) : Prop :=
    forall st k d q st', wf l st -> In d l -> nth_error (vw st) k = Some (d, q) ->
      process st k d = Ok st' ->
      exists a b c, unfolds l [d] (Entry d a b c) /\
        grown_by st st' (unfolded a ++ unfolded b ++ unfolded c).

  Lemma process_link_finds process st p s st' :
    finds process -> wf l st -> In s l -> process_link process st p s = Ok st' ->
    exists t, unfolds l [s] t /\ grown_by st st' (unfolded t).
  Proof.
    intros Hp W Hs H. unfold process_link in H.
    destruct (is_set st s) eqn:Ef; [discriminate|].
    apply rbind_ok in H as ((st1, k) & Ha & H). cbn beta iota in H.
    destruct (add_node_ok _ _ _ _ _ _ W Hs Ef Ha) as (p' & -> & -> & Hlt & Hat).
    destruct Hat as [HW Hv].
    assert (Hk : nth_error (vw (set_flag st1 s)) (length (t_nodes st)) = Some (s, Some p')).
    { rewrite Hv, nth_error_app2 by (rewrite vw_length; lia). rewrite vw_length, Nat.sub_diag. reflexivity. }
    destruct (Hp _ _ _ _ _ HW Hs Hk H) as (a & b & c & Hun & HW' & v & V & P).
    exists (Entry s a b c). split; auto. split; auto.
    exists ((s, Some p') :: v). split; [rewrite V, Hv, <- app_assoc; reflexivity|].
    cbn [map fst unfolded]. now apply perm_skip.
  Qed.

  Lemma process_entry_finds fuel : finds (process_entry fuel u e 0 l).
  Proof.
    induction fuel as [|fuel IH]; intros st k d q st' W Hd Hk H; [discriminate|].
    cbn [process_entry] in H. set (process := process_entry fuel u e 0 l) in *.
    apply rbind_ok in H as ([] & Hname & H).
    destruct Hl as [Hnd Hall]. pose proof (proj1 (Forall_forall _ _) Hall _ Hd) as (Hu1 & Hu2 & Hu3 & Hu4).
    apply rbind_ok in H as (st1 & H1 & H).
    assert (G1 : exists t, unfolds l (sub_targets l d) t /\ grown_by st st1 (unfolded t)).
    { unfold sub_targets. change UNUSED with FREE in H1. change (0 =? 0) with true in H1.
      destruct (de_sub d =? FREE) eqn:E1; [cbn in H1|destruct (de_sub d =? 0) eqn:E2; [cbn in H1|cbn in H1]].
      - apply Ok_inj in H1 as <-. exists Nothing. split; [constructor|now apply grown_by_nil].
      - apply Ok_inj in H1 as <-. exists Nothing. split; [constructor|now apply grown_by_nil].
      - cbn [orb]. pose proof (find_entry_named l (de_sub d) Hnd) as Hfn.
        destruct (find_entry l (de_sub d)) as [s|] eqn:Ef; rewrite Hfn.
        + apply process_link_finds in H1; auto. eapply target_In; eauto.
        + apply Ok_inj in H1 as <-. exists Nothing. split; [constructor|now apply grown_by_nil]. }
    destruct G1 as (a & Ua & G1). pose proof (grown_by_nth _ _ _ _ _ G1 Hk) as Hk1.
    cbn zeta in H.
    apply rbind_ok in H as (st2 & H2 & H).
    assert (G2 : exists t, unfolds l (prev_targets l d) t /\ grown_by st1 st2 (unfolded t)).
    { unfold prev_targets. change UNUSED with FREE in H2. rewrite u32_s32_id in H2 by auto.
      destruct (de_prev d =? FREE) eqn:E1; cbn [negb] in H2.
      - apply Ok_inj in H2 as <-. exists Nothing. split; [constructor|apply grown_by_nil; apply G1].
      - pose proof (find_entry_named l (de_prev d) Hnd) as Hfn.
        destruct (find_entry l (de_prev d)) as [s|] eqn:Ef; rewrite Hfn.
        + apply process_link_finds in H2; auto; [apply G1|eapply target_In; eauto].
        + apply Ok_inj in H2 as <-. exists Nothing. split; [constructor|apply grown_by_nil; apply G1]. }
    destruct G2 as (b & Ub & G2).
    assert (G3 : exists t, unfolds l (next_targets l d) t /\ grown_by st2 st' (unfolded t)).
    { unfold next_targets. change UNUSED with FREE in H. rewrite u32_s32_id in H by auto.
      destruct (de_next d =? FREE) eqn:E1; cbn [negb] in H.
      - apply Ok_inj in H as <-. exists Nothing. split; [constructor|apply grown_by_nil; apply G2].
      - pose proof (find_entry_named l (de_next d) Hnd) as Hfn.
        destruct (find_entry l (de_next d)) as [s|] eqn:Ef; [|discriminate]. rewrite Hfn.
        apply process_link_finds in H; auto; [apply G2|eapply target_In; eauto]. }
    destruct G3 as (c & Uc & G3).
    exists a, b, c. split; [constructor; auto|].
    apply (grown_by_trans _ st1); auto. apply (grown_by_trans _ st2); auto.
  Qed.

  (** An unfolding gives success. *)
  Definition builds (process : tstate -> nat -> dirent -> res tstate) (d : dirent) (a b c : unfolding) : Prop :=
    forall st k q, wf l st -> nth_error (vw st) k = Some (d, q) ->
      (q = None -> unfolded b = [] /\ unfolded c = []) ->
      NoDup (map de_id (unfolded a ++ unfolded b ++ unfolded c)) ->
      (forall x, In x (unfolded a ++ unfolded b ++ unfolded c) -> ~ In (de_id x) (t_flags st)) ->
      exists st', process st k d = Ok st' /\
        grown_by st st' (unfolded a ++ unfolded b ++ unfolded c).

  Lemma flags_after st st' ds x : wf l st -> grown_by st st' ds ->
    In x (t_flags st') -> In x (t_flags st) \/ In x (map de_id ds).
  Proof.
    intros W [W' (v & V & P)] H. rewrite (flags_grow _ _ _ _ W W' V) in H.
    apply in_app_or in H as [H|H]; [right|now left].
    apply in_rev in H. apply (Permutation_in _ (Permutation_map de_id P)).
    now rewrite map_map.
  Qed.

  Lemma process_link_builds process st p s a b c :
    wf l st -> In s l -> builds process s a b c -> (p < length (t_nodes st))%nat ->
    NoDup (map de_id (s :: unfolded a ++ unfolded b ++ unfolded c)) ->
    (forall x, In x (s :: unfolded a ++ unfolded b ++ unfolded c) -> ~ In (de_id x) (t_flags st)) ->
    exists st', process_link process st (Some p) s = Ok st' /\
      grown_by st st' (s :: unfolded a ++ unfolded b ++ unfolded c).
  Proof.
    intros W Hs Hb Hp Hn Hf. unfold process_link.
    assert (Hset : is_set st s = false) by (apply is_set_false, Hf; now left).
    rewrite Hset. destruct (add_node_some l st p s W Hp Hset) as (st1 & k & Ha). rewrite Ha. cbn [rbind].
    destruct (add_node_ok _ _ _ _ _ _ W Hs Hset Ha) as (p' & [= <-] & -> & Hlt & W1 & V1).
    cbn [map] in Hn. inversion Hn as [|y ys Hn1 Hn2]; subst.
    destruct (Hb (set_flag st1 s) (length (t_nodes st)) (Some p)) as (st' & H1 & H2); auto.
    - rewrite V1, nth_error_app2 by (rewrite vw_length; lia). rewrite vw_length, Nat.sub_diag. reflexivity.
    - discriminate.
    - intros x Hx Hin. rewrite (flags_grow _ _ _ _ W W1 V1) in Hin. cbn in Hin. destruct Hin as [Hin|Hin].
      + apply Hn1. rewrite Hin. now apply in_map.
      + apply (Hf x); auto. now right.
    - exists st'. split; auto. destruct H2 as [W' (v & V & P)]. split; auto.
      exists ((s, Some p) :: v). split; [rewrite V, V1, <- app_assoc; reflexivity|].
      cbn [map fst]. now apply perm_skip.
  Qed.

  Lemma unfolds_In ds t x : unfolds l ds t -> (forall y, In y ds -> In y l) -> In x (unfolded t) -> In x l.
  Proof.
    intros H. induction H as [|d a b c Ha IHa Hb IHb Hc IHc]; intros Hds Hx; [destruct Hx|].
    cbn [unfolded] in Hx. destruct Hx as [<-|Hx]; [apply Hds; now left|].
    rewrite !in_app_iff in Hx. destruct Hx as [Hx|[Hx|Hx]].
    - apply IHa; auto. unfold sub_targets. destruct (_ || _); [intros y []|]. intros y Hy. now apply named_In in Hy.
    - apply IHb; auto. unfold prev_targets. destruct (_ =? _); [intros y []|]. intros y Hy. now apply named_In in Hy.
    - apply IHc; auto. unfold next_targets. destruct (_ =? _); [intros y []|]. intros y Hy. now apply named_In in Hy.
  Qed.

  Fixpoint height (t : unfolding) : nat :=
    match t with Nothing => 0 | Entry _ a b c => S (Nat.max (height a) (Nat.max (height b) (height c))) end.

  Lemma process_entry_builds : forall d a b c fuel,
    unfolds l [d] (Entry d a b c) -> In d l ->
    Forall fine (d :: unfolded a ++ unfolded b ++ unfolded c) ->
    (height (Entry d a b c) <= fuel)%nat ->
    builds (process_entry fuel u e 0 l) d a b c.
  Proof.
    intros d a b c fuel Hun.
    (* induction on the unfolding *)
    remember (Entry d a b c) as t eqn:Et. revert d a b c fuel Et Hun.
    induction t as [|d0 a0 IHa b0 IHb c0 IHc]; intros d a b c fuel Et Hun; [discriminate|].
    injection Et as -> -> -> ->.
    intros Hd Hfine Hh st k q W Hk Hq Hn Hf.
    destruct fuel as [|fuel]; [cbn in Hh; lia|].
    inversion Hun as [|d1 a1 b1 c1 Ua Ub Uc]; subst.
    inversion Hfine as [|x xs [Hdn Hcs] Hfs]; subst.
    cbn [height] in Hh.
    cbn [process_entry]. set (process := process_entry fuel u e 0 l).
    rewrite Hcs. cbn [rbind].
    destruct Hl as [Hnd Hall]. pose proof (proj1 (Forall_forall _ _) Hall _ Hd) as (Hu1 & Hu2 & Hu3 & Hu4).
    rewrite !map_app in Hn. rewrite !Forall_app in Hfs. destruct Hfs as (Fa & Fb & Fc).
    (* one link *)
    assert (Hlink : forall (t : unfolding) ds st0 p s,
       (forall d a b c fuel, t = Entry d a b c -> unfolds l [d] t -> In d l ->
          Forall fine (d :: unfolded a ++ unfolded b ++ unfolded c) -> (height t <= fuel)%nat ->
          builds (process_entry fuel u e 0 l) d a b c) ->
       ds = [s] -> unfolds l ds t -> wf l st0 -> In s l -> (p < length (t_nodes st0))%nat ->
       Forall fine (unfolded t) -> (height t <= fuel)%nat ->
       NoDup (map de_id (unfolded t)) ->
       (forall x, In x (unfolded t) -> ~ In (de_id x) (t_flags st0)) ->
       exists st', process_link process st0 (Some p) s = Ok st' /\ grown_by st0 st' (unfolded t)).
    { intros t ds st0 p s IHt -> Ut W0 Hs Hp Ft Ht Nt Dt.
      inversion Ut as [|d2 a2 b2 c2 V1 V2 V3]; subst.
      apply process_link_builds; auto.
      apply (IHt s a2 b2 c2 fuel eq_refl); auto. }
    (* sub *)
    assert (P1 : exists st1, (if negb (de_sub d =? UNUSED) && negb (de_sub d =? 0) && (0 =? 0)
         then match find_entry l (de_sub d) with
              | None => Ok st
              | Some s => process_link process st (Some k) s
              end
         else Ok st) = Ok st1 /\ grown_by st st1 (unfolded a)).
    { unfold sub_targets in Ua. change UNUSED with FREE. change (0 =? 0) with true.
      destruct (de_sub d =? FREE) eqn:E1; [cbn [orb] in Ua; inversion Ua; subst; exists st; split; [reflexivity|now apply grown_by_nil]|].
      destruct (de_sub d =? 0) eqn:E2; [cbn [orb] in Ua; inversion Ua; subst; exists st; split; [reflexivity|now apply grown_by_nil]|].
      cbn [orb negb andb] in *. pose proof (find_entry_named l (de_sub d) Hnd) as Hfn.
      destruct (find_entry l (de_sub d)) as [s|] eqn:Ef.
      - apply (Hlink a (named l (de_sub d))); auto.
        + eapply target_In; eauto.
        + rewrite <- vw_length. apply nth_error_Some. congruence.
        + lia.
        + now apply NoDup_app_l in Hn.
        + intros x Hx. apply Hf. apply in_or_app. now left.
      - rewrite Hfn in Ua. inversion Ua; subst. exists st. split; [reflexivity|now apply grown_by_nil]. }
    destruct P1 as (st1 & P1 & G1). rewrite P1. cbn [rbind]. cbn zeta.
    pose proof (grown_by_nth _ _ _ _ _ G1 Hk) as Hk1. rewrite (parent_vw _ _ _ _ Hk1).
    pose proof (proj1 G1) as W1.
    assert (P2 : exists st2, (if negb (de_prev d =? UNUSED)
         then match find_entry l (u32 (s32 (de_prev d))) with
              | None => Ok st1
              | Some s => process_link process st1 q s
              end
         else Ok st1) = Ok st2 /\ grown_by st1 st2 (unfolded b)).
    { unfold prev_targets in Ub. change UNUSED with FREE. rewrite u32_s32_id by auto.
      destruct (de_prev d =? FREE) eqn:E1; cbn [negb]; [inversion Ub; subst; exists st1; split; [reflexivity|now apply grown_by_nil]|].
      pose proof (find_entry_named l (de_prev d) Hnd) as Hfn.
      destruct (find_entry l (de_prev d)) as [s|] eqn:Ef.
      - destruct q as [p|].
        2: { rewrite Hfn in Ub. destruct (Hq eq_refl) as [Hb _]. inversion Ub; subst. discriminate. }
        apply (Hlink b (named l (de_prev d))); auto.
        + eapply target_In; eauto.
        + eapply parent_valid; eauto.
        + lia.
        + apply NoDup_app_r in Hn. now apply NoDup_app_l in Hn.
        + intros x Hx Hin. destruct (flags_after _ _ _ _ W G1 Hin) as [Hin'|Hin'].
          * apply (Hf x); auto. apply in_or_app. right. apply in_or_app. now left.
          * apply (NoDup_app_disj _ _ _ Hn Hin'). apply in_or_app. left. now apply in_map.
      - rewrite Hfn in Ub. inversion Ub; subst. exists st1. split; [reflexivity|now apply grown_by_nil]. }
    destruct P2 as (st2 & P2 & G2). rewrite P2. cbn [rbind].
    pose proof (grown_by_nth _ _ _ _ _ G2 Hk1) as Hk2. rewrite (parent_vw _ _ _ _ Hk2).
    pose proof (proj1 G2) as W2.
    assert (P3 : exists st3, (if negb (de_next d =? UNUSED)
         then match find_entry l (u32 (s32 (de_next d))) with
              | None => Err
              | Some s => process_link process st2 q s
              end
         else Ok st2) = Ok st3 /\ grown_by st2 st3 (unfolded c)).
    { unfold next_targets in Uc. unfold dangling_next in Hdn. change UNUSED with FREE. rewrite u32_s32_id by auto.
      destruct (de_next d =? FREE) eqn:E1; cbn [negb]; [inversion Uc; subst; exists st2; split; [reflexivity|now apply grown_by_nil]|].
      pose proof (find_entry_named l (de_next d) Hnd) as Hfn.
      destruct (find_entry l (de_next d)) as [s|] eqn:Ef.
      - destruct q as [p|].
        2: { rewrite Hfn in Uc. destruct (Hq eq_refl) as [_ Hc]. inversion Uc; subst. discriminate. }
        apply (Hlink c (named l (de_next d))); auto.
        + eapply target_In; eauto.
        + eapply parent_valid; eauto.
        + lia.
        + apply NoDup_app_r in Hn. now apply NoDup_app_r in Hn.
        + intros x Hx Hin. destruct (flags_after _ _ _ _ W1 G2 Hin) as [Hin'|Hin'].
          * destruct (flags_after _ _ _ _ W G1 Hin') as [Hin2|Hin2].
            -- apply (Hf x); auto. apply in_or_app. right. apply in_or_app. now right.
            -- apply (NoDup_app_disj _ _ _ Hn Hin2). apply in_or_app. right. now apply in_map.
          * apply NoDup_app_r in Hn. apply (NoDup_app_disj _ _ _ Hn Hin'). now apply in_map.
      - exfalso. apply Hdn. split; [lia|auto]. }
    destruct P3 as (st3 & P3 & G3). exists st3. split; [exact P3|].
    apply (grown_by_trans _ st1); auto. apply (grown_by_trans _ st2); auto.
  Qed.

  Lemma height_le t : (height t <= length (unfolded t))%nat.
  Proof.
    induction t as [|d a IHa b IHb c IHc]; cbn [height unfolded length]; [lia|].
    rewrite !app_length. lia.
  Qed.
End Succeeds.
