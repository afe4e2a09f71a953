(** Lemmas on runs of olecfexport: a log without trouble means that all is
    stored. *)
From Coq Require Import String ZArith List Bool Lia Arith.
From Verif Require Import Base Spec_IO M_Table M_Load M_Stream M_Tree M_Open M_Item M_Mount Spec_Stream Spec_Content
  Spec_Tree M_Export Spec_Export M_Getopt Spec_Getopt M_ExportTool Spec_ExportTool L_Base L_Prop2 L_Export L_Export2
  L_ExportTool.
Import ListNotations.
Open Scope Z_scope.

Lemma lbind_ok {A B} (m : lio A) (k : A -> lio B) w b w' l : lbind m k w = (Ok b, w', l) ->
  exists a w1 l1 l2, m w = (Ok a, w1, l1) /\ k a w1 = (Ok b, w', l2) /\ l = l1 ++ l2.
Proof.
  unfold lbind. destruct (m w) as [[r w1] l1]. destruct r as [a| | |]; try discriminate.
  destruct (k a w1) as [[r2 w2] l2] eqn:E. intros H. injection H as -> -> <-. exists a, w1, l1, l2. auto.
Qed.

Lemma quiet_ok {A} (m : xio A) w a w' l : quiet m w = (Ok a, w', l) -> m w = (Ok a, w') /\ l = [].
Proof. unfold quiet. intros H. injection H as H <-. rewrite H. auto. Qed.

Lemma untroubled_app a b : untroubled (a ++ b) -> untroubled a /\ untroubled b.
Proof. intros H. split; intros x Hx; apply H; apply in_or_app; auto. Qed.

Section Complete.
Variables (ho : host) (rd : reader) (v : volume) (t : tree) (L : list log_line).
Hypothesis HT : tree_shape t.
Let named := told_name ho (v_byte_order v) L.

Lemma stored_mono s s' : (forall q x, on_disk s q = Some x -> on_disk s' q = Some x) ->
  forall k p, stored rd v t named s k p -> stored rd v t named s' k p.
Proof.
  intros H k p HS. induction HS as [k p d l name H1 H2 H3 H4 H5 IH H6 H7].
  econstructor; eauto.
Qed.

Definition item_done (fuel : nat) : Prop := forall k index dir w u w' l,
  export_item_log ho rd v t fuel k index dir w = (Ok u, w', l) -> untroubled l -> incl l L ->
  exists name, on_disk (x_disk w) (path_join dir name) = None /\
    stored rd v t named (x_disk w') k (path_join dir name) /\
    forall d, item_entry t k d -> named d name.

Lemma choose_name_log_ok d index dir w name w' l :
  choose_name_log ho v d index dir w = (Ok name, w', l) -> incl l L -> named d name.
Proof.
  unfold choose_name_log, named, told_name, safe_name. intros H HL.
  destruct (ho_name _ _ _) as [raw|] eqn:E1; [|discriminate].
  destruct (ho_sanitize ho raw) as [n|] eqn:E2; [|discriminate].
  apply lbind_ok in H as (there & w1 & l1 & l2 & Hx & H & ->). destruct there.
  - apply lbind_ok in H as (n' & w2 & l3 & l4 & Hy & H & ->).
    apply lbind_ok in H as (u & w3 & l5 & l6 & Hz & H & ->).
    apply quiet_ok in H as (H & ->). apply pair_ok in H as [H _]. apply Ok_inj in H. subst n'.
    injection Hz as _ _ <-. right. apply HL. apply in_or_app. right. apply in_or_app. right. left. reflexivity.
  - apply quiet_ok in H as (H & ->). apply pair_ok in H as [H _]. apply Ok_inj in H. subst n. left. eauto.
Qed.

Lemma loop_done fuel : item_done fuel -> forall subs index dir w u w' l,
  sub_items_loop_log (export_item_log ho rd v t fuel) index subs dir w = (Ok u, w', l) ->
  untroubled l -> incl l L -> NoDup subs ->
  exists name : nat -> list Z,
    (forall j, In j subs -> on_disk (x_disk w) (path_join dir (name j)) = None /\
       stored rd v t named (x_disk w') j (path_join dir (name j)) /\
       forall d, item_entry t j d -> named d (name j)) /\
    (forall i j, In i subs -> In j subs -> name i = name j -> i = j).
Proof.
  intros HI. induction subs as [|k subs IH]; intros index dir w u w' l H HU HL HN.
  { exists (fun _ => []). split; [intros j []|intros i j []]. }
  cbn [sub_items_loop_log] in H.
  destruct (export_item_log ho rd v t fuel k index dir w) as [[r w1] l1] eqn:E.
  destruct r as [u1| | |]; try discriminate.
  2:{ destruct (sub_items_loop_log _ (index + 1) subs dir w1) as [x l2]. injection H as _ <-. exfalso.
      apply (HU (Unable (index + 1))). apply in_or_app. right. now left. }
  destruct (sub_items_loop_log _ (index + 1) subs dir w1) as [x l2] eqn:E2. injection H as -> <-.
  apply untroubled_app in HU as (HU1 & HU2).
  assert (HL1 : incl l1 L) by (intros y Hy; apply HL; apply in_or_app; auto).
  assert (HL2 : incl l2 L) by (intros y Hy; apply HL; apply in_or_app; auto).
  inversion HN as [|? ? HN1 HN2]; subst.
  destruct (HI _ _ _ _ _ _ _ E HU1 HL1) as (n & Hn1 & Hn2 & Hn3).
  destruct (IH _ _ _ _ _ _ E2 HU2 HL2 HN2) as (name & H1 & H2).
  pose proof (export_item_tracked ho rd v t fuel k index dir w) as (T1 & _). rewrite E in T1. cbn [rest_of fst snd] in T1.
  pose proof (loop_tracked (export_item_log ho rd v t fuel) dir
    ltac:(intros; apply export_item_tracked) subs (index + 1) w1) as (T2 & _).
  rewrite E2 in T2. cbn [rest_of fst snd] in T2.
  assert (Hdir : on_disk (x_disk w1) (path_join dir n) = Some Directory) by (now inversion Hn2).
  exists (fun j => if Nat.eqb j k then n else name j). split.
  - intros j Hj. destruct (Nat.eqb_spec j k) as [->|Hne].
    + split; [exact Hn1|]. split; [eapply stored_mono; eauto|exact Hn3].
    + destruct Hj as [Hj|Hj]; [congruence|]. destruct (H1 j Hj) as (A1 & A2 & A3).
      split; [|split; [exact A2|exact A3]].
      destruct (on_disk (x_disk w) (path_join dir (name j))) as [y|] eqn:Ey; [|reflexivity].
      apply T1 in Ey. congruence.
  - intros i j Hi Hj Heq. destruct (Nat.eqb_spec i k) as [->|Hi'], (Nat.eqb_spec j k) as [->|Hj']; auto.
    + destruct Hj as [Hj|Hj]; [congruence|]. destruct (H1 j Hj) as (A1 & _). rewrite <- Heq in A1. congruence.
    + destruct Hi as [Hi|Hi]; [congruence|]. destruct (H1 i Hi) as (A1 & _). rewrite Heq in A1. congruence.
    + destruct Hi as [Hi|Hi]; [congruence|]. destruct Hj as [Hj|Hj]; [congruence|]. now apply H2.
Qed.

Lemma sub_nodes_these k subs : sub_nodes t k = Ok subs -> NoDup subs /\ forall j, In j subs <-> item_sub t k j.
Proof.
  unfold sub_nodes. destruct (nth_error (tr_nodes t) k) as [n|] eqn:Hn; [|discriminate].
  intros H. apply Ok_inj in H. subst subs. split; [eapply ts_nodup; eauto|].
  intros j. split; [intros Hj; exists n; auto|]. intros (n' & Hn' & Hj). congruence.
Qed.

Lemma all_done : forall fuel, item_done fuel.
Proof.
  induction fuel as [|fuel IH]; intros k index dir w u w' l H HU HL; [discriminate|].
  rewrite export_item_log_unfold in H.
  apply lbind_ok in H as (d & w1 & l1 & r1 & H1 & H & ->). apply quiet_ok in H1 as (H1 & ->).
  unfold xlift in H1. apply pair_ok in H1 as [H1 <-]. apply node_value_entry in H1.
  apply lbind_ok in H as (u2 & w2 & l2 & r2 & H2 & H & ->). injection H2 as _ <- <-.
  apply lbind_ok in H as (name & w3 & l3 & r3 & H3 & H & ->).
  assert (Hd3 : x_disk w3 = x_disk w).
  { pose proof (choose_name_same ho v d index dir w) as HS. rewrite H3 in HS. cbn [fst] in HS.
    pose proof (choose_name_disk ho v d index dir w) as HD. rewrite <- HS in HD. exact HD. }
  assert (Hname : named d name).
  { eapply choose_name_log_ok; [exact H3|]. intros y Hy. apply HL. apply in_or_app. right. apply in_or_app. right.
    apply in_or_app. now left. }
  apply lbind_ok in H as (u4 & w4 & l4 & r4 & H4 & H & ->). apply quiet_ok in H4 as (H4 & ->).
  apply make_directory_ok in H4 as (_ & Hn & Hs). rewrite Hd3 in Hn, Hs.
  apply lbind_ok in H as (u5 & w5 & l5 & r5 & H5 & H & ->). injection H5 as _ <- <-.
  set (path := path_join dir name) in *.
  apply lbind_ok in H as (there & w6 & l6 & r6 & H6 & H & ->). apply quiet_ok in H6 as (H6 & ->).
  destruct there.
  { injection H as _ _ <-. exfalso. apply (HU (Skipping (data_path path))).
    repeat (apply in_or_app; right). now left. }
  apply file_exists_false in H6 as (_ & Hno & Hx).
  apply lbind_ok in H as (u7 & w7 & l7 & r7 & H7 & H & ->). apply quiet_ok in H7 as (H7 & ->).
  destruct (store_disk ho rd v d (data_path path) w6) as (Hoth & _ & Hok); [rewrite Hx; exact Hno|].
  destruct (Hok _ _ H7) as (b & Hb & Hdata). rewrite H7 in Hoth. cbn [snd] in Hoth.
  apply lbind_ok in H as (subs & w8 & l8 & r8 & H8 & H & ->). apply quiet_ok in H8 as (H8 & ->).
  unfold xlift in H8. apply pair_ok in H8 as [H8 <-]. apply sub_nodes_these in H8 as (Hnd & Hin).
  assert (HU8 : untroubled r8).
  { intros y Hy. apply HU. repeat (apply in_or_app; right). exact Hy. }
  assert (HL8 : incl r8 L).
  { intros y Hy. apply HL. repeat (apply in_or_app; right). exact Hy. }
  destruct (loop_done fuel IH subs 0 path w7 u w' r8 H HU8 HL8 Hnd) as (names & HA & HB).
  pose proof (loop_tracked (export_item_log ho rd v t fuel) path
    ltac:(intros; apply export_item_tracked) subs 0 w7) as (T & _).
  rewrite H in T. cbn [rest_of fst snd] in T.
  exists name. split; [exact Hn|]. split.
  - apply (stored_item rd v t named _ k path d b names); auto.
    + apply T. rewrite Hoth; [rewrite Hx, Hs; apply on_disk_same|]. rewrite data_path_join. apply join_neq.
    + intros j Hj. apply (HA j). now apply Hin.
    + intros j d' Hj Hd'. apply (HA j); [now apply Hin|exact Hd'].
    + intros i j Hi Hj. apply HB; now apply Hin.
  - intros d' Hd'. rewrite (item_entry_fun t k d' d Hd' H1). exact Hname.
Qed.
End Complete.

Lemma export_file_done ho rd v t p n w u w' l : tree_shape t ->
  export_file_log ho rd v (Some t) p n w = (Ok u, w', l) -> untroubled l ->
  all_stored rd v t (told_name ho (v_byte_order v) l) (x_disk w') (path_join p n).
Proof.
  intros HT H HU. unfold export_file_log in H.
  apply lbind_ok in H as (u4 & w4 & l4 & r4 & H4 & H & ->). apply quiet_ok in H4 as (H4 & ->).
  apply lbind_ok in H as (u5 & w5 & l5 & r5 & H5 & H & ->). injection H5 as _ <- <-.
  unfold export_sub_items_log in H.
  apply lbind_ok in H as (subs & w8 & l8 & r8 & H8 & H & ->). apply quiet_ok in H8 as (H8 & ->).
  unfold xlift in H8. apply pair_ok in H8 as [H8 <-]. apply (sub_nodes_these t HT) in H8 as (Hnd & Hin).
  set (L := [] ++ [Created (path_join p n)] ++ [] ++ r8) in *.
  assert (HU8 : untroubled r8) by (intros y Hy; apply HU; right; exact Hy).
  assert (HL8 : incl r8 L) by (intros y Hy; right; exact Hy).
  destruct (loop_done ho rd v t L _ (all_done ho rd v t L HT _) subs 0 _ w4 u w' r8 H HU8 HL8 Hnd) as (names & HA & HB).
  exists names. split; [|split].
  - intros j Hj. apply (HA j). now apply Hin.
  - intros j d' Hj Hd'. apply (HA j); [now apply Hin|exact Hd'].
  - intros i j Hi Hj. apply HB; now apply Hin.
Qed.

(** ** The log of an export on which nothing fails *)

Lemma plain_app a b : plain_lines a -> plain_lines b -> plain_lines (a ++ b).
Proof. intros Ha Hb x Hx. apply in_app_or in Hx as [Hx|Hx]; [exact (Ha x Hx)|exact (Hb x Hx)]. Qed.

Lemma plain_nil : plain_lines [].
Proof. intros x []. Qed.

Lemma lbind_plain {A B} (m : lio A) (k : A -> lio B) w : plain_lines (snd (m w)) ->
  (forall a w1 l1, m w = (Ok a, w1, l1) -> plain_lines (snd (k a w1))) -> plain_lines (snd (lbind m k w)).
Proof.
  intros H1 H2. unfold lbind. destruct (m w) as [[r w1] l1]. cbn [snd] in H1.
  destruct r as [a| | |]; try exact H1. specialize (H2 a w1 l1 eq_refl). destruct (k a w1) as [x l2]. now apply plain_app.
Qed.

Section Plain.
Variables (ho : host) (rd : reader) (v : volume) (t : tree).
Hypothesis HE : exportable ho rd v t.
Hypothesis HF : forall k, ho_fault ho k = None.
Let e := v_byte_order v.

Definition item_plain (fuel : nat) : Prop :=
  forall k0 k d n index dir w,
    item_sub t k0 k -> item_entry t k d -> safe_name ho e d n ->
    (List.length (tr_nodes t) - k <= fuel)%nat ->
    vacant (x_disk w) (path_join dir n) ->
    plain_lines (snd (export_item_log ho rd v t fuel k index dir w)).

Lemma loop_plain fuel k0 dir : item_plain fuel -> (List.length (tr_nodes t) - k0 <= S fuel)%nat ->
  forall subs index w,
    NoDup subs -> (forall j, In j subs -> item_sub t k0 j) ->
    (forall j d n, In j subs -> item_entry t j d -> safe_name ho e d n ->
       vacant (x_disk w) (path_join dir n)) ->
    plain_lines (snd (sub_items_loop_log (export_item_log ho rd v t fuel) index subs dir w)).
Proof.
  intros IC Hfuel. destruct HE as (HT & Hitems & Hdist).
  induction subs as [|j subs IH]; intros index w Hnd Hsub Hvac; [apply plain_nil|].
  cbn [sub_items_loop_log].
  assert (Hj : item_sub t k0 j) by (apply Hsub; left; reflexivity).
  pose proof (ts_later _ HT _ _ Hj) as Hlt.
  destruct (nth_error (tr_nodes t) j) as [nd|] eqn:Hnode; [|apply nth_error_None in Hnode; lia].
  assert (Hd : item_entry t j (n_entry nd)) by (exists nd; auto).
  destruct (Hitems _ _ _ Hj Hd) as ((n & Hn & Hslash & Hres) & _).
  assert (HV : vacant (x_disk w) (path_join dir n)) by (eapply Hvac; eauto; left; reflexivity).
  assert (Hfu : (List.length (tr_nodes t) - j <= fuel)%nat) by lia.
  pose proof (IC k0 j (n_entry nd) n index dir w Hj Hd Hn Hfu HV) as HP.
  destruct (item_exact ho rd v t HE HF fuel k0 j (n_entry nd) n index dir w Hj Hd Hn Hfu HV) as (w1 & H1 & HA1).
  rewrite <- export_item_same in H1.
  destruct (export_item_log ho rd v t fuel j index dir w) as [rw l1]. cbn [fst snd] in *. subst rw.
  inversion Hnd as [|j' l' Hnotin Hnd']. subst.
  specialize (IH (index + 1) w1 Hnd').
  destruct (sub_items_loop_log (export_item_log ho rd v t fuel) (index + 1) subs dir w1) as [x l2]. cbn [snd] in *.
  apply plain_app; [exact HP|]. apply IH; clear IH.
  - intros i Hi. apply Hsub. right. exact Hi.
  - intros i d' n' Hi Hd' Hn'.
    assert (Hi' : item_sub t k0 i) by (apply Hsub; right; exact Hi).
    destruct (Hvac i d' n' (or_intror Hi) Hd' Hn') as (V1 & V2).
    destruct (Hitems _ _ _ Hi' Hd') as ((n'' & Hn'' & Hslash' & _) & _).
    rewrite (safe_name_fun ho v _ _ _ Hn'' Hn') in *.
    assert (Hne : n <> n').
    { intros ->. apply Hnotin. rewrite (Hdist k0 j i _ _ _ Hj Hi' Hd Hd' Hn Hn'). exact Hi. }
    split.
    + eapply adds_none; [exact HA1|exact V1|]. intros y Hy. apply effect_below in Hy.
      destruct (join_apart dir n n' _ Hslash Hslash' Hne Hy) as (F & _). apply F. reflexivity.
    + intros q. eapply adds_none; [exact HA1|apply V2|]. intros y Hy. apply effect_below in Hy.
      destruct (join_apart dir n n' _ Hslash Hslash' Hne Hy) as (_ & F). apply F. exists q. reflexivity.
Qed.

Lemma item_all_plain : forall fuel, item_plain fuel.
Proof.
  induction fuel as [|fuel IH]; intros k0 k d n index dir w Hsub Hd Hn Hfuel (V1 & V2); [apply plain_nil|].
  pose proof HE as (HT & Hitems & Hdist).
  pose proof (ts_later _ HT _ _ Hsub) as Hlt.
  destruct (Hitems _ _ _ Hsub Hd) as ((n' & Hn' & Hslash & Hres) & Hread).
  rewrite (safe_name_fun ho v _ _ _ Hn' Hn) in *. clear Hn' n'.
  assert (Hdot : dot_name n = false).
  { apply not_dots. intros Hi. apply Hres. destruct Hi as [<-|[<-|[]]]; simpl; auto. }
  rewrite export_item_log_unfold.
  apply lbind_plain; [apply plain_nil|]. intros d1 w1 l1 H1. apply quiet_ok in H1 as (H1 & _).
  unfold xlift in H1. apply pair_ok in H1 as (H1 & <-).
  assert (d1 = d).
  { destruct Hd as (nd & Hnd & <-). unfold node_value in H1. rewrite Hnd in H1. congruence. }
  subst d1. clear H1.
  apply lbind_plain; [intros x [<-|[]]; exact I|]. intros u2 w2 l2 H2. injection H2 as _ <- _.
  destruct (exists_no_fault ho HF dir n w Hdot V1) as (w3 & H3 & D3).
  assert (Hch : choose_name_log ho v d index dir w = (Ok n, w3, [])).
  { destruct Hn as (raw & Hr & Hs). unfold choose_name_log. fold e. rewrite Hr, Hs.
    unfold lbind, quiet. rewrite H3. reflexivity. }
  apply lbind_plain; [rewrite Hch; apply plain_nil|]. intros n1 w4 l4 H4. rewrite Hch in H4. injection H4 as <- <- _.
  rewrite <- D3 in V1, V2. clear H3 D3 Hch w.
  destruct (mkdir_no_fault ho HF dir n w3 Hdot V1) as (w5 & H5 & D5).
  apply lbind_plain; [apply plain_nil|]. intros u6 w6 l6 H6. apply quiet_ok in H6 as (H6 & _).
  rewrite H5 in H6. injection H6 as _ <-.
  apply lbind_plain; [intros x [<-|[]]; exact I|]. intros u7 w7 l7 H7. injection H7 as _ <- _.
  set (path := path_join dir n) in *.
  assert (Hnf : on_disk (x_disk w5) (path_join path stream_data_name) = None).
  { rewrite D5, on_disk_other; [apply V2|]. intros E. symmetry in E. exact (join_neq _ _ E). }
  destruct (exists_no_fault ho HF path stream_data_name w5 eq_refl Hnf) as (w8 & H8 & D8).
  apply lbind_plain; [apply plain_nil|]. intros there w9 l9 H9. apply quiet_ok in H9 as (H9 & _).
  rewrite H8 in H9. injection H9 as <- <-.
  rewrite data_path_join. rewrite <- D8 in Hnf.
  apply lbind_plain; [apply plain_nil|]. intros u10 w10 l10 H10. apply quiet_ok in H10 as (H10 & _).
  destruct (store_disk ho rd v d _ w8 Hnf) as (Hoth & _ & _). rewrite H10 in Hoth. cbn [snd] in Hoth.
  apply lbind_plain; [apply plain_nil|]. intros subs w11 l11 H11. apply quiet_ok in H11 as (H11 & _).
  unfold xlift in H11. apply pair_ok in H11 as (H11 & <-). apply (sub_nodes_these t HT) in H11 as (Hnd & Hin).
  apply (loop_plain fuel k path IH ltac:(lia) subs 0 w10 Hnd); [intros; now apply Hin|].
  intros j d' n' Hj Hd' Hn'. apply Hin in Hj.
  destruct (Hitems _ _ _ Hj Hd') as ((n'' & Hn'' & Hslash' & Hres') & _).
  rewrite (safe_name_fun ho v _ _ _ Hn'' Hn') in *.
  assert (Hne : stream_data_name <> n') by (intros E; apply Hres'; rewrite <- E; simpl; auto).
  assert (Hx : forall q, (q = path_join path n' \/ below_path (path_join path n') q) -> on_disk (x_disk w10) q = None).
  { intros q Hq. rewrite Hoth.
    - rewrite D8, D5, on_disk_other.
      + assert (Hb : below_path path q) by (destruct Hq as [->|Hq]; [apply join_below|eapply below_join; eauto]).
        destruct Hb as (y & ->). apply V2.
      + intros ->. destruct Hq as [Hq|Hq]; [exact (join_neq _ _ Hq)|].
        apply below_join in Hq. destruct Hq as (y & Hq). exact (join_neq _ _ Hq).
    - intros ->. destruct (join_apart path stream_data_name n' _ stream_data_plain Hslash' Hne (or_introl eq_refl)) as (F1 & F2).
      destruct Hq; auto. }
  split; [apply Hx; auto|]. intros q. apply Hx. right. exists q. reflexivity.
Qed.
End Plain.

Lemma export_file_plain ho rd v t p n w :
  exportable ho rd v t -> (forall k, ho_fault ho k = None) -> vacant (x_disk w) (path_join p n) ->
  plain_lines (snd (export_file_log ho rd v (Some t) p n w)).
Proof.
  intros HE HF (V1 & V2). unfold export_file_log.
  apply lbind_plain; [apply plain_nil|]. intros u1 w1 l1 H1. apply quiet_ok in H1 as (H1 & _).
  assert (HV : forall q, on_disk (x_disk w1) (path_join p n ++ 47 :: q) = None).
  { unfold make_directory, call in H1. rewrite HF, V1 in H1. destruct (dot_name n); [discriminate|].
    injection H1 as _ <-. intros q. cbn [x_disk]. rewrite on_disk_other; [apply V2|].
    intros E. symmetry in E. exact (join_neq _ _ E). }
  apply lbind_plain; [intros x [<-|[]]; exact I|]. intros u2 w2 l2 H2. injection H2 as _ <- _.
  unfold export_sub_items_log. apply lbind_plain; [apply plain_nil|]. intros subs w3 l3 H3. apply quiet_ok in H3 as (H3 & _).
  unfold xlift in H3. apply pair_ok in H3 as (H3 & <-). apply (sub_nodes_these t (proj1 HE)) in H3 as (Hnd & Hin).
  apply (loop_plain ho rd v t HE HF (List.length (tr_nodes t)) 0 (path_join p n) (item_all_plain ho rd v t HE HF _) ltac:(lia) subs 0 w1 Hnd);
    [intros; now apply Hin|].
  intros j d' n' _ _ _. split; [apply HV|]. intros q. unfold path_join, SLASH. rewrite <- app_assoc. apply HV.
Qed.
