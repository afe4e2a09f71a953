(** The recursion depth of the construction of the tree. *)
From Coq Require Import ZArith List Bool Lia ZifyBool ZifyNat.
From Verif Require Import Base Spec_Stream Spec_Load Spec_Tree L_Base M_Table M_Load M_Tree L_Tree L_Tree2.
Import ListNotations.
Open Scope Z_scope.

(** A directory of [n] entries, each in the storage before it. *)
Definition line_entry (n i : nat) : dirent :=
  {| de_id := Z.of_nat i; de_type := if (i =? 0)%nat then 5 else 1; de_name := [];
     de_prev := FREE; de_next := FREE;
     de_sub := if (S i <? n)%nat then Z.of_nat (S i) else FREE;
     de_ctime := 0; de_mtime := 0; de_sector := 0; de_size := 0 |}.
Definition line (n : nat) : list dirent := map (line_entry n) (seq 0 n).

Lemma find_line n : forall len start j, (start <= j < start + len)%nat ->
  find_entry (map (line_entry n) (seq start len)) (Z.of_nat j) = Some (line_entry n j).
Proof.
  induction len as [|len IH]; intros start j Hj; [lia|]. cbn [seq map find_entry line_entry de_id].
  destruct (Z.of_nat start =? Z.of_nat j) eqn:E.
  - assert (start = j) by lia. now subst.
  - apply IH. lia.
Qed.

Lemma line_process n u e : (Z.of_nat n < FREE) -> forall m i fuel st k nd,
  (i + m + 1 = n)%nat -> nth_error (t_nodes st) k = Some nd -> n_subs nd = [] ->
  (forall j, In j (t_flags st) -> j <= Z.of_nat i) ->
  (fuel <= m -> process_entry fuel u e 0 (line n) st k (line_entry n i) = NoFuel)%nat /\
  (m < fuel -> exists st', process_entry fuel u e 0 (line n) st k (line_entry n i) = Ok st')%nat.
Proof.
  intros Hn. induction m as [|m IH]; intros i fuel st k nd Hi Hnd Hsubs Hfl.
  - split; [intros; replace fuel with O by lia; reflexivity|]. intros Hf.
    destruct fuel as [|fuel]; [lia|]. exists st. cbn [process_entry line_entry de_sub de_prev de_next de_name].
    destruct (S i <? n)%nat eqn:E; [lia|]. reflexivity.
  - destruct fuel as [|fuel]; [split; [reflexivity|lia]|].
    cbn [process_entry].
    assert (Hsub : de_sub (line_entry n i) = Z.of_nat (S i)) by (cbn [line_entry de_sub]; destruct (S i <? n)%nat eqn:E; lia).
    assert (Hcheck : check_summary_name u e (line_entry n i) = Ok tt) by reflexivity.
    rewrite Hcheck, Hsub. cbn [rbind].
    change UNUSED with FREE. destruct (Z.of_nat (S i) =? FREE) eqn:E1; [lia|].
    destruct (Z.of_nat (S i) =? 0) eqn:E2; [lia|]. cbn [negb andb]. rewrite Z.eqb_refl.
    assert (Hfind : find_entry (line n) (Z.of_nat (S i)) = Some (line_entry n (S i)))
      by (unfold line; apply find_line; lia).
    rewrite Hfind.
    unfold process_link.
    assert (Hset : is_set st (line_entry n (S i)) = false).
    { unfold is_set. destruct (existsb _ _) eqn:Ex; [|reflexivity]. apply existsb_exists in Ex as (x & Hx & He).
      specialize (Hfl x Hx). cbn [line_entry de_id] in He. lia. }
    rewrite Hset. unfold add_node. rewrite Hnd, Hsubs. cbn [insert_sub rbind].
    match goal with |- context [process_entry fuel u e 0 (line n) ?s ?k' _] => set (st1 := s) end.
    destruct (IH (S i) fuel st1 (length (t_nodes st)) {| n_entry := line_entry n (S i); n_parent := Some k; n_subs := [] |})
      as [H1 H2]; [lia| |reflexivity| |].
    { unfold st1. cbn [set_flag t_nodes]. rewrite nth_error_app2 by (rewrite set_nth_length; lia).
      rewrite set_nth_length, Nat.sub_diag. reflexivity. }
    { unfold st1. cbn [set_flag t_flags line_entry de_id]. intros j [<-|Hj]; [lia|]. specialize (Hfl j Hj). lia. }
    split.
    + intros Hf. rewrite H1 by lia. reflexivity.
    + intros Hf. destruct (H2 ltac:(lia)) as (st' & ->). exists st'. cbn [rbind line_entry de_prev de_next]. reflexivity.
Qed.

Lemma line_depth n u e : (2 <= n)%nat -> Z.of_nat n < FREE ->
  (exists tr, create_tree u e (line n) = Ok (Some tr)) /\
  forall fuel, (fuel < n)%nat ->
    process_entry fuel u e 0 (line n) (start_state (line_entry n 0)) 0 (line_entry n 0) = NoFuel.
Proof.
  intros Hn Hf.
  pose proof (line_process n u e Hf (n - 1) 0) as H.
  split.
  - unfold create_tree. destruct (line n) as [|d l] eqn:E.
    { destruct n; [lia|discriminate]. }
    rewrite <- E in *.
    assert (Hr : find_root (line n) = Some (line_entry n 0)) by (destruct n; [lia|]; reflexivity).
    rewrite Hr. assert (Hs : de_sub (line_entry n 0) = 1) by (cbn [line_entry de_sub]; destruct (1 <? n)%nat eqn:X; lia).
    rewrite Hs. change (1 =? UNUSED) with false. cbn [de_id line_entry].
    destruct (H (length (line n) + 2)%nat (start_state (line_entry n 0)) 0%nat _ ltac:(lia) eq_refl eq_refl) as [_ H2];
      [intros j []|].
    destruct H2 as (st' & H2); [unfold line; rewrite map_length, seq_length; lia|].
    unfold start_state in H2. change (Z.of_nat 0) with 0. rewrite H2. cbn [rbind]. eauto.
  - intros fuel Hfu.
    destruct (H fuel (start_state (line_entry n 0)) 0%nat _ ltac:(lia) eq_refl eq_refl) as [H1 _]; [intros j []|].
    apply H1. lia.
Qed.

Lemma depth_bound u e l root : una_ok u -> entries_ok l -> find_root l = Some root -> de_id root = 0 ->
  defined (process_entry (length l + 1) u e 0 l (start_state root) 0 root).
Proof.
  intros Hu Hl Hr H0. apply find_root_In in Hr as [Hin _].
  apply (process_entry_defined u e l Hu Hl _ _ 0%nat _ None (start_wf _ _ Hin) Hin eq_refl).
  pose proof (unset_le l (start_state root)). lia.
Qed.
