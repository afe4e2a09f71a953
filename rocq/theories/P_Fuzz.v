(** Property C101: the targets for fuzzing, file_fuzzer and item_fuzzer.

    [mem] says which requests for memory are granted: any function of the number
    of the request.  [ev] is how libbfio answers, and [set] whether
    libbfio_memory_range_set succeeds. *)
From Coq Require Import ZArith List Bool Lia Permutation.
From Verif Require Import Base Spec_IO Spec_Stream Spec_Load Spec_Tree Spec_Open M_Table M_Header M_Load M_Stream M_Tree M_Open M_Item
  M_File M_Mem Spec_Mem M_Fuzz Spec_Fuzz L_Base L_Mem L_Mem6 L_Fuzz X_File X_Linear X_Prop P_File P_Mem.
Import ListNotations.
Open Scope Z_scope.

(** A run of a target for any input ends without undefined behaviour, and in
    the end nothing is in use that was not before, whatever is refused. *)
Theorem C101_run :
  forall mem one u ev set s,
    one = file_fuzzer mem \/ one = item_fuzzer mem ->
    una_ok u -> io_bytes (ev_reader ev) -> sane s ->
    exists l s', one u ev set s = (Ok l, s') /\ sane s' /\ Permutation (m_live s') (m_live s).
Proof.
  intros mem one u ev set s [-> | ->] Hu HB Hs.
  - destruct (file_fuzzer_mm mem u ev set s Hu HB (sane_fit _ Hs)) as (l & s' & q & E & M & _).
    exists l, s'. split; [exact E|]. split; [apply fit_sane, M|]. exact (moved_perm _ _ _ _ _ (m_live s) M (Permutation_refl _)).
  - destruct (item_fuzzer_mm mem u ev set s Hu HB (sane_fit _ Hs)) as (l & s' & q & E & M & _).
    exists l, s'. split; [exact E|]. split; [apply fit_sane, M|]. exact (moved_perm _ _ _ _ _ (m_live s) M (Permutation_refl _)).
Qed.
Print Assumptions C101_run.

(** Any number of runs in one process. *)
Theorem C101_runs :
  forall mem one u inputs s,
    one = file_fuzzer mem \/ one = item_fuzzer mem ->
    una_ok u -> Forall (fun i => io_bytes (ev_reader (fst i))) inputs -> sane s ->
    exists ls s', fuzz_runs one u inputs s = (Ok ls, s') /\ length ls = length inputs /\
      sane s' /\ Permutation (m_live s') (m_live s).
Proof.
  intros mem one u inputs s Ho Hu HB Hs.
  destruct (fuzz_runs_mm one u) with (inputs := inputs) (s := s) as (ls & s' & q & E & L & M); [|exact HB|exact (sane_fit _ Hs)|].
  - intros ev set s0 Hb F. destruct Ho as [-> | ->].
    + destruct (file_fuzzer_mm mem u ev set s0 Hu Hb F) as (l & s' & q & E & M & _). eauto.
    + destruct (item_fuzzer_mm mem u ev set s0 Hu Hb F) as (l & s' & q & E & M & _). eauto.
  - exists ls, s'. split; [exact E|]. split; [exact L|]. split; [apply fit_sane, M|].
    exact (moved_perm _ _ _ _ _ (m_live s) M (Permutation_refl _)).
Qed.
Print Assumptions C101_runs.

(** If nothing is refused: what the calls of file_fuzzer return. *)
Theorem C101_file_calls :
  forall mem u ev set s l s',
    una_ok u -> io_bytes (ev_reader ev) -> sane s ->
    file_fuzzer mem u ev set s = (Ok l, s') -> refusals s s' [] ->
    target_calls (fun _ l => l = []) u ev set (m_trace s) l.
Proof.
  intros mem u ev set s l s' Hu HB Hs E (q' & Hq & HG).
  destruct (file_fuzzer_mm mem u ev set s Hu HB (sane_fit _ Hs)) as (l2 & s2 & q & E2 & M & _ & H).
  rewrite E in E2. apply pair_equal_spec in E2 as [E2 <-]. apply Ok_inj in E2. subst l2.
  rewrite (proj1 (proj2 M)) in Hq. apply app_inv_head in Hq. subst q'.
  apply H. intros k [|] Hk; [reflexivity|]. destruct (HG k Hk).
Qed.
Print Assumptions C101_file_calls.

(** And those of item_fuzzer: on a file that opens no call on items fails, and
    the first sub item is reached if there is one. *)
Theorem C101_item_calls :
  forall mem u ev set s l s',
    una_ok u -> io_bytes (ev_reader ev) -> sane s ->
    item_fuzzer mem u ev set s = (Ok l, s') -> refusals s s' [] ->
    target_calls item_calls u ev set (m_trace s) l.
Proof.
  intros mem u ev set s l s' Hu HB Hs E (q' & Hq & HG).
  destruct (item_fuzzer_mm mem u ev set s Hu HB (sane_fit _ Hs)) as (l2 & s2 & q & E2 & M & _ & H).
  rewrite E in E2. apply pair_equal_spec in E2 as [E2 <-]. apply Ok_inj in E2. subst l2.
  rewrite (proj1 (proj2 M)) in Hq. apply app_inv_head in Hq. subst q'.
  apply H. intros k [|] Hk; [reflexivity|]. destruct (HG k Hk).
Qed.
Print Assumptions C101_item_calls.

(** If memory for anything but the tables is refused, one of the calls fails. *)
Theorem C101_refused :
  forall mem one u ev set s l s' k,
    one = file_fuzzer mem \/ one = item_fuzzer mem ->
    una_ok u -> io_bytes (ev_reader ev) -> sane s ->
    one u ev set s = (Ok l, s') -> refusal s s' k -> k <> RSat -> k <> RSsat -> In (-1) l.
Proof.
  intros mem one u ev set s l s' k Ho Hu HB Hs E (q' & Hq & Hk) N1 N2.
  assert (A : exists q, m_requests s' = m_requests s ++ q /\ (tables_only q \/ In (-1) l)).
  { destruct Ho as [-> | ->].
    - destruct (file_fuzzer_mm mem u ev set s Hu HB (sane_fit _ Hs)) as (l2 & s2 & q & E2 & M & H & _).
      rewrite E in E2. apply pair_equal_spec in E2 as [E2 <-]. apply Ok_inj in E2. subst l2. exists q. split; [apply M|exact H].
    - destruct (item_fuzzer_mm mem u ev set s Hu HB (sane_fit _ Hs)) as (l2 & s2 & q & E2 & M & H & _).
      rewrite E in E2. apply pair_equal_spec in E2 as [E2 <-]. apply Ok_inj in E2. subst l2. exists q. split; [apply M|exact H]. }
  destruct A as (q & Hq2 & H). rewrite Hq2 in Hq. apply app_inv_head in Hq. subst q'.
  destruct H as [H|H]; [|exact H]. destruct (H k Hk); contradiction.
Qed.
Print Assumptions C101_refused.

(** ** Cases *)
Example C101_case_hypotheses :
  una_ok xf_una /\ io_bytes (ev_reader xf_env) /\ io_bytes (ev_reader cut_env) /\ sane xm_start.
Proof.
  split; [exact xf_una_ok|]. split; [exact (xf_reader_bytes Little)|].
  split; [apply file_reader_bytes, all_bytes_ok; vm_compute; reflexivity|exact xm_sane].
Qed.

Definition xz_file (k : nat) (ev : env) (set : bool) := file_fuzzer (all_but k) xf_una ev set xm_start.
Definition xz_item (k : nat) (ev : env) (set : bool) := item_fuzzer (all_but k) xf_una ev set xm_start.
Definition xz_end {A} (r : res A * mst) : res A * list Z := (fst r, m_live (snd r)).

(** Nothing is refused: a file with sub items, the same cut off after its
    header, no data, and a handle that does not close. *)
Example C101_case :
  xz_end (xz_file 1000 xf_env true) = (Ok [1; 1; 1; 1; 0; 1; 1], []) /\
  xz_end (xz_item 1000 xf_env true) = (Ok [1; 1; 1; 1; 1; 1; 1; 1; 1; 0; 1; 1], []) /\
  xz_end (xz_item 1000 cut_env true) = (Ok [1; 1; 1; -1; 1; 1], []) /\
  xz_end (xz_item 1000 xf_env false) = (Ok [1; -1; 1], []) /\
  xz_end (xz_file 1000 {| ev_is_open := true; ev_open := true; ev_close := false; ev_reader := ev_reader xf_env |} true)
    = (Ok [1; 1; 1; 1; -1; 1; 1], []).
Proof. vm_compute. repeat split. Qed.

(** A file whose root item has no sub items, as the entry it refers to is not
    there, and one without a root item. *)
Definition xz_empty (root : list Z) : list Z :=
  encode_header Little xf_signature (zeros 16) (zeros 10) (zeros 4) []
    {| hv_minor := 62; hv_major := 3; hv_sector_exponent := 9; hv_short_exponent := 6;
       hv_sat_sectors := 1; hv_root := 1; hv_minimum := 4096; hv_ssat := EOC; hv_ssat_sectors := 0;
       hv_msat := EOC; hv_msat_sectors := 0; hv_msat_values := 0 :: repeat FREE 108 |} ++
  xf_table Little [0xfffffffd; EOC] ++ root ++ zeros 384.

Example C101_case_empty :
  xz_end (xz_item 1000 (good_env (xz_empty (xf_slot Little [82] 5 FREE FREE 9 EOC 0))) true)
    = (Ok [1; 1; 1; 1; 1; 1; 1; 0; 1; 1], []) /\
  xz_end (xz_item 1000 (good_env (xz_empty (zeros 128))) true) = (Ok [1; 1; 1; 1; 0; 0; 1; 1], []).
Proof. vm_compute. repeat split. Qed.

(** Each single refusal. *)
Example C101_case_refused :
  map (fun k => fst (xz_item k xf_env true)) [0; 1; 2; 3]%nat =
    [Ok [-1]; Ok [1; 1; -1; 1]; Ok [1; 1; -1; 1]; Ok [1; 1; 1; -1; 1; 1]] /\
  let n := length (m_requests (snd (xz_item 1000 xf_env true))) in
  fst (xz_item (n - 2) xf_env true) = Ok [1; 1; 1; 1; -1; 0; 1; 1] /\
  fst (xz_item (n - 1) xf_env true) = Ok [1; 1; 1; 1; 1; 1; -1; 1; 0; 1; 1] /\
  forallb (fun k => match xz_item k xf_env true with (Ok l, s') => Nat.eqb (length (m_live s')) 0 | _ => false end) (seq 0 n) = true.
Proof. vm_compute. repeat split. Qed.

(** Three runs in one process. *)
Example C101_case_runs :
  xz_end (fuzz_runs (item_fuzzer (all_but 1)) xf_una [(xf_env, true); (cut_env, true); (xf_env, true)] xm_start) =
  (Ok [[1; 1; -1; 1]; [1; 1; 1; -1; 1; 1]; [1; 1; 1; 1; 1; 1; 1; 1; 1; 0; 1; 1]], []).
Proof. vm_compute. reflexivity. Qed.
