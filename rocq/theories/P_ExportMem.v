(** Property C102: runs of the tool olecfexport when requests for memory can
    fail.

    [mem] says which requests are granted: any function of the number of the
    request.  The state has the state of the host, the lines of the log and the
    blocks in use. *)
From Coq Require Import String ZArith List Bool Lia Permutation.
From Verif Require Import Base Spec_IO Spec_Stream Spec_Load Spec_Tree Spec_Open M_Table M_Header M_Load M_Stream M_Tree M_Open M_Item
  M_Mount M_File M_Export Spec_Export M_Getopt M_ExportTool Spec_ExportTool M_Mem Spec_Mem M_InfoTool M_ExportMem
  L_Base L_Mem L_Mem5 L_Mem6 L_ExportMem L_ExportMem2 L_ExportMem3 L_ExportMem4 X_Stream X_File X_Content X_Export P_Export P_ExportTool P_Mem.
Import ListNotations.
Open Scope Z_scope.

(** Whatever is refused: after a run the blocks in use are those that were in
    use before it.  None is released twice (that is undefined). *)
Theorem C102_memory : forall mem m s st r st',
  una_ok (ma_una m) -> io_bytes (ma_reader m (full_path m (st_source s))) -> sane (e_mem st) ->
  e_run mem m s st = (r, st') -> defined r ->
  sane (e_mem st') /\ Permutation (m_live (e_mem st')) (m_live (e_mem st)).
Proof.
  intros mem m s st r st' Hu HB Hs E D.
  destruct (run_sim mem m s False Hu HB (False_ind _) (False_ind _) (False_ind _) st (sane_fit _ Hs))
    as (r2 & s2 & q & l & E2 & _ & _ & _ & H & _); [intros x; apply Nat.le_0_l|].
  rewrite E in E2. apply pair_equal_spec in E2 as [<- <-]. destruct (H D) as [M _]. split; [apply fit_sane, M|].
  exact (moved_perm _ _ _ _ _ (m_live (e_mem st)) M (Permutation_refl _)).
Qed.
Print Assumptions C102_memory.

(** Whatever is refused: the run is defined if closing the log does not fail
    and if no name is short (see C43 and C75_defined).  The names are those of
    the entries that are read with the tables there are. *)
Theorem C102_defined : forall mem m s st,
  una_ok (ma_una m) -> io_bytes (ma_reader m (full_path m (st_source s))) -> sane (e_mem st) ->
  (forall c, defined (ma_codepage m c)) ->
  (forall t no_sat no_ssat o t' tr k d n,
     opens (ma_una m) (ma_reader m (full_path m (st_source s))) t no_sat no_ssat o t' -> o_tree o = Some tr ->
     item_entry tr k d -> safe_name (ma_host m) (v_byte_order (opened_volume o)) d n -> 9 <= zlen n) ->
  (st_log s = None \/ forall k, ho_fault (ma_host m) k = None) ->
  defined (fst (e_run mem m s st)).
Proof.
  intros mem m s st Hu HB Hs HC HN HL.
  destruct (run_sim mem m s True Hu HB (fun _ => HC) (fun _ => HN) (fun _ => HL) st (sane_fit _ Hs))
    as (r2 & s2 & q & l & E2 & _ & _ & _ & _ & D); [intros x; apply Nat.le_0_l|].
  rewrite E2. exact (D I).
Qed.
Print Assumptions C102_defined.

(** If nothing is refused, the run is the one of C75: the same status, the same
    lines of the log and the same disk. *)
Theorem C102_granted : forall mem m s st r st',
  una_ok (ma_una m) -> io_bytes (ma_reader m (full_path m (st_source s))) -> sane (e_mem st) ->
  e_run mem m s st = (r, st') -> refusals (e_mem st) (e_mem st') [] ->
  exists w l, export_start_run m s (e_host st) = (r, w, l) /\ e_log st' = e_log st ++ l /\
    x_disk w = x_disk (e_host st') /\ x_calls w = x_calls (e_host st').
Proof.
  intros mem m s st r st' Hu HB Hs E (q' & Hq & HG).
  destruct (run_sim mem m s False Hu HB (False_ind _) (False_ind _) (False_ind _) st (sane_fit _ Hs))
    as (r2 & s2 & q & l & E2 & Q & L & G & _); [intros x; apply Nat.le_0_l|].
  rewrite E in E2. apply pair_equal_spec in E2 as [<- <-]. rewrite Hq in Q. apply app_inv_head in Q. subst q'.
  destruct G as (w & H1 & H2 & H3); [intros k [|] Hk; [reflexivity|destruct (HG k Hk)]|]. exists w, l. auto.
Qed.
Print Assumptions C102_granted.

(** If memory for anything but the tables is refused, the run fails or the log
    tells that an item was not exported. *)
Theorem C102_refused : forall mem m s st r st' k,
  una_ok (ma_una m) -> io_bytes (ma_reader m (full_path m (st_source s))) -> sane (e_mem st) ->
  e_run mem m s st = (r, st') -> defined r ->
  refusal (e_mem st) (e_mem st') k -> k <> RSat -> k <> RSsat ->
  r = Err \/ exists l n, e_log st' = e_log st ++ l /\ In (Unable n) l.
Proof.
  intros mem m s st r st' k Hu HB Hs E D (q' & Hq & Hk) N1 N2.
  destruct (run_sim mem m s False Hu HB (False_ind _) (False_ind _) (False_ind _) st (sane_fit _ Hs))
    as (r2 & s2 & q & l & E2 & Q & L & _ & H & _); [intros x; apply Nat.le_0_l|].
  rewrite E in E2. apply pair_equal_spec in E2 as [<- <-]. rewrite Hq in Q. apply app_inv_head in Q. subst q'.
  destruct (H D) as [_ T]. destruct T as [T|(n & T)]; [exists k; auto|now left|]. right. exists l, n. auto.
Qed.
Print Assumptions C102_refused.

(** Whatever is refused and whatever fails: what was there stays, and the log
    file is appended to. *)
Theorem C102_keeps : forall mem m s st r st' q x,
  e_run mem m s st = (r, st') -> on_disk (x_disk (e_host st)) q = Some x ->
  on_disk (x_disk (e_host st')) q = Some x \/
  exists f b more, st_log s = Some f /\ q = full_path m f /\ x = Data b /\ on_disk (x_disk (e_host st')) q = Some (Data (b ++ more)).
Proof. intros mem m s st r st' q x E Hq. pose proof (run_keeps_mm mem m s st q x Hq) as H. rewrite E in H. exact H. Qed.
Print Assumptions C102_keeps.

(** Whatever is refused and whatever fails: the log tells of every directory
    that is made, once, and of no other. *)
Theorem C102_log : forall mem m s st r st', e_run mem m s st = (r, st') ->
  exists l, e_log st' = e_log st ++ l /\ NoDup (created l) /\
    forall q, In q (created l) <-> on_disk (x_disk (e_host st)) q = None /\ on_disk (x_disk (e_host st')) q = Some Directory.
Proof. intros mem m s st r st' E. pose proof (run_log_mm mem m s st) as H. rewrite E in H. exact H. Qed.
Print Assumptions C102_log.

(** ** Cases *)

(** The run of C75_case. *)
Definition xem_run (mem : memory) : res unit * est :=
  e_run mem (xt_machine xe_fine (xf_file Big)) xt_settings {| e_host := xt_start; e_log := []; e_mem := xm_start |}.

Definition unables (l : list log_line) : nat :=
  length (filter (fun x => match x with Unable _ => true | _ => false end) l).

Definition xem_data (s : est) : list Z :=
  match on_disk (x_disk (e_host s)) (text_of "/w/a.doc.export/ab/StreamData.bin") with Some (Data b) => b | _ => [] end.

(** 77 requests, nothing in use in the end. *)
Example C102_case :
  let (r, s) := xem_run (fun _ => true) in
  r = Ok tt /\ length (m_requests (e_mem s)) = 77%nat /\ m_live (e_mem s) = [] /\ length (e_log s) = 9%nat /\
  unables (e_log s) = 0%nat /\ xem_data s = xf_data 0 70 /\
  export_start_run (xt_machine xe_fine (xf_file Big)) xt_settings xt_start = (r, e_host s, e_log s).
Proof. vm_compute. repeat split. Qed.

(** Each single refusal: the requests before the export, of the root item and
    of the buffers of the loop over its sub items make the run fail, the other
    ones leave an item out.  The requests 15 and 16 are those for the short
    table. *)
Example C102_case_refused :
  forallb (fun k =>
    let (r, s) := xem_run (all_but k) in
    Nat.eqb (length (m_live (e_mem s))) 0 &&
    match r with
    | Err => existsb (Nat.eqb k) [49; 50; 57; 64]%nat || (Nat.ltb k 49 && negb (Nat.eqb k 15 || Nat.eqb k 16))
    | Ok _ => if Nat.eqb k 15 then Nat.eqb (unables (e_log s)) 2
              else if Nat.eqb k 16 then Nat.eqb (unables (e_log s)) 0
              else Nat.ltb 50 k && Nat.eqb (unables (e_log s)) 1
    | _ => false
    end) (seq 0 77) = true.
Proof. vm_compute. reflexivity. Qed.

(** The buffer for the first stream is refused: its directory and an empty file
    are there, and the log of the run before is kept. *)
Example C102_case_log :
  let (r, s) := xem_run (all_but 56) in
  r = Ok tt /\ created (e_log s) = map text_of ["/w/a.doc.export"; "/w/a.doc.export/ab"; "/w/a.doc.export/cd"; "/w/a.doc.export/st";
                                              "/w/a.doc.export/st/xy"]%string /\
  on_disk (x_disk (e_host s)) (text_of "/w/a.doc.export/ab") = Some Directory /\
  on_disk (x_disk (e_host s)) (text_of "/w/a.doc.export/ab/StreamData.bin") = Some (Data []) /\
  on_disk (x_disk (e_host s)) (text_of "/w/log") = Some (Data (33 :: concat (map line_text (e_log s)))).
Proof. vm_compute. repeat split. Qed.

(** The hypotheses of C102_defined. *)
Example C102_case_defined : let m := xt_machine {| ho_name := fun _ _ => Some (text_of "long name"); ho_sanitize := fun n => Some n;
                                                 ho_fault := fun _ => None |} (xf_file Big) in
  una_ok (ma_una m) /\ io_bytes (ma_reader m (full_path m (st_source xt_settings))) /\ sane xm_start /\
  (forall c, defined (ma_codepage m c)) /\
  (forall t no_sat no_ssat o t' tr k d n,
     opens (ma_una m) (ma_reader m (full_path m (st_source xt_settings))) t no_sat no_ssat o t' -> o_tree o = Some tr ->
     item_entry tr k d -> safe_name (ma_host m) (v_byte_order (opened_volume o)) d n -> 9 <= zlen n) /\
  forallb (fun k =>
    let (r, s) := e_run (all_but k) m xt_settings {| e_host := xt_start; e_log := []; e_mem := xm_start |} in
    match r with Ok _ | Err => Nat.eqb (length (m_live (e_mem s))) 0 | _ => false end) (seq 0 90) = true.
Proof.
  intros m. split; [exact xf_una_ok|]. split; [exact (xf_reader_bytes Big)|]. split; [exact xm_sane|]. split; [intros c; exact I|].
  split; [|vm_compute; reflexivity]. intros t a b o t' tr k d n _ _ _ (raw & [= <-] & [= <-]). vm_compute. discriminate.
Qed.

(** A run that succeeds, with a log that tells of nothing, can export wrong
    data: one request, for the short table, was refused. *)
Lemma wrong_data (x : res unit * est) (y : res unit * xstate * list log_line) f b :
  (let (r, s) := x in
   let '(r', w, l) := y in
   r = Ok tt /\ r' = Ok tt /\ e_log s = l /\ on_disk (x_disk w) f = Some (Data b) /\
   match on_disk (x_disk (e_host s)) f with Some (Data b') => xf_eqb b b' = false | _ => False end) ->
  xf_eqb b b = true ->
  exists st' w l b', x = (Ok tt, st') /\ y = (Ok tt, w, l) /\ e_log st' = l /\
    on_disk (x_disk w) f = Some (Data b) /\ on_disk (x_disk (e_host st')) f = Some (Data b') /\ b <> b'.
Proof.
  destruct x as [r s], y as [[r' w] l]. intros (-> & -> & H1 & H2 & H3) H4.
  destruct (on_disk (x_disk (e_host s)) f) as [[|b']|] eqn:E; try contradiction.
  exists s, w, l, b'. rewrite E. split; [reflexivity|]. split; [reflexivity|]. split; [exact H1|]. split; [exact H2|].
  split; [reflexivity|]. intros <-. congruence.
Qed.

Theorem C102_success_is_right_refuted : exists mem m s st st' w l f b b',
  una_ok (ma_una m) /\ io_bytes (ma_reader m (full_path m (st_source s))) /\ sane (e_mem st) /\
  (exists k, forall n, mem n = false <-> n = k) /\
  e_run mem m s st = (Ok tt, st') /\ export_start_run m s (e_host st) = (Ok tt, w, l) /\ e_log st' = e_log st ++ l /\
  on_disk (x_disk w) f = Some (Data b) /\ on_disk (x_disk (e_host st')) f = Some (Data b') /\ b <> b'.
Proof.
  destruct (wrong_data
    (e_run (all_but 16) (xt_machine xe_fine (xf_file Big)) xt_settings {| e_host := xt_start; e_log := []; e_mem := xm_start |})
    (export_start_run (xt_machine xe_fine (xf_file Big)) xt_settings
       (e_host {| e_host := xt_start; e_log := []; e_mem := xm_start |}))
    (text_of "/w/a.doc.export/ab/StreamData.bin") (xf_data 0 70)) as (st' & w & l & b' & E & E' & H1 & H2 & H3 & H4).
  { vm_compute. repeat split. }
  { vm_compute. reflexivity. }
  exists (all_but 16), (xt_machine xe_fine (xf_file Big)), xt_settings,
    {| e_host := xt_start; e_log := []; e_mem := xm_start |}, st', w, l, (text_of "/w/a.doc.export/ab/StreamData.bin"),
    (xf_data 0 70), b'.
  split; [exact xf_una_ok|]. split; [exact (xf_reader_bytes Big)|]. split; [exact xm_sane|].
  split; [exists 16%nat; intros n; unfold all_but; rewrite negb_false_iff; apply Nat.eqb_eq|].
  split; [exact E|]. split; [exact E'|]. split; [exact H1|]. split; [exact H2|]. split; [exact H3|exact H4].
Qed.
Print Assumptions C102_success_is_right_refuted.
