(** Property C100: runs of the tool olecfinfo when requests for memory can
    fail.

    [mem] says which requests are granted: any function of the number of the
    request.  The hypotheses on libfvalue, libfguid, libfdatetime and libuna are
    in [infolib_ok] and [una_ok]. *)
From Coq Require Import String ZArith List Bool Lia Permutation.
From Verif Require Import Base Spec_IO Spec_Stream Spec_Load Spec_Tree Spec_Open M_Table M_Header M_Load M_Stream M_Tree M_Open M_Item
  M_Mount M_File M_Prop M_PyProp M_Info M_Mem Spec_Mem M_PropMem Spec_PropMem Spec_Prop Spec_PyProp Spec_Info Spec_InfoTool
  M_InfoTool L_Base L_Mem L_Mem5 L_Mem6 L_InfoTool2 X_File X_Linear X_Prop X_Fuse P_File P_Prop P_Write P_PyProp P_Info P_Mem.
Import ListNotations.
Open Scope Z_scope.

(** Whatever is refused: no undefined behaviour, and in the end the handles, the
    file and the items are released.  What can be left is one section of a
    property set, and nothing after a successful run. *)
Theorem C100_memory :
  forall lib text empty names date mem u ev allocation codepage s,
    infolib_ok lib text empty names date -> una_ok u -> io_bytes (ev_reader ev) -> sane s ->
    match codepage with Some r => defined r | None => True end ->
    exists r s', info_main mem lib u ev allocation codepage s = (Ok r, s') /\ sane s' /\
      exists leak, Permutation (m_live s') (leak ++ m_live s) /\ at_most_a_section s' leak /\
        (r_success r = true -> leak = []).
Proof.
  intros lib text empty names date mem u ev allocation codepage s HL Hu HB Hs HC.
  destruct (main_mm lib text empty names date mem u ev allocation codepage s HL Hu HB (sane_fit _ Hs) HC)
    as (r & s' & q & leak & E & M & Lk & Hl & _).
  exists r, s'. split; [exact E|]. split; [apply fit_sane, M|]. exists leak.
  split; [exact (moved_perm _ _ _ _ _ (m_live s) M (Permutation_refl _))|]. auto.
Qed.
Print Assumptions C100_memory.

(** Whatever is refused: a failure is told on stderr; the output is the
    beginning of what is to be told of the file as it was opened, and after a
    successful run all of it.  The tables can be missing: then memory for them
    was refused. *)
Theorem C100_output :
  forall lib text empty names date mem u ev allocation codepage s r s',
    infolib_ok lib text empty names date -> una_ok u -> io_bytes (ev_reader ev) -> sane s ->
    match codepage with Some r => defined r | None => True end ->
    info_main mem lib u ev allocation codepage s = (Ok r, s') ->
    (r_success r = false -> r_messages r <> []) /\
    ((r_success r = false /\ r_out r = []) \/
     exists o t no_sat no_ssat l,
       opens u (ev_reader ev) (m_trace s) no_sat no_ssat o t /\
       (no_sat -> refusal s s' RSat) /\ (no_ssat -> refusal s s' RSsat) /\
       told lib text empty names date u (ev_reader ev) o allocation l /\
       (exists more, fst (printed l) = r_out r ++ more) /\
       (r_success r = true -> r_out r = fst (printed l) /\ snd (printed l) = true /\ ev_close ev = true)).
Proof.
  intros lib text empty names date mem u ev allocation codepage s r s' HL Hu HB Hs HC E.
  destruct (main_mm lib text empty names date mem u ev allocation codepage s HL Hu HB (sane_fit _ Hs) HC)
    as (r2 & s2 & q & leak & E2 & M & _ & _ & Hm & H).
  rewrite E in E2. apply pair_equal_spec in E2 as [E2 <-]. apply Ok_inj in E2. subst r2.
  split; [exact Hm|]. destruct H as [(H1 & H2 & _)|(o & t & a & b & l & _ & _ & HO & Ha & Hb & HT & Hp & HS & _)]; [left; auto|right].
  exists o, t, a, b, l. split; [exact HO|]. split; [intros A; exists q; split; [apply M|exact (Ha A)]|].
  split; [intros B; exists q; split; [apply M|exact (Hb B)]|]. split; [exact HT|]. split; [exact Hp|].
  intros S. destruct (HS S) as (_ & HS'). exact HS'.
Qed.
Print Assumptions C100_output.

(** If nothing is refused, the run is the one of C73. *)
Theorem C100_granted :
  forall lib text empty names date mem u ev allocation codepage s r s',
    infolib_ok lib text empty names date -> una_ok u -> io_bytes (ev_reader ev) -> sane s ->
    match codepage with Some r => defined r | None => True end ->
    info_main mem lib u ev allocation codepage s = (Ok r, s') -> refusals s s' [] ->
    (r_success r = false /\ r_out r = [] /\
     (codepage = Some Err \/ ev_is_open ev = false \/ ev_open ev = false \/
      exists t, open_read u (ev_reader ev) (m_trace s) = (Err, t))) \/
    exists o t l,
      ev_is_open ev = true /\ ev_open ev = true /\ open_read u (ev_reader ev) (m_trace s) = (Ok o, t) /\
      told lib text empty names date u (ev_reader ev) o allocation l /\
      r_out r = fst (printed l) /\ r_success r = snd (printed l) && ev_close ev.
Proof.
  intros lib text empty names date mem u ev allocation codepage s r s' HL Hu HB Hs HC E (q' & Hq & HG).
  destruct (main_mm lib text empty names date mem u ev allocation codepage s HL Hu HB (sane_fit _ Hs) HC)
    as (r2 & s2 & q & leak & E2 & M & _ & _ & _ & H).
  rewrite E in E2. apply pair_equal_spec in E2 as [E2 <-]. apply Ok_inj in E2. subst r2.
  rewrite (proj1 (proj2 M)) in Hq. apply app_inv_head in Hq. subst q'.
  assert (G : granted q).
  { intros k [|] Hk; [reflexivity|]. destruct (HG k Hk). }
  destruct H as [(H1 & H2 & H3 & _)|(o & t & a & b & l & E1 & E2 & HO & Ha & Hb & HT & _ & _ & HE & _)].
  - left. split; [exact H1|]. split; [exact H2|]. destruct H3 as [(k & Hk)|H3]; [destruct (HG k Hk)|exact H3].
  - right. exists o, t, l. split; [exact E1|]. split; [exact E2|].
    split; [exact (opens_all _ _ _ _ _ _ _ (fun A => HG _ (Ha A)) (fun B => HG _ (Hb B)) HO)|]. split; [exact HT|]. exact (HE G).
Qed.
Print Assumptions C100_granted.

(** If memory for anything but the tables is refused, the run fails. *)
Theorem C100_refused :
  forall lib text empty names date mem u ev allocation codepage s r s' k,
    infolib_ok lib text empty names date -> una_ok u -> io_bytes (ev_reader ev) -> sane s ->
    match codepage with Some r => defined r | None => True end ->
    info_main mem lib u ev allocation codepage s = (Ok r, s') ->
    refusal s s' k -> k <> RSat -> k <> RSsat -> r_success r = false.
Proof.
  intros lib text empty names date mem u ev allocation codepage s r s' k HL Hu HB Hs HC E (q' & Hq & Hk) N1 N2.
  destruct (main_mm lib text empty names date mem u ev allocation codepage s HL Hu HB (sane_fit _ Hs) HC)
    as (r2 & s2 & q & leak & E2 & M & _ & _ & _ & H).
  rewrite E in E2. apply pair_equal_spec in E2 as [E2 <-]. apply Ok_inj in E2. subst r2.
  rewrite (proj1 (proj2 M)) in Hq. apply app_inv_head in Hq. subst q'.
  destruct H as [(H1 & _)|(o & t & a & b & l & _ & _ & _ & _ & _ & _ & _ & HS & _)]; [exact H1|].
  destruct (r_success r); [|reflexivity]. destruct (HS eq_refl) as (HK & _). destruct (HK k Hk); contradiction.
Qed.
Print Assumptions C100_refused.

(** Whatever is refused: unless the last message says that the handle, the
    codepage or the source could not be used, the output begins with the lines
    on the file that was opened. *)
Theorem C100_head :
  forall lib text empty names date mem u ev allocation codepage s r s',
    infolib_ok lib text empty names date -> una_ok u -> io_bytes (ev_reader ev) -> sane s ->
    match codepage with Some r => defined r | None => True end ->
    info_main mem lib u ev allocation codepage s = (Ok r, s') ->
    (r_success r = false /\ exists notes x, r_messages r = notes ++ [x] /\
       In x ["Unable to initialize info handle."; "Unable to set ASCII codepage in info handle."; "Unable to open: source."]%string) \/
    exists o t no_sat no_ssat more,
      opens u (ev_reader ev) (m_trace s) no_sat no_ssat o t /\
      (no_sat -> refusal s s' RSat) /\ (no_ssat -> refusal s s' RSsat) /\
      r_out r = fst (printed (file_pieces (o_header o))) ++ more.
Proof.
  intros lib text empty names date mem u ev allocation codepage s r s' HL Hu HB Hs HC E.
  destruct (main_mm lib text empty names date mem u ev allocation codepage s HL Hu HB (sane_fit _ Hs) HC)
    as (r2 & s2 & q & leak & E2 & M & _ & _ & _ & H).
  rewrite E in E2. apply pair_equal_spec in E2 as [E2 <-]. apply Ok_inj in E2. subst r2.
  destruct H as [(H1 & _ & _ & H2)|(o & t & a & b & l & _ & _ & HO & Ha & Hb & _ & _ & _ & _ & more & Hp)]; [left; auto|right].
  exists o, t, a, b, more. split; [exact HO|]. split; [intros A; exists q; split; [apply M|exact (Ha A)]|].
  split; [intros B; exists q; split; [apply M|exact (Hb B)]|]. exact Hp.
Qed.
Print Assumptions C100_head.

(** ** Cases *)
Definition xt_main (mem : memory) : res report * mst :=
  info_main mem (xi_lib true) xf_una xi_env true (Some (Ok true)) xm_start.

Example C100_case_hypotheses :
  infolib_ok (xi_lib true) xi_text (fun _ => Some []) xi_names xi_date /\ una_ok xf_una /\
  io_bytes (ev_reader xi_env) /\ sane xm_start /\ defined (Ok true).
Proof.
  destruct C73_case_hypotheses as (H1 & H2 & H3 & _). split; [exact H1|]. split; [exact H2|]. split; [exact H3|].
  split; [exact xm_sane|exact I].
Qed.

(** The run of C73_case: 104 requests, nothing in use in the end. *)
Example C100_case :
  match xt_main (fun _ => true) with
  | (Ok r, s') => (Ok (r_success r), r_out r) = olecfinfo (xi_lib true) xf_una xi_env no_world true (Some 1251) /\
                  r_success r = true /\ r_messages r = [] /\ length (r_out r) = 1528%nat /\
                  length (m_requests s') = 104%nat /\ m_live s' = []
  | _ => False
  end.
Proof. vm_compute. repeat split. Qed.

(** Each single refusal: the run fails with a part of the output, but with the
    request 12, for the short table, which this file does not have.  After the
    requests 49 to 81 and 84 to 97 a part of a section is left. *)
Example C100_case_refused :
  forallb (fun k =>
    match xt_main (all_but k) with
    | (Ok r, s') =>
        Bool.eqb (r_success r) (Nat.eqb k 12) &&
        xf_eqb (r_out r) (firstn (length (r_out r)) (snd (olecfinfo (xi_lib true) xf_una xi_env no_world true (Some 1251)))) &&
        Bool.eqb (Nat.eqb (length (m_live s')) 0)
                 (negb ((Nat.leb 49 k && Nat.leb k 81) || (Nat.leb 84 k && Nat.leb k 97))) &&
        Nat.leb (length (m_live s')) 21 &&
        (if Nat.leb 36 k then Nat.leb 94 (length (r_out r)) else Nat.eqb k 12 || Nat.eqb (length (r_out r)) 0)
    | _ => false
    end) (seq 0 104) = true.
Proof. vm_compute. reflexivity. Qed.

(** A file with a property set in two short sectors: the number is in the
    second one, the short sector 2.  The stream "x" in the short sector 0 holds
    another number. *)
Definition xt_set : list Z :=
  set_bytes Little 1 [(known_class SummarySet, 48)]
    (section_bytes Little [(14, bytes_in Little 4 3 ++ bytes_in Little 4 5)]).
Definition xt_file : list Z :=
  encode_header Little xf_signature (zeros 16) (zeros 10) (zeros 4) []
    {| hv_minor := 62; hv_major := 3; hv_sector_exponent := 9; hv_short_exponent := 6;
       hv_sat_sectors := 1; hv_root := 1; hv_minimum := 4096; hv_ssat := 2; hv_ssat_sectors := 1;
       hv_msat := EOC; hv_msat_sectors := 0; hv_msat_values := 0 :: repeat FREE 108 |} ++
  xf_table Little [0xfffffffd; EOC; EOC; EOC] ++                      (* 0: SAT *)
  xf_slot Little [82] 5 FREE FREE 1 3 192 ++                          (* 1: directory *)
  xf_slot Little [120] 2 FREE 2 FREE 0 64 ++
  xf_slot Little summary_name 2 FREE FREE FREE 1 72 ++ zeros 128 ++
  xf_table Little [EOC; 2; EOC] ++                                    (* 2: SSAT *)
  bytes_in Little 4 3 ++ bytes_in Little 4 6 ++ zeros 56 ++           (* 3: short sectors *)
  xt_set ++ zeros (512 - 64 - zlen xt_set).

Definition xt_run (mem : memory) : res report * mst :=
  info_main mem (xi_lib true) xf_una (good_env xt_file) false None xm_start.

Lemma xf_eqb_refl l : xf_eqb l l = true.
Proof. induction l; cbn; [reflexivity|now rewrite Z.eqb_refl]. Qed.

Lemma differ (f g : res report * mst) :
  match f, g with
  | (Ok r, _), (Ok r1, _) => r_success r && negb (Nat.ltb 0 (length (r_messages r))) && r_success r1 && negb (xf_eqb (r_out r) (r_out r1))
  | _, _ => false
  end = true ->
  exists r s' r1 s1, f = (Ok r, s') /\ g = (Ok r1, s1) /\
    r_success r = true /\ r_messages r = [] /\ r_success r1 = true /\ r_out r <> r_out r1.
Proof.
  destruct f as [[r| | |] s']; try discriminate. destruct g as [[r1| | |] s1]; try discriminate. intros H.
  apply andb_true_iff in H as [H H4]. apply andb_true_iff in H as [H H3]. apply andb_true_iff in H as [H1 H2].
  exists r, s', r1, s1. split; [reflexivity|]. split; [reflexivity|]. split; [exact H1|].
  split; [destruct (r_messages r); [reflexivity|discriminate]|]. split; [exact H3|].
  intros E. rewrite E, xf_eqb_refl in H4. discriminate.
Qed.

(** A single refused request, and the tool succeeds, prints nothing to stderr,
    and tells another number than the one in the file. *)
Theorem C100_success_is_right_refuted :
  exists mem lib text empty names date u ev r s' r1 s1,
    infolib_ok lib text empty names date /\ una_ok u /\ io_bytes (ev_reader ev) /\
    (exists k, forall n, mem n = false <-> n = k) /\
    info_main mem lib u ev false None xm_start = (Ok r, s') /\
    info_main (fun _ => true) lib u ev false None xm_start = (Ok r1, s1) /\
    r_success r = true /\ r_messages r = [] /\ r_success r1 = true /\ r_out r <> r_out r1.
Proof.
  exists (all_but 13), (xi_lib true), xi_text, (fun _ => Some []), xi_names, xi_date, xf_una, (good_env xt_file).
  destruct (differ (info_main (all_but 13) (xi_lib true) xf_una (good_env xt_file) false None xm_start)
                   (info_main (fun _ => true) (xi_lib true) xf_una (good_env xt_file) false None xm_start))
    as (r & s' & r1 & s1 & H); [vm_compute; reflexivity|].
  exists r, s', r1, s1. split; [apply xi_lib_ok|]. split; [exact xf_una_ok|].
  split; [apply file_reader_bytes, all_bytes_ok; vm_compute; reflexivity|].
  split. { exists 13%nat. intros n. unfold all_but. rewrite negb_false_iff. apply Nat.eqb_eq. }
  exact H.
Qed.
Print Assumptions C100_success_is_right_refuted.

(** What it prints instead: the page count 6 for 5. *)
Example C100_case_wrong :
  match xt_run (all_but 13), xt_run (fun _ => true) with
  | (Ok r, s'), (Ok r1, s1) =>
      let n := (length (r_out r) - 24)%nat in
      firstn n (r_out r) = firstn n (r_out r1) /\
      skipn n (r_out r) = text_of "0003)" ++ [10; 9] ++ text_of "Value data" ++ [9; 9] ++ text_of ": 6" ++ [10; 10] /\
      skipn n (r_out r1) = text_of "0003)" ++ [10; 9] ++ text_of "Value data" ++ [9; 9] ++ text_of ": 5" ++ [10; 10] /\
      m_live s' = [] /\ m_live s1 = [] /\ nth_error (m_requests s') 13 = Some (RSsat, false)
  | _, _ => False
  end.
Proof. vm_compute. repeat split. Qed.
