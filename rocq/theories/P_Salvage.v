(** C94: exports of damaged documents. *)
From Coq Require Import String ZArith List Bool Lia.
From Verif Require Import Base Spec_IO M_Header M_Table M_Load M_Stream M_Tree M_Open M_Item M_Export
  Spec_Stream Spec_Load Spec_Tree Spec_Open Spec_Content Spec_Item Spec_Export
  L_Base L_Item L_Open2 L_Export L_Export2 L_Export3 P_Export X_File X_Export P_Write
  L_Write L_Write2 L_Write3 L_Write4 L_Write6 L_Write7 Spec_Stores L_Stores L_Stores2 X_Stores P_Stores Spec_Write Spec_Doc L_Doc
  Spec_DocExport L_DocExport P_DocExport Spec_Fault L_Fault L_Fault2 L_Fault3 P_Fault Spec_Requests L_Requests P_Requests Spec_Salvage L_Salvage.
Import ListNotations.
Open Scope Z_scope.

Lemma damaged ho u rd f h root doc o t tr safe p n w :
  una_ok u -> stores u f h root doc -> io_bytes rd -> io_sound rd f ->
  open_read u rd [] = (Ok o, t) -> open_read u (file_reader f) [] = (Ok o, t) -> o_tree o = Some tr ->
  names_ok (host_name ho (fh_byte_order h) safe) (doc_items doc) -> own_names safe (doc_items doc) ->
  ~ In n [[46]; [46; 46]] -> vacant (x_disk w) (path_join p n) ->
  exists nd, nth_error (tr_nodes tr) 0 = Some nd /\ shows (file_reader f) (opened_volume o) tr (n_subs nd) (doc_items doc) /\
    ((~ (forall k, ho_fault ho k = None) /\
      exists w', export_file ho rd (opened_volume o) (Some tr) p n w = (Err, w') /\ x_disk w' = x_disk w) \/
     exists w' x, export_file ho rd (opened_volume o) (Some tr) p n w = (Ok tt, w') /\
       gains (x_disk w) (x_disk w') ((path_join p n, Directory) :: x) /\
       made ho rd (opened_volume o) tr safe (n_subs nd) (doc_items doc) (path_join p n) x).
Proof.
  intros Hu HF HB HS HO HO0 Et HN HOwn Hn HV.
  assert (Hf : Forall is_byte f) by (destruct HF as (? & ? & ? & ? & ? & G & _); exact G).
  destruct (stored_opens u (file_reader f) f Hu (file_reader_bytes f Hf) (file_reader_sound f) (file_reader_total f) h root doc HF)
    as (o0 & t0 & H1 & H2 & _ & _ & _ & H5).
  rewrite HO0 in H1. apply pair_equal_spec in H1. destruct H1 as [H1 _]. apply Ok_inj in H1. subst o0.
  destruct (H5 tr Et) as (nd & E1 & E2 & E3 & E4). exists nd. split; [exact E1|]. split; [exact E4|].
  destruct (C42_opened_shape u rd o t tr Hu HB HO Et) as (T1 & T2 & T3 & T4).
  apply (file_made ho rd (file_reader f) (opened_volume o) tr safe T1 T2); auto.
  - intros k nd' Hk. apply (T4 k). exists nd'. auto.
  - intros d s. apply (readable_faulty rd (file_reader f) f); auto using file_reader_sound, file_reader_total.
  - intros d s c m cap t1 (R1 & R2 & R3 & _ & R5 & _) HC Hm Hc _.
    apply (read_delivered (opened_volume o) d R1 R2 R3 R5 rd (file_reader f) f); auto using file_reader_sound, file_reader_total, delivers_part.
  - assert (He : v_byte_order (opened_volume o) = fh_byte_order h) by (cbn [opened_volume v_byte_order]; rewrite H2; reflexivity).
    rewrite He. exact HN.
  - now apply not_dots.
Qed.

(** * Theorems *)

(** Reading fails or falls short at any time, the tables could be read: the
    export succeeds, and makes all directories; in each data file are the
    first bytes of the stream, whole buffers of them, or all if the stream can
    be read. *)
Theorem C94_salvage :
  forall ho u rd f h root doc o t tr safe p n w,
    una_ok u -> stores u f h root doc -> io_bytes rd -> io_sound rd f ->
    open_read u rd [] = (Ok o, t) -> tables_read rd f o -> o_tree o = Some tr ->
    names_ok (host_name ho (fh_byte_order h) safe) (doc_items doc) -> own_names safe (doc_items doc) ->
    (forall k, ho_fault ho k = None) -> ~ In n [[46]; [46; 46]] -> vacant (x_disk w) (path_join p n) ->
    exists nd items w',
      nth_error (tr_nodes tr) 0 = Some nd /\
      altered tr (rescued (can_read rd (opened_volume o))) (n_subs nd) (doc_items doc) items /\
      export_file ho rd (opened_volume o) (Some tr) p n w = (Ok tt, w') /\
      forall q x, on_disk (x_disk w') q = Some x <->
        on_disk (x_disk w) q = Some x \/ (q = path_join p n /\ x = Directory) \/
        In (q, x) (exported safe items (path_join p n)).
Proof.
  intros ho u rd f h root doc o t tr safe p n w Hu HF HB HS HO HR Et HN HOwn HC Hn HV.
  pose proof (C88_same u rd (file_reader f) f o t Hu HB HS (file_reader_sound f) (file_reader_total f) HO HR) as HO0.
  destruct (damaged ho u rd f h root doc o t tr safe p n w Hu HF HB HS HO HO0 Et HN HOwn Hn HV)
    as (nd & E1 & _ & [(NC & _)|(w' & x & E2 & E3 & E4)]); [contradiction|].
  destruct (made_altered ho rd (opened_volume o) tr safe _ _ _ _ E4 HC) as (items & A1 & ->).
  exists nd, items, w'. split; [exact E1|]. split; [exact A1|]. split; [exact E2|].
  intros q y. rewrite (E3 q y). cbn [In]. rewrite pair_equal_spec. intuition congruence.
Qed.
Print Assumptions C94_salvage.

(** Calls of the host may fail as well: the tool succeeds unless it cannot make
    its directory, and what is left of each item is in its place. *)
Theorem C94_faults :
  forall ho u rd f h root doc o t tr safe p n w,
    una_ok u -> stores u f h root doc -> io_bytes rd -> io_sound rd f ->
    open_read u rd [] = (Ok o, t) -> tables_read rd f o -> o_tree o = Some tr ->
    names_ok (host_name ho (fh_byte_order h) safe) (doc_items doc) -> own_names safe (doc_items doc) ->
    ~ In n [[46]; [46; 46]] -> vacant (x_disk w) (path_join p n) ->
    exists w',
      (export_file ho rd (opened_volume o) (Some tr) p n w = (Err, w') /\ x_disk w' = x_disk w) \/
      (export_file ho rd (opened_volume o) (Some tr) p n w = (Ok tt, w') /\
       exists l, left_of safe (doc_items doc) (path_join p n) l /\
         forall q x, on_disk (x_disk w') q = Some x <->
           on_disk (x_disk w) q = Some x \/ (q = path_join p n /\ x = Directory) \/ In (q, x) l).
Proof.
  intros ho u rd f h root doc o t tr safe p n w Hu HF HB HS HO HR Et HN HOwn Hn HV.
  pose proof (C88_same u rd (file_reader f) f o t Hu HB HS (file_reader_sound f) (file_reader_total f) HO HR) as HO0.
  destruct (damaged ho u rd f h root doc o t tr safe p n w Hu HF HB HS HO HO0 Et HN HOwn Hn HV)
    as (nd & E1 & _ & [(_ & w' & E2 & E3)|(w' & x & E2 & E3 & E4)]); exists w'; [left; auto|right].
  split; [exact E2|]. exists x. split; [eapply made_left; exact E4|].
  intros q y. rewrite (E3 q y). cbn [In]. rewrite pair_equal_spec. intuition congruence.
Qed.
Print Assumptions C94_faults.

(** A medium with bytes that cannot be read, none of them in the tables: the
    streams with none of them are exported whole. *)
Lemma altered_medium bad f v tr js fo fo' :
  altered tr (rescued (can_read (bad_medium bad f) v)) js fo fo' -> shows (file_reader f) v tr js fo ->
  altered tr (rescued (fun d => forall i p, 0 <= i < de_size d -> stream_position v d i p -> bad p = false)) js fo fo'.
Proof.
  induction 1 as [|j js nd n c m s s' r r' H1 H2 H3 IH|j js nd n c m a a' r r' H1 H2 IH2 H3 IH]; intros HSh; inversion HSh; subst.
  - constructor.
  - assert (nd0 = nd) by congruence. subst nd0.
    econstructor; [exact H1| |auto]. destruct H2 as (R1 & R2 & R3). split; [exact R1|]. split; [exact R2|]. intros Hw. apply R3.
    apply (bad_delivers bad f v (n_entry nd) s); auto; [lia|]. intros i p Hi. apply Hw. lia.
  - assert (nd0 = nd) by congruence. subst nd0. econstructor; [exact H1| |]; auto.
Qed.

Theorem C94_medium :
  forall ho u bad f h root doc o t tr safe p n w,
    una_ok u -> stores u f h root doc ->
    open_read u (bad_medium bad f) [] = (Ok o, t) -> tables_read (bad_medium bad f) f o -> o_tree o = Some tr ->
    names_ok (host_name ho (fh_byte_order h) safe) (doc_items doc) -> own_names safe (doc_items doc) ->
    (forall k, ho_fault ho k = None) -> ~ In n [[46]; [46; 46]] -> vacant (x_disk w) (path_join p n) ->
    exists nd items w',
      nth_error (tr_nodes tr) 0 = Some nd /\
      altered tr (rescued (fun d => forall i q, 0 <= i < de_size d -> stream_position (opened_volume o) d i q -> bad q = false))
        (n_subs nd) (doc_items doc) items /\
      export_file ho (bad_medium bad f) (opened_volume o) (Some tr) p n w = (Ok tt, w') /\
      forall q x, on_disk (x_disk w') q = Some x <->
        on_disk (x_disk w) q = Some x \/ (q = path_join p n /\ x = Directory) \/
        In (q, x) (exported safe items (path_join p n)).
Proof.
  intros ho u bad f h root doc o t tr safe p n w Hu HF HO HR Et HN HOwn HC Hn HV.
  assert (Hf : Forall is_byte f) by (destruct HF as (? & ? & ? & ? & ? & G & _); exact G).
  pose proof (bad_bytes bad f Hf) as HB. pose proof (bad_sound bad f) as HS.
  pose proof (C88_same u _ (file_reader f) f o t Hu HB HS (file_reader_sound f) (file_reader_total f) HO HR) as HO0.
  destruct (damaged ho u _ f h root doc o t tr safe p n w Hu HF HB HS HO HO0 Et HN HOwn Hn HV)
    as (nd & E1 & ES & [(NC & _)|(w' & x & E2 & E3 & E4)]); [contradiction|].
  destruct (made_altered ho _ (opened_volume o) tr safe _ _ _ _ E4 HC) as (items & A1 & ->).
  exists nd, items, w'. split; [exact E1|]. split; [now apply altered_medium with (f := f)|]. split; [exact E2|].
  intros q y. rewrite (E3 q y). cbn [In]. rewrite pair_equal_spec. intuition congruence.
Qed.
Print Assumptions C94_medium.

Lemma altered_before rd f k v tr js fo fo' : io_sound rd (cut k f) -> io_total rd (cut k f) ->
  altered tr (rescued (can_read rd v)) js fo fo' -> shows (file_reader f) v tr js fo ->
  altered tr (rescued (fun d => stream_before v d k)) js fo fo'.
Proof.
  intros HS HT.
  induction 1 as [|j js nd n c m s s' r r' H1 H2 H3 IH|j js nd n c m a a' r r' H1 H2 IH2 H3 IH]; intros HSh; inversion HSh; subst.
  - constructor.
  - assert (nd0 = nd) by congruence. subst nd0.
    econstructor; [exact H1| |auto]. destruct H2 as (R1 & R2 & R3). split; [exact R1|]. split; [exact R2|]. intros Hw. apply R3.
    apply (readable_delivers rd v (n_entry nd) s); [|lia]. eapply (readable_cut rd (file_reader f) f k); eauto using file_reader_sound, file_reader_total.
  - assert (nd0 = nd) by congruence. subst nd0. econstructor; [exact H1| |]; auto.
Qed.

Lemma damaged_cut ho u rd f k h root doc o t tr safe p n w :
  una_ok u -> stores u f h root doc -> io_bytes rd -> io_sound rd (cut k f) -> io_total rd (cut k f) ->
  open_read u rd [] = (Ok o, t) -> open_read u (file_reader f) [] = (Ok o, t) -> o_tree o = Some tr ->
  names_ok (host_name ho (fh_byte_order h) safe) (doc_items doc) -> own_names safe (doc_items doc) ->
  (forall i, ho_fault ho i = None) -> ~ In n [[46]; [46; 46]] -> vacant (x_disk w) (path_join p n) ->
  exists nd items w',
    nth_error (tr_nodes tr) 0 = Some nd /\
    altered tr (rescued (fun d => stream_before (opened_volume o) d k)) (n_subs nd) (doc_items doc) items /\
    export_file ho rd (opened_volume o) (Some tr) p n w = (Ok tt, w') /\
    forall q x, on_disk (x_disk w') q = Some x <->
      on_disk (x_disk w) q = Some x \/ (q = path_join p n /\ x = Directory) \/
      In (q, x) (exported safe items (path_join p n)).
Proof.
  intros Hu HF HB HS HT HO HO0 Et HN HOwn HC Hn HV.
  destruct (damaged ho u rd f h root doc o t tr safe p n w Hu HF HB (cut_sound k f rd HS) HO HO0 Et HN HOwn Hn HV)
    as (nd & E1 & ES & [(NC & _)|(w' & x & E2 & E3 & E4)]); [contradiction|].
  destruct (made_altered ho rd (opened_volume o) tr safe _ _ _ _ E4 HC) as (items & A1 & ->).
  exists nd, items, w'. split; [exact E1|]. split; [eapply altered_before; eauto|]. split; [exact E2|].
  intros q y. rewrite (E3 q y). cbn [In]. rewrite pair_equal_spec. intuition congruence.
Qed.

(** A file that is cut off, the tables are before the end: the streams before
    the end are exported whole, of the others there are the first buffers. *)
Theorem C94_cut :
  forall ho u rd f k h root doc o t tr safe p n w,
    una_ok u -> stores u f h root doc -> io_bytes rd -> io_sound rd (cut k f) -> io_total rd (cut k f) ->
    open_read u rd [] = (Ok o, t) -> tables_before f o k -> o_tree o = Some tr ->
    names_ok (host_name ho (fh_byte_order h) safe) (doc_items doc) -> own_names safe (doc_items doc) ->
    (forall i, ho_fault ho i = None) -> ~ In n [[46]; [46; 46]] -> vacant (x_disk w) (path_join p n) ->
    exists nd items w',
      nth_error (tr_nodes tr) 0 = Some nd /\
      altered tr (rescued (fun d => stream_before (opened_volume o) d k)) (n_subs nd) (doc_items doc) items /\
      export_file ho rd (opened_volume o) (Some tr) p n w = (Ok tt, w') /\
      forall q x, on_disk (x_disk w') q = Some x <->
        on_disk (x_disk w) q = Some x \/ (q = path_join p n /\ x = Directory) \/
        In (q, x) (exported safe items (path_join p n)).
Proof.
  intros ho u rd f k h root doc o t tr safe p n w Hu HF HB HS HT HO HR Et HN HOwn HC Hn HV.
  pose proof (C88_cut_same u rd (file_reader f) f k o t Hu HB HS HT (file_reader_sound f) (file_reader_total f) HO HR) as HO0.
  eapply damaged_cut; eauto.
Qed.
Print Assumptions C94_cut.

(** What is left of a file of the writer of C61, from the end of the directory
    on: it is opened and exported. *)
Theorem C94_written :
  forall ho u rd fm doc k safe p n w,
    una_ok u -> writable fm doc -> comparable u (fm_order fm) (doc_name doc) ->
    names_ok (comparable u (fm_order fm)) (doc_items doc) -> doc_items doc <> Empty ->
    io_bytes rd -> io_sound rd (cut k (write fm doc)) -> io_total rd (cut k (write fm doc)) ->
    (w_n_sat fm doc + w_n_ssat fm doc + w_n_dir fm doc + 1) * 2 ^ fm_sector fm <= k ->
    names_ok (host_name ho (fm_order fm) safe) (doc_items doc) -> own_names safe (doc_items doc) ->
    (forall i, ho_fault ho i = None) -> ~ In n [[46]; [46; 46]] -> vacant (x_disk w) (path_join p n) ->
    exists o t tr nd items w',
      open_read u rd [] = (Ok o, t) /\ o_tree o = Some tr /\ nth_error (tr_nodes tr) 0 = Some nd /\
      altered tr (rescued (fun d => stream_before (opened_volume o) d k)) (n_subs nd) (doc_items doc) items /\
      export_file ho rd (opened_volume o) (Some tr) p n w = (Ok tt, w') /\
      forall q x, on_disk (x_disk w') q = Some x <->
        on_disk (x_disk w) q = Some x \/ (q = path_join p n /\ x = Directory) \/
        In (q, x) (exported safe items (path_join p n)).
Proof.
  intros ho u rd fm doc k safe p n w Hu W HC HCs HE HB HS HT Hk HN HOwn HF Hn HV.
  destruct (at_eqs fm doc) as (E1 & E2 & E3 & _). rewrite <- E1, <- E2, <- E3 in Hk.
  assert (E : 2 ^ fm_sector fm = w_ss fm) by (unfold w_ss; reflexivity). rewrite E in Hk.
  destruct (written_cut_opens u rd fm doc k Hu W HC HCs HB HS HT Hk) as (o & t & HO & HO0).
  pose proof (written_stored u fm doc Hu W HC HCs) as HSt. pose proof (write_bytes fm doc W) as Hf.
  destruct (stored_opens u (file_reader (write fm doc)) _ Hu (file_reader_bytes _ Hf) (file_reader_sound _) (file_reader_total _) _ _ doc HSt)
    as (o0 & t0 & H1 & _ & _ & _ & H4 & _).
  rewrite HO0 in H1. apply pair_equal_spec in H1. destruct H1 as [H1 _]. apply Ok_inj in H1. subst o0.
  destruct (o_tree o) as [tr|] eqn:Et; [|now elim HE; apply H4].
  destruct (damaged_cut ho u rd (write fm doc) k _ _ doc o t tr safe p n w Hu HSt HB HS HT HO HO0 Et HN HOwn HF Hn HV)
    as (nd & items & w' & R). exists o, t, tr, nd, items, w'. split; [exact HO|]. split; [exact Et|exact R].
Qed.
Print Assumptions C94_written.

(** * Cases *)
Definition xv_export (ho : host) (f : list Z) : option (res unit * disk) :=
  match open_read xf_una (file_reader f) [] with
  | (Ok o, _) =>
      let (r, w) := export_file ho (file_reader f) (opened_volume o) (o_tree o) xe_dir xe_leaf xx_start in Some (r, x_disk w)
  | _ => None
  end.

(** The file of C88_cut_case: all hypotheses hold; the data of the long stream
    is missing, all else is there. *)
Example C94_case :
  let doc := xf_document Little in
  let rd := file_reader (xt_cut 3072) in
  writable xf_format doc /\ comparable xf_una Little (doc_name doc) /\ names_ok (comparable xf_una Little) (doc_items doc) /\
  doc_items doc <> Empty /\ io_bytes rd /\ io_sound rd (xt_cut 3072) /\ io_total rd (xt_cut 3072) /\
  (w_n_sat xf_format doc + w_n_ssat xf_format doc + w_n_dir xf_format doc + 1) * 2 ^ fm_sector xf_format <= 3072 /\
  names_ok (host_name xe_fine Little (xx_safe Little)) (doc_items doc) /\ own_names (xx_safe Little) (doc_items doc) /\
  vacant (x_disk xx_start) (path_join xe_dir xe_leaf) /\
  match xv_export xe_fine (xt_cut 3072) with
  | Some (r, s) =>
      r = Ok tt /\
      on_disk s (text_of "/o/x/ab/StreamData.bin") = Some (Data (slice (xf_data 0 512) 0 70)) /\
      on_disk s (text_of "/o/x/cd") = Some Directory /\
      on_disk s (text_of "/o/x/cd/StreamData.bin") = Some (Data []) /\
      on_disk s (text_of "/o/x/st/xy/StreamData.bin") = Some (Data (slice (xf_data 0 512) 128 10))
  | None => False
  end.
Proof.
  intros doc rd. split; [exact xf_writable|].
  split. { split; intros H; vm_compute in H; discriminate H. }
  split. { cbn [names_ok doc_items doc xf_document]. repeat split; vm_compute; discriminate. }
  split; [discriminate|]. split; [apply file_reader_bytes, cut_bytes, (write_bytes _ _ xf_writable)|].
  split; [apply file_reader_sound|]. split; [apply file_reader_total|]. split; [vm_compute; discriminate|].
  split. { cbn [names_ok doc_items doc xf_document]. repeat split; try (eexists; split; reflexivity); vm_compute; intuition discriminate. }
  split. { cbn [own_names doc_items doc xf_document members]. vm_compute. intuition discriminate. }
  split; [split; [reflexivity|intros q; reflexivity]|].
  vm_compute. repeat split.
Qed.

(** A stream of 40000 bytes in a file that is cut off: the first buffer of 32768
    bytes is exported. *)
Definition xv_bytes : list Z := concat (repeat (xf_data 7 200) 200).
Definition xv_doc : document :=
  {| doc_name := [82; 0; 0; 0]; doc_ctime := 0; doc_mtime := 0; doc_items := AddStream [97; 0; 0; 0] 0 0 xv_bytes Empty |}.

Example C94_case_buffer :
  match xv_export xe_fine (cut 38000 (write xf_format xv_doc)) with
  | Some (Ok tt, s) =>
      match on_disk s (text_of "/o/x/a/StreamData.bin") with
      | Some (Data l) => zlen l = 32768 /\ list_eqb l (slice xv_bytes 0 32768) = true
      | _ => False
      end
  | _ => False
  end.
Proof. vm_compute. split; reflexivity. Qed.

(** The whole file, on a host of which the call that writes the long stream
    fails after 5 bytes, and the one that opens the data file of the storage
    fails. *)
Example C94_case_faults :
  match xv_export (xe_host (fun k => if (k =? 11)%nat then Some 5 else if (k =? 15)%nat then Some 0 else None))
          (write xf_format (xf_document Little)) with
  | Some (r, s) =>
      r = Ok tt /\
      on_disk s (text_of "/o/x/ab/StreamData.bin") = Some (Data (slice (xf_data 0 512) 0 70)) /\
      on_disk s (text_of "/o/x/cd/StreamData.bin") = Some (Data (slice (xf_data 100 512) 0 5)) /\
      on_disk s (text_of "/o/x/st") = Some Directory /\
      on_disk s (text_of "/o/x/st/StreamData.bin") = None /\
      on_disk s (text_of "/o/x/st/xy") = None
  | None => False
  end.
Proof. vm_compute. repeat split. Qed.

(** A medium of which the byte at 2100 cannot be read: it is in the short stream
    of 70 bytes. *)
Example C94_case_medium :
  let rd := bad_medium (Z.eqb 2100) (xf_file Little) in
  exists o t tr, open_read xf_una rd [] = (Ok o, t) /\ o_tree o = Some tr /\ tables_read rd (xf_file Little) o /\
    let (r, w) := export_file xe_fine rd (opened_volume o) (Some tr) xe_dir xe_leaf xx_start in
    r = Ok tt /\
    on_disk (x_disk w) (text_of "/o/x/ab/StreamData.bin") = Some (Data []) /\
    on_disk (x_disk w) (text_of "/o/x/cd/StreamData.bin") = Some (Data (xf_data 100 512 ++ slice (xf_data 200 512) 0 88)) /\
    on_disk (x_disk w) (text_of "/o/x/st/xy/StreamData.bin") = Some (Data (slice (xf_data 0 512) 128 10)).
Proof.
  cbn zeta. set (rd := bad_medium (Z.eqb 2100) (xf_file Little)). destruct (open_read xf_una rd []) as [r t] eqn:E.
  assert (HC : match r with
               | Ok o => o_header o = decoded Little (xf_header Little) /\ o_msat o = 0 :: repeat FREE 108 /\
                         o_sat o = xf_sat ++ repeat FREE 121 /\
                         match o_tree o with
                         | Some tr =>
                             let (r, w) := export_file xe_fine rd (opened_volume o) (Some tr) xe_dir xe_leaf xx_start in
                             r = Ok tt /\
                             on_disk (x_disk w) (text_of "/o/x/ab/StreamData.bin") = Some (Data []) /\
                             on_disk (x_disk w) (text_of "/o/x/cd/StreamData.bin") = Some (Data (xf_data 100 512 ++ slice (xf_data 200 512) 0 88)) /\
                             on_disk (x_disk w) (text_of "/o/x/st/xy/StreamData.bin") = Some (Data (slice (xf_data 0 512) 128 10))
                         | None => False
                         end
               | _ => False
               end).
  { change r with (fst (r, t)). rewrite <- E. vm_compute. repeat (split; [reflexivity|]). reflexivity. }
  destruct r as [o| | |]; try destruct HC. destruct H0 as (H1 & H2 & H3).
  destruct (o_tree o) as [tr|] eqn:Et; [|destruct H3].
  exists o, t, tr. split; [reflexivity|]. split; [exact Et|]. split; [|exact H3].
  intros id HI _ tt.
  assert (Hid : id = 0 \/ id = 2).
  { unfold table_sector in HI. rewrite H, H1, H2 in HI. destruct HI as [HI|(k & HI & N1 & N2)].
    - left. vm_compute in HI. destruct HI as [<-|[]]. reflexivity.
    - right. change (fh_ssat_sector_identifier (decoded Little (xf_header Little))) with 2 in HI. clear - HI N1.
      assert (G : id = 2 \/ id = EOC).
      { induction HI as [|k x y HI IH Hz]; [now left|]. clear N1. destruct (Z.eq_dec x EOC) as [->|Hx].
        - exfalso. apply znth_range in Hz. vm_compute in Hz. destruct Hz as [_ Hz]. discriminate Hz.
        - destruct (IH Hx) as [->| ->]; [|contradiction]. vm_compute in Hz. injection Hz as <-. right. reflexivity. }
      destruct G as [G|G]; [exact G|contradiction]. }
  rewrite H. change (fh_sector_size (decoded Little (xf_header Little))) with 512.
  destruct Hid as [-> | ->]; eexists; (split; [vm_compute; reflexivity|vm_compute; reflexivity]).
Qed.
