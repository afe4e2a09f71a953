(** C88: files that are cut off, and I/O that fails now and then. *)
From Coq Require Import ZArith List Bool Lia ZifyBool.
From Verif Require Import Base Spec_IO M_Header M_Table M_Load M_Stream M_Tree M_Open M_Item
  Spec_Stream Spec_Load Spec_Tree Spec_Open Spec_Content L_Base L_Stream L_Open2 X_File Spec_Write L_Write3 L_Write7 P_Write
  Spec_Stores L_Stores L_Stores2 X_Stores P_Stores Spec_Fault L_Fault L_Fault2 L_Fault3.
Import ListNotations.
Open Scope Z_scope.

(** * Theorems *)

(** I/O may fail, or deliver less than asked for, at any time.  If the file is
    opened nevertheless, and the allocation tables could be read, then all is
    as it is without failures. *)
Theorem C88_same :
  forall u rd rd0 f o t,
    una_ok u -> io_bytes rd -> io_sound rd f -> io_sound rd0 f -> io_total rd0 f ->
    open_read u rd [] = (Ok o, t) -> tables_read rd f o ->
    open_read u rd0 [] = (Ok o, t).
Proof. intros u rd rd0 f o t Hu HB HS HS0 HT0. now apply open_same with (f := f). Qed.
Print Assumptions C88_same.

(** It is opened if all that is asked for and is in the file is delivered. *)
Theorem C88_opens :
  forall u rd rd0 f r t,
    io_sound rd f -> io_sound rd0 f -> io_total rd0 f ->
    open_read u rd0 [] = (r, t) ->
    (forall off n, In (off, n) t -> 0 <= off /\ 0 < n /\ (off + n <= zlen f -> always_read rd off n)) ->
    open_read u rd [] = (r, t).
Proof.
  intros u rd rd0 f r t HS HS0 HT0 HO HA. destruct (local_open u rd0 [] r t HO) as (q & E & H). cbn [app] in E. subst q.
  apply H. intros [off n] Hx. destruct (HA off n Hx) as (H1 & H2 & H3). now apply (always_agree rd rd0 f).
Qed.
Print Assumptions C88_opens.

(** The streams are those of the file: what is read of them are their bytes
    (C01, C79). *)
Theorem C88_streams :
  forall rd rd0 f v d s,
    io_sound rd f -> io_sound rd0 f -> io_total rd0 f ->
    is_readable_stream rd0 v d s -> is_stream rd v d s.
Proof. exact readable_faulty. Qed.
Print Assumptions C88_streams.

Theorem C88_read :
  forall rd rd0 f v d s c n cap t l c' t',
    io_sound rd f -> io_sound rd0 f -> io_total rd0 f -> is_readable_stream rd0 v d s -> 0 <= n ->
    stream_read_buffer rd v d c n cap t = (Ok (l, c'), t') -> l = slice s c n /\ c' = c + zlen l.
Proof.
  intros rd rd0 f v d s c n cap t l c' t' HS HS0 HT0 HR Hn H.
  exact (L_Fuse.read_buffer_slice rd v d s c n cap t l c' t' (readable_faulty rd rd0 f v d s HS HS0 HT0 HR) Hn H).
Qed.
Print Assumptions C88_read.

(** The client that walks over all items and reads all streams gets the
    document, or an error. *)
Theorem C88_read_back :
  forall u rd f h root doc o t fuel doc',
    una_ok u -> stores u f h root doc -> io_bytes rd -> io_sound rd f ->
    open_read u rd [] = (Ok o, t) -> tables_read rd f o ->
    read_back fuel rd o = Some doc' -> doc' = doc.
Proof.
  intros u rd f h root doc o t fuel doc' Hu HF HB HS HO HR HC.
  assert (Hf : Forall is_byte f) by (destruct HF as (? & ? & ? & ? & ? & G & _); exact G).
  pose proof (C88_same u rd (file_reader f) f o t Hu HB HS (file_reader_sound f) (file_reader_total f) HO HR) as HO0.
  destruct (stored_opens u (file_reader f) f Hu (file_reader_bytes f Hf) (file_reader_sound f) (file_reader_total f) h root doc HF)
    as (o0 & t0 & H1 & _ & _ & _ & _ & H5).
  rewrite HO0 in H1. injection H1 as <- <-. destruct (stores_root _ _ _ _ _ HF) as (_ & R2 & R3 & R4 & _).
  unfold read_back in HC. destruct (o_tree o) as [tr|] eqn:Et; [|discriminate]. destruct (H5 tr eq_refl) as (nd & E1 & E2 & _ & E3).
  cbn [get_root_item] in HC. unfold node_value in HC. rewrite E1 in HC.
  destruct (items_below rd (opened_volume o) tr fuel 0) as [x|] eqn:Ei; [|discriminate].
  rewrite E2 in HC.
  pose proof (items_below_only rd (file_reader f) f (opened_volume o) tr HS (file_reader_sound f) (file_reader_total f) fuel 0 nd _ x E1 E3 Ei) as ->.
  rewrite R2, R3, R4 in HC. destruct doc. cbn in HC. congruence.
Qed.
Print Assumptions C88_read_back.

(** A file that is cut off: if it is opened, and the tables are before the
    end, then it looks like the whole file. *)
Theorem C88_cut_same :
  forall u rd rd0 f n o t,
    una_ok u -> io_bytes rd -> io_sound rd (cut n f) -> io_total rd (cut n f) -> io_sound rd0 f -> io_total rd0 f ->
    open_read u rd [] = (Ok o, t) -> tables_before f o n ->
    open_read u rd0 [] = (Ok o, t).
Proof.
  intros u rd rd0 f n o t Hu HB HS HT HS0 HT0 HO HN. apply (C88_same u rd rd0 f); auto; [exact (cut_sound n f rd HS)|].
  destruct (opened_header u rd Hu HB o t HO) as (_ & Hss & _). apply (tables_cut f n); auto. lia.
Qed.
Print Assumptions C88_cut_same.

(** It is opened if all the sectors that opening looks at are before the
    end. *)
Theorem C88_cut_opens :
  forall u rd f n o t,
    una_ok u -> Forall is_byte f -> io_bytes rd -> io_sound rd (cut n f) -> io_total rd (cut n f) ->
    open_read u (file_reader f) [] = (Ok o, t) -> moderate (o_header o) -> needed_before f o n ->
    open_read u rd [] = (Ok o, t).
Proof. exact cut_opens. Qed.
Print Assumptions C88_cut_opens.

(** Streams before the end can be read. *)
Theorem C88_cut_stream :
  forall rd rd0 f n v d s,
    io_sound rd (cut n f) -> io_total rd (cut n f) -> io_sound rd0 f -> io_total rd0 f ->
    is_readable_stream rd0 v d s -> stream_before v d n -> is_readable_stream rd v d s.
Proof. exact readable_cut. Qed.
Print Assumptions C88_cut_stream.

(** The writer of C61 puts the tables first: what is left of such a file is
    opened exactly if the directory is left, and then looks like the whole. *)
Theorem C88_written_exact :
  forall u rd fm doc n,
    una_ok u -> writable fm doc -> comparable u (fm_order fm) (doc_name doc) ->
    names_ok (comparable u (fm_order fm)) (doc_items doc) ->
    io_bytes rd -> io_sound rd (cut n (write fm doc)) -> io_total rd (cut n (write fm doc)) ->
    ((exists o t, open_read u rd [] = (Ok o, t)) <->
     (w_n_sat fm doc + w_n_ssat fm doc + w_n_dir fm doc + 1) * 2 ^ fm_sector fm <= n).
Proof.
  intros u rd fm doc n Hu W HC HCs HB HS HT.
  destruct (at_eqs fm doc) as (E1 & E2 & E3 & _). rewrite <- E1, <- E2, <- E3.
  assert (E : 2 ^ fm_sector fm = w_ss fm) by (unfold w_ss; reflexivity). rewrite E. split.
  - intros (o & t & HO). exact (proj1 (written_cut_opened u rd fm doc n Hu W HC HCs HB HS HT o t HO)).
  - intros Hn. destruct (written_cut_opens u rd fm doc n Hu W HC HCs HB HS HT Hn) as (o & t & H & _). eauto.
Qed.
Print Assumptions C88_written_exact.

Theorem C88_written_same :
  forall u rd rd0 fm doc n o t,
    una_ok u -> writable fm doc -> comparable u (fm_order fm) (doc_name doc) ->
    names_ok (comparable u (fm_order fm)) (doc_items doc) ->
    io_bytes rd -> io_sound rd (cut n (write fm doc)) -> io_total rd (cut n (write fm doc)) ->
    io_bytes rd0 -> io_sound rd0 (write fm doc) -> io_total rd0 (write fm doc) ->
    open_read u rd [] = (Ok o, t) -> open_read u rd0 [] = (Ok o, t).
Proof.
  intros u rd rd0 fm doc n o t Hu W HC HCs HB HS HT HB0 HS0 HT0 HO.
  destruct (written_cut_opened u rd fm doc n Hu W HC HCs HB HS HT o t HO) as [_ H].
  pose proof (file_reader_bytes _ (write_bytes fm doc W)) as HBf.
  apply (C88_same u (file_reader (write fm doc)) rd0 (write fm doc) o t Hu HBf (file_reader_sound _) HS0 HT0 H).
  intros id _ HI tr. apply file_reader_total; [|destruct (opened_header u _ Hu HBf o t H) as (_ & Hss & _); lia|exact HI].
  destruct (opened_header u _ Hu HBf o t H) as (_ & Hss & _).
  pose proof (sector_offset_pos id (fh_sector_size (o_header o)) ltac:(lia)) as G. now rewrite sector_offset_request in G.
Qed.
Print Assumptions C88_written_same.

(** * The tables must have been read
    A file with the short table at its end.  When it is cut off there, it is
    still opened, and a stream that is before the end has other bytes. *)
Definition xt_file : list Z :=
  encode_header Little xf_signature (zeros 16) (zeros 10) (zeros 4) []
    {| hv_minor := 62; hv_major := 3; hv_sector_exponent := 9; hv_short_exponent := 6;
       hv_sat_sectors := 1; hv_root := 1; hv_minimum := 100; hv_ssat := 6; hv_ssat_sectors := 1;
       hv_msat := EOC; hv_msat_sectors := 0; hv_msat_values := 0 :: repeat FREE 108 |} ++
  xf_table Little [0xfffffffd; 2; EOC; EOC; 5; EOC; EOC] ++  (* 0: SAT *)
  slice (xf_slots Little) 0 512 ++                           (* 1: directory *)
  slice (xf_slots Little) 512 512 ++                         (* 2: directory *)
  xf_data 0 512 ++                                           (* 3: short sectors *)
  xf_data 100 512 ++ xf_data 200 512 ++                      (* 4, 5: "cd" *)
  xf_table Little [1; EOC; EOC].                             (* 6: SSAT *)

Lemma xt_stores : exists h root, stores xf_una xt_file h root (xf_document Little).
Proof.
  destruct (open_read xf_una (file_reader xt_file) []) as [r t] eqn:E.
  assert (HC : match r with
               | Ok o => document_c 8 xt_file o = Some (xf_document Little) /\ o_header o = decoded Little (slice xt_file 0 512)
               | _ => False
               end).
  { change r with (fst (r, t)). rewrite <- E. vm_compute. split; reflexivity. }
  destruct r as [o| | |]; try destruct HC. assert (HM : moderate (o_header o)) by (rewrite H0; vm_compute; auto).
  assert (HBf : Forall is_byte xt_file) by (apply xf_bytes_ok; vm_compute; reflexivity).
  destruct (document_c_ok xf_una 8 xt_file o t _ xf_una_ok HBf E HM H) as (root & HS). exists (o_header o), root. exact HS.
Qed.

Theorem C88_cut_refuted :
  exists u f n h root doc o t doc',
    una_ok u /\ stores u f h root doc /\ n = zlen f - 512 /\
    open_read u (file_reader (cut n f)) [] = (Ok o, t) /\
    read_back 2 (file_reader (cut n f)) o = Some doc' /\ doc' <> doc.
Proof.
  destruct xt_stores as (h & root & HS).
  destruct (open_read xf_una (file_reader (cut 3584 xt_file)) []) as [r t] eqn:E.
  assert (HC : match r with
               | Ok o => match read_back 2 (file_reader (cut 3584 xt_file)) o with
                         | Some d => match doc_items d with
                                     | AddStream _ _ _ s _ => list_eqb s (slice (xf_data 0 512) 0 70) = false
                                     | _ => False
                                     end
                         | None => False
                         end
               | _ => False
               end).
  { change r with (fst (r, t)). rewrite <- E. vm_compute. reflexivity. }
  destruct r as [o| | |]; try destruct HC.
  destruct (read_back 2 (file_reader (cut 3584 xt_file)) o) as [doc'|] eqn:ER; [|destruct HC].
  exists xf_una, xt_file, 3584, h, root, (xf_document Little), o, t, doc'.
  split; [exact xf_una_ok|]. split; [exact HS|]. split; [vm_compute; reflexivity|]. split; [exact E|]. split; [exact ER|].
  intros ->. vm_compute in HC. discriminate HC.
Qed.
Print Assumptions C88_cut_refuted.

(** * Cases *)
Definition xt_cut (n : Z) : list Z := cut n (write xf_format (xf_document Little)).

(** A sector of the container cannot be read: the file is opened, and the
    streams in it cannot be read. *)
Example C88_case :
  let rd := failing_reader (xf_file Little) 2100 in
  exists o t tr a c, open_read xf_una rd [] = (Ok o, t) /\ o_tree o = Some tr /\ tables_read rd (xf_file Little) o /\
    item_entry tr 2 a /\ item_entry tr 1 c /\
    fst (stream_read_buffer rd (opened_volume o) a 0 70 70 []) = Err /\
    fst (stream_read_buffer rd (opened_volume o) c 0 600 600 []) = Ok (xf_data 100 512 ++ slice (xf_data 200 512) 0 88, 600).
Proof.
  cbn zeta. destruct (open_read xf_una (failing_reader (xf_file Little) 2100) []) as [r t] eqn:E.
  assert (HC : match r with
               | Ok o => o_header o = decoded Little (xf_header Little) /\ o_msat o = 0 :: repeat FREE 108 /\
                         o_sat o = xf_sat ++ repeat FREE 121 /\
                         match o_tree o with
                         | Some tr => match nth_error (tr_nodes tr) 2, nth_error (tr_nodes tr) 1 with
                                      | Some a, Some c =>
                                          fst (stream_read_buffer (failing_reader (xf_file Little) 2100) (opened_volume o) (n_entry a) 0 70 70 []) = Err /\
                                          fst (stream_read_buffer (failing_reader (xf_file Little) 2100) (opened_volume o) (n_entry c) 0 600 600 [])
                                            = Ok (xf_data 100 512 ++ slice (xf_data 200 512) 0 88, 600)
                                      | _, _ => False
                                      end
                         | None => False
                         end
               | _ => False
               end).
  { change r with (fst (r, t)). rewrite <- E. vm_compute. split; [reflexivity|]. split; [reflexivity|]. split; [reflexivity|]. split; reflexivity. }
  destruct r as [o| | |]; try destruct HC. destruct H0 as (H1 & H2 & H3).
  destruct (o_tree o) as [tr|] eqn:Et; [|destruct H3].
  destruct (nth_error (tr_nodes tr) 2) as [a|] eqn:Ea; [|destruct H3].
  destruct (nth_error (tr_nodes tr) 1) as [c|] eqn:Ec; [|destruct H3].
  exists o, t, tr, (n_entry a), (n_entry c). split; [reflexivity|]. split; [exact Et|]. split.
  { intros id HI _ tt.
    assert (Hid : id = 0 \/ id = 2).
    { unfold table_sector in HI. rewrite H, H1, H2 in HI. destruct HI as [HI|(k & HI & N1 & N2)].
      - left. vm_compute in HI. destruct HI as [<-|[]]. reflexivity.
      - right. change (fh_ssat_sector_identifier (decoded Little (xf_header Little))) with 2 in HI. clear - HI N1.
        assert (G : id = 2 \/ id = EOC).
        { induction HI as [|k x y HI IH Hz]; [now left|]. clear N1. destruct (Z.eq_dec x EOC) as [->|Hx].
          - exfalso. apply znth_range in Hz. vm_compute in Hz. destruct Hz as [_ Hz]. discriminate Hz.
          - destruct (IH Hx) as [->| ->]; [|contradiction]. vm_compute in Hz. injection Hz as <-. right. reflexivity. }
        destruct G as [G|G]; [exact G|contradiction]. }
    rewrite H. change (fh_sector_size (decoded Little (xf_header Little))) with 512.
    destruct Hid as [-> | ->]; eexists; (split; [vm_compute; reflexivity|vm_compute; reflexivity]). }
  split; [exists a; auto|]. split; [exists c; auto|]. exact H3.
Qed.

(** A written file of 4096 bytes that is cut off: it is opened from 2560 bytes
    on; then the short streams can be read, the long one cannot. *)
Example C88_cut_case :
  writable xf_format (xf_document Little) /\ zlen (write xf_format (xf_document Little)) = 4096 /\
  fst (open_read xf_una (file_reader (xt_cut 2559)) []) = Err /\
  exists o t tr a c, open_read xf_una (file_reader (xt_cut 3072)) [] = (Ok o, t) /\ o_tree o = Some tr /\
    item_entry tr 1 a /\ item_entry tr 2 c /\
    fst (stream_read_buffer (file_reader (xt_cut 3072)) (opened_volume o) a 0 70 70 []) = Ok (slice (xf_data 0 512) 0 70, 70) /\
    fst (stream_read_buffer (file_reader (xt_cut 3072)) (opened_volume o) c 0 600 600 []) = Err.
Proof.
  split; [exact xf_writable|]. split; [vm_compute; reflexivity|]. split; [vm_compute; reflexivity|].
  destruct (open_read xf_una (file_reader (xt_cut 3072)) []) as [r t] eqn:E.
  assert (HC : match r with
               | Ok o => match o_tree o with
                         | Some tr => match nth_error (tr_nodes tr) 1, nth_error (tr_nodes tr) 2 with
                                      | Some a, Some c =>
                                          fst (stream_read_buffer (file_reader (xt_cut 3072)) (opened_volume o) (n_entry a) 0 70 70 [])
                                            = Ok (slice (xf_data 0 512) 0 70, 70) /\
                                          fst (stream_read_buffer (file_reader (xt_cut 3072)) (opened_volume o) (n_entry c) 0 600 600 []) = Err
                                      | _, _ => False
                                      end
                         | None => False
                         end
               | _ => False
               end).
  { change r with (fst (r, t)). rewrite <- E. vm_compute. split; reflexivity. }
  destruct r as [o| | |]; try destruct HC.
  destruct (o_tree o) as [tr|] eqn:Et; [|destruct HC].
  destruct (nth_error (tr_nodes tr) 1) as [a|] eqn:Ea; [|destruct HC].
  destruct (nth_error (tr_nodes tr) 2) as [c|] eqn:Ec; [|destruct HC].
  exists o, t, tr, (n_entry a), (n_entry c). split; [reflexivity|]. split; [exact Et|].
  split; [exists a; auto|]. split; [exists c; auto|]. exact HC.
Qed.
