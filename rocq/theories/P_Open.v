(** Properties of opening a file: C10, C11, C13-C15, C17-C21, C35, C48 and
    C50. *)
From Coq Require Import ZArith List Bool Lia ZifyBool Sorted.
From Verif Require Import Base Spec_IO Spec_Stream Spec_Load Spec_Open Spec_Tree L_Base M_Table M_Header M_Load
  M_Stream M_Tree M_Open L_Stream L_Stream3 L_Load L_Load2 L_Header L_Tree L_Open L_Open2 L_Exact L_Open4
  L_Session X_Stream X_File X_Ssat.
Import ListNotations.
Open Scope Z_scope.

(** C10 *)
Theorem C10_open_defined :
  forall u rd, una_ok u -> io_bytes rd -> defined (fst (open_read u rd [])).
Proof.
  intros u rd Hu HB. destruct (open_read_cases u rd Hu HB) as (r & t' & H & Hd & _). now rewrite H.
Qed.
Print Assumptions C10_open_defined.

Theorem C10_session_defined :
  forall u rd o t d h k rd' op,
    una_ok u -> io_bytes rd -> open_read u rd [] = (Ok o, t) -> In d (o_entries o) ->
    nth_error h k = Some (rd', op) -> read_sizes (opened_volume o) d op ->
    exists r, nth_error (fst (item_run (opened_volume o) d h 0)) k = Some r /\ r <> RUndefined.
Proof.
  intros u rd o t d h k rd' op Hu HB HO Hd Hk Hop.
  destruct (opened_entries u rd Hu HB o t HO) as (_ & He & _). rewrite Forall_forall in He.
  eapply session_defined; eauto. eapply opened_volume_ok; eauto.
Qed.
Print Assumptions C10_session_defined.

(** Reads of 1 GiB and less are always covered, larger ones if the sectors are
    not of 1 or 2 bytes. *)
Example C10_case : forall v d, read_sizes v d (OpRead 1073741824) /\ read_sizes v d OpTell.
Proof. intros. split; [split; [lia|right; lia]|exact I]. Qed.

Example C10_case_open : exists o t, xf_open Big = (Ok o, t) /\ length (o_entries o) = 5%nat.
Proof. eexists. eexists. split; vm_compute; reflexivity. Qed.

(** Without the condition on the size the sector counter, an int, overflows. *)
Theorem C10_large_read_condition :
  forall v d size, ~ read_sizes v d (OpRead size) -> 0 <= size ->
    1073741824 < size /\
    (if de_size d <? v_minimum_size v then v_short_sector_size v else v_sector_size v) < 4.
Proof. intros v d size H Hs. cbn in H. destruct (_ <? _); lia. Qed.

(** C11 *)
Theorem C11_open_work :
  forall u rd, una_ok u -> io_bytes rd ->
    exists r t, open_read u rd [] = (r, t) /\ r <> NoFuel /\
      (t = [(0, 512)] \/
       exists a m s x d,
         let ss := 2 ^ a in
         0 <= a <= 15 /\
         t = (0, 512) :: map (request ss) (m ++ s ++ x ++ d) /\
         zlen m <= 257 /\ zlen s * (ss / 4) <= 33554432 /\ zlen s <= 33554432 /\
         zlen x <= 257 /\ zlen d <= 1025).
Proof.
  intros u rd Hu HB. destruct (open_read_cases u rd Hu HB) as (r & t & H & Hd & HC).
  exists r, t. split; auto. split; [destruct r; try discriminate; contradiction|].
  destruct HC as [[_ ->]|(data & e & _ & _ & Hb & Hacc & (m & s & x & d & -> & H1 & (_ & H2 & H3) & H4 & H5) & _)]; [now left|].
  right. pose proof (decoded_fine e data Hb Hacc) as HF. destruct (hf_ss _ HF) as (a & Ha & Hss).
  rewrite Hss in *. exists a, m, s, x, d. cbn zeta. auto 8.
Qed.
Print Assumptions C11_open_work.

(** The number of bytes asked for. *)
Definition total_size (t : trace) : Z := fold_right (fun r acc => snd r + acc) 0 t.

(** Less than 177 MiB are read, however large or cyclic the chains. *)
Theorem C11_open_size :
  forall u rd, una_ok u -> io_bytes rd ->
    total_size (snd (open_read u rd [])) <= 184648192.
Proof.
  intros u rd Hu HB. destruct (C11_open_work u rd Hu HB) as (r & t & H & _ & HC). rewrite H. cbn [snd].
  destruct HC as [->|(a & m & s & x & d & HC)]; [cbn; lia|]. cbn zeta in HC.
  destruct HC as (Ha & -> & H1 & H2 & H3 & H4 & H5). set (ss := 2 ^ a) in *.
  assert (Hp : power_of_two ss) by (exists a; auto). pose proof (power_range ss Hp) as Hr.
  assert (HT : forall l, total_size (map (request ss) l) = zlen l * ss).
  { intros l. induction l as [|y l IH]; [reflexivity|]. cbn [map total_size fold_right]. unfold total_size in IH.
    rewrite IH, zlen_cons. unfold request. cbn [snd]. lia. }
  cbn [total_size fold_right snd]. fold (total_size (map (request ss) (m ++ s ++ x ++ d))). rewrite HT, !zlen_app.
  pose proof (zlen_nonneg m). pose proof (zlen_nonneg s). pose proof (zlen_nonneg x). pose proof (zlen_nonneg d).
  clearbody ss.
  assert (Hs : zlen s * ss <= 134217728).
  { destruct (Z_lt_ge_dec ss 4) as [Hlt|Hge]; [nia|].
    pose proof (power_mod4 ss Hp ltac:(lia)) as Hm. pose proof (Z.div_mod ss 4 ltac:(lia)) as Hdm. rewrite Hm in Hdm.
    replace (zlen s * ss) with (4 * (zlen s * (ss / 4))) by (rewrite Hdm at 2; ring). lia. }
  assert (zlen m * ss <= 257 * 32768) by (apply Z.mul_le_mono_nonneg; lia).
  assert (zlen x * ss <= 257 * 32768) by (apply Z.mul_le_mono_nonneg; lia).
  assert (zlen d * ss <= 1025 * 32768) by (apply Z.mul_le_mono_nonneg; lia).
  replace ((zlen m + (zlen s + (zlen x + zlen d))) * ss) with (zlen m * ss + zlen s * ss + zlen x * ss + zlen d * ss) by ring.
  lia.
Qed.
Print Assumptions C11_open_size.

(** A directory chain that runs into itself. *)
Definition cyclic_file (e : endian) : list Z :=
  xf_file_of e [0xfffffffd; 6; EOC; EOC; 5; EOC; 1] (xf_slots e).

Example C11_case :
  snd (open_read xf_una (file_reader (cyclic_file Little)) [])
  = (0, 512) :: map (request 512) ([] ++ [0] ++ [2] ++ [1; 6]).
Proof. vm_compute. reflexivity. Qed.

(** C13 *)
Theorem C13_header_acceptance :
  forall data msat, Forall is_byte data -> zlen msat = 109 ->
    (exists e, header_acceptable data e /\
       header_read_data data msat = Ok (decoded e data, msat_of e data)) \/
    ((forall e, ~ header_acceptable data e) /\ header_read_data data msat = Err).
Proof.
  intros data msat Hb Hl. pose proof (header_read_data_defined data msat Hl) as Hd.
  destruct (header_read_data data msat) as [[h m]| | |] eqn:E; try contradiction.
  - left. destruct (header_read_data_inv data msat h m Hb Hl E) as (e & Ha & -> & ->). eauto.
  - right. split; auto. intros e Ha. rewrite (header_read_data_ok e data msat Hb Hl Ha) in E. discriminate.
Qed.
Print Assumptions C13_header_acceptance.

Example C13_case :
  header_acceptable (xf_header Big) Big /\
  header_read_data (xf_header Big) (zeros 109) = Ok (decoded Big (xf_header Big), msat_of Big (xf_header Big)) /\
  header_read_data (slice (xf_header Big) 0 511) (zeros 109) = Err /\
  (forall e, ~ header_acceptable (slice (xf_header Big) 0 511) e).
Proof.
  split.
  { split; [vm_compute; discriminate|]. split; [left; vm_compute; reflexivity|].
    split; [vm_compute; reflexivity|]. split; vm_compute; discriminate. }
  split; [vm_compute; reflexivity|]. split; [vm_compute; reflexivity|].
  intros e (H & _). vm_compute in H. apply H. reflexivity.
Qed.

(** C14 *)
Theorem C14_header_round_trip :
  forall e sig clsid r1 r2 rest h msat,
    signature_bytes sig -> length clsid = 16%nat -> length r1 = 10%nat -> length r2 = 4%nat ->
    Forall is_byte (clsid ++ r1 ++ r2 ++ rest) -> header_values_ok h ->
    hv_sector_exponent h <= 15 -> hv_short_exponent h <= 15 -> zlen msat = 109 ->
    header_read_data (encode_header e sig clsid r1 r2 rest h) msat =
    Ok (header_of_values e h, hv_msat_values h).
Proof. exact encoded_header_read. Qed.
Print Assumptions C14_header_round_trip.

(** The two byte orders differ in the byte order only. *)
Definition with_order (e : endian) (h : file_header) : file_header :=
  {| fh_byte_order := e;
     fh_minor_format_version := fh_minor_format_version h;
     fh_major_format_version := fh_major_format_version h;
     fh_number_of_sat_sectors := fh_number_of_sat_sectors h;
     fh_root_directory_sector_identifier := fh_root_directory_sector_identifier h;
     fh_sector_stream_minimum_data_size := fh_sector_stream_minimum_data_size h;
     fh_ssat_sector_identifier := fh_ssat_sector_identifier h;
     fh_number_of_ssat_sectors := fh_number_of_ssat_sectors h;
     fh_msat_sector_identifier := fh_msat_sector_identifier h;
     fh_number_of_msat_sectors := fh_number_of_msat_sectors h;
     fh_sector_size := fh_sector_size h;
     fh_short_sector_size := fh_short_sector_size h |}.

Theorem C14_byte_orders_agree :
  forall sig clsid r1 r2 rest h msat,
    signature_bytes sig -> length clsid = 16%nat -> length r1 = 10%nat -> length r2 = 4%nat ->
    Forall is_byte (clsid ++ r1 ++ r2 ++ rest) -> header_values_ok h ->
    hv_sector_exponent h <= 15 -> hv_short_exponent h <= 15 -> zlen msat = 109 ->
    exists fh m,
      header_read_data (encode_header Little sig clsid r1 r2 rest h) msat = Ok (with_order Little fh, m) /\
      header_read_data (encode_header Big sig clsid r1 r2 rest h) msat = Ok (with_order Big fh, m).
Proof.
  intros. exists (header_of_values Little h), (hv_msat_values h).
  split; rewrite encoded_header_read; auto.
Qed.
Print Assumptions C14_byte_orders_agree.

Lemma xf_values_ok : header_values_ok xf_header_values.
Proof.
  assert (HF : is_u32 FREE) by (unfold is_u32, FREE; lia).
  assert (HE : is_u32 EOC) by (unfold is_u32, EOC; lia).
  constructor; cbn [xf_header_values hv_minor hv_major hv_sector_exponent hv_short_exponent hv_sat_sectors hv_root
    hv_minimum hv_ssat hv_ssat_sectors hv_msat hv_msat_sectors hv_msat_values]; try assumption;
    try (unfold is_u32; lia); [|reflexivity].
  constructor; [unfold is_u32; lia|]. apply Forall_forall. intros x Hx. apply repeat_spec in Hx. now subst.
Qed.

Example C14_case :
  header_values_ok xf_header_values /\
  slice (xf_header Big) 56 4 = [0; 0; 0; 100] /\ slice (xf_header Little) 56 4 = [100; 0; 0; 0].
Proof. split; [exact xf_values_ok|]. split; vm_compute; reflexivity. Qed.

(** C15, sizes; the getters are in P_File. *)
Theorem C15_sector_sizes :
  forall u rd o t, una_ok u -> io_bytes rd -> open_read u rd [] = (Ok o, t) ->
    (exists a, 7 <= a <= 15 /\ fh_sector_size (o_header o) = 2 ^ a) /\
    (exists b, 0 <= b <= 15 /\ fh_short_sector_size (o_header o) = 2 ^ b).
Proof.
  intros u rd o t Hu HB HO. destruct (opened_header u rd Hu HB o t HO) as (HF & Hss & _).
  split; [|exact (hf_sss _ HF)]. destruct (hf_ss _ HF) as (a & Ha & E). exists a. split; [|exact E].
  destruct (Z_lt_ge_dec a 7) as [Hlt|]; [|lia].
  assert (2 ^ a <= 2 ^ 6) by (apply Z.pow_le_mono_r; lia). change (2 ^ 6) with 64 in *. lia.
Qed.
Print Assumptions C15_sector_sizes.

Example C15_case : exists o t, xf_open Little = (Ok o, t) /\
  fh_sector_size (o_header o) = 2 ^ 9 /\ fh_short_sector_size (o_header o) = 2 ^ 6.
Proof. eexists. eexists. split; [vm_compute; reflexivity|]. split; reflexivity. Qed.

(** C17 *)
Theorem C17_table_size :
  forall u rd f o t, una_ok u -> io_bytes rd -> io_sound rd f -> open_read u rd [] = (Ok o, t) ->
    let E := fh_sector_size (o_header o) / 4 in
    let n := fh_number_of_sat_sectors (o_header o) in
    n * E <= 33554432 -> zlen (o_sat o) = n * E.
Proof. intros u rd f o t Hu HB HS HO. exact (sat_size u rd f Hu HB HS o t HO). Qed.
Print Assumptions C17_table_size.

Theorem C17_table_entries :
  forall u rd f o t (k : nat) id j,
    una_ok u -> io_bytes rd -> io_sound rd f -> io_total rd f -> open_read u rd [] = (Ok o, t) ->
    let ss := fh_sector_size (o_header o) in
    let n := fh_number_of_sat_sectors (o_header o) in
    let ids := used_ids (o_msat o) in
    n * (ss / 4) <= 33554432 -> Z.of_nat k < n -> nth_error ids k = Some id ->
    Forall (sector_inside f ss) (firstn (S k) ids) -> 0 <= j < ss / 4 ->
    znth (o_sat o) (Z.of_nat k * (ss / 4) + j) =
    Some (value_at (fh_byte_order (o_header o)) (sector_at f ss id) (4 * j) 4).
Proof.
  intros u rd f o t k id j Hu HB HS HT HO ss n ids Hn Hk Hid Hin Hj.
  apply (sat_entry u rd f Hu HB HS o t HO); auto. intros i Hi tr Hr.
  destruct (opened_header u rd Hu HB o t HO) as (_ & Hss & _).
  apply (refused_outside rd f ss i tr HT) in Hr; [|unfold ss; lia].
  apply Hr. exact (proj1 (Forall_forall _ _) Hin i Hi).
Qed.
Print Assumptions C17_table_entries.

Example C17_case : exists o t, xf_open Big = (Ok o, t) /\
  used_ids (o_msat o) = [0] /\ Forall (sector_inside (xf_file Big) 512) (firstn 1 (used_ids (o_msat o))) /\
  znth (o_sat o) (0 * 128 + 4) = Some 5 /\ value_at Big (sector_at (xf_file Big) 512 0) (4 * 4) 4 = 5.
Proof.
  assert (Hl : zlen (xf_file Big) = 4096) by (vm_compute; reflexivity).
  eexists. eexists. split; [vm_compute; reflexivity|]. split; [vm_compute; reflexivity|].
  split; [|split; vm_compute; reflexivity].
  match goal with |- Forall _ ?l => replace l with [0] by (vm_compute; reflexivity) end.
  constructor; [|constructor]. unfold sector_inside. rewrite Hl. cbn. lia.
Qed.

(** A declared number of sectors that needs more than 128 MiB of table does
    not make open fail: the table is empty then. *)
Theorem C17_large_table_empty :
  forall u rd f o t, una_ok u -> io_bytes rd -> io_sound rd f -> open_read u rd [] = (Ok o, t) ->
    33554432 < fh_number_of_sat_sectors (o_header o) * (fh_sector_size (o_header o) / 4) < 2147483648 ->
    o_sat o = [].
Proof.
  intros u rd f o t Hu HB HS HO Hn.
  destruct (opened_sat u rd Hu HB o t HO f HS) as (k & room & R1 & _ & R3 & K1 & K2 & -> & _).
  rewrite (R3 Hn) in *. assert (k = O) by lia. subst k. reflexivity.
Qed.
Print Assumptions C17_large_table_empty.

(** C18 *)
Theorem C18_master_table :
  forall u rd f o t, una_ok u -> io_bytes rd -> io_sound rd f -> open_read u rd [] = (Ok o, t) ->
    let h := o_header o in
    let ss := fh_sector_size h in
    let e := fh_byte_order h in
    let id := fh_msat_sector_identifier h in
    let n := fh_number_of_msat_sectors h in
    (id = EOC /\ n = 0 /\ o_msat o = header_values_of e f) \/
    (id <> EOC /\
     let m := if n =? 0 then 1 else n in
     (109 + m * (ss / 4 - 1) < 2147483648 ->
      109 + m * (ss / 4 - 1) <= 33554432 /\
      exists ids last,
        master_chain e f ss id ids last /\ zlen ids <= 257 /\ zlen ids <= m /\
        o_msat o = header_values_of e f ++ master_values e f ss ids ++ zeros ((m - zlen ids) * (ss / 4 - 1)) /\
        (last = EOC \/ (zlen ids = m /\ m <= 256)))).
Proof. intros u rd f o t Hu HB HS HO. exact (opened_msat u rd Hu HB o t HO f HS). Qed.
Print Assumptions C18_master_table.

(** C19: reading the tables never fails, whatever the I/O layer does. *)
Theorem C19_tables_always_accepted :
  forall rd e ss msat sat first n t,
    power_of_two ss -> 4 <= ss ->
    (exists r t', read_sat rd e ss msat [] n t = (Ok r, t')) /\
    (Forall is_u32 sat -> zlen sat <= 33554432 -> is_u32 first -> 0 <= n ->
     exists r t', read_ssat rd e ss sat [] first n t = (Ok r, t')).
Proof.
  intros rd e ss msat sat first n t Hp H4. split.
  - destruct (read_sat_outcome rd e ss msat n t Hp H4) as (r & t' & H & _). eauto.
  - intros H1 H2 H3 H5. destruct (read_ssat_outcome rd e ss sat first n t Hp H4 H1 H2 H3 H5) as (r & t' & H & _). eauto.
Qed.
Print Assumptions C19_tables_always_accepted.

Theorem C19_zero_after_unreadable :
  forall u rd f o t (k : nat) id i v,
    una_ok u -> io_bytes rd -> io_sound rd f -> open_read u rd [] = (Ok o, t) ->
    let ss := fh_sector_size (o_header o) in
    nth_error (used_ids (o_msat o)) k = Some id -> (forall tr, refused rd ss id tr) ->
    Z.of_nat k * (ss / 4) <= i -> znth (o_sat o) i = Some v -> v = 0.
Proof. intros u rd f o t k id i v Hu HB HS HO. exact (sat_unreadable u rd f Hu HB HS o t HO k id i v). Qed.
Print Assumptions C19_zero_after_unreadable.

(** The sector with the short table cannot be read: open succeeds, the table
    is 0, and a short stream gets the data of short sector 0. *)
Example C19_case :
  let rd := failing_reader (xf_file Little) 1540 in
  (forall tr, refused rd 512 2 tr) /\
  exists o t, open_read xf_una rd [] = (Ok o, t) /\ o_ssat o = zeros 128 /\
    znth (words Little (sector_at (xf_file Little) 512 2)) 0 = Some 1.
Proof.
  cbn zeta. split.
  - intros tr s H. vm_compute in H. discriminate.
  - eexists. eexists. split; [vm_compute; reflexivity|]. split; vm_compute; reflexivity.
Qed.

(** C20 *)
Theorem C20_identifiers_are_slots :
  forall u rd f o t, una_ok u -> io_bytes rd -> io_sound rd f -> open_read u rd [] = (Ok o, t) ->
    let h := o_header o in
    let ss := fh_sector_size h in
    let e := fh_byte_order h in
    (exists ids last,
      chain_start (o_sat o) (fh_root_directory_sector_identifier h) ids /\ NoDup ids /\
      Forall (fun id => id <> EOC /\ id <> FREE) ids /\
      nth_sector (o_sat o) (fh_root_directory_sector_identifier h) (length ids) last /\
      (last = EOC \/ last = FREE \/ In last ids) /\
      map fields_of (o_entries o) =
      slots_entries e (bytes_of_sectors f ss ids) (length ids * Z.to_nat (ss / 128))) /\
    StronglySorted (fun a b => de_id a < de_id b) (o_entries o).
Proof.
  intros u rd f o t Hu HB HS HO. cbn zeta. split.
  - destruct (opened_directory u rd Hu HB o t HO f HS) as (ids & last & H1 & H2 & H3 & H4 & H5 & H6 & H7 & _).
    exists ids, last. repeat (split; auto). destruct H6 as [?|[?|[? _]]]; auto.
  - apply (opened_entries u rd Hu HB o t HO).
Qed.
Print Assumptions C20_identifiers_are_slots.

Example C20_case : exists o t, xf_open Little = (Ok o, t) /\ map de_id (o_entries o) = [0; 1; 2; 4; 5] /\
  map de_type (o_entries o) = [5; 2; 2; 1; 2].
Proof. eexists. eexists. split; [vm_compute; reflexivity|]. split; reflexivity. Qed.

(** C21 *)
Theorem C21_cyclic_directory :
  forall rd f e ss sat first t ids last l,
    io_sound rd f -> io_total rd f -> power_of_two ss -> 128 <= ss -> ss mod 128 = 0 ->
    Forall is_u32 sat -> zlen sat <= 33554432 -> is_u32 first -> first <> EOC ->
    chain_start sat first ids -> nth_sector sat first (length ids) last -> In last ids ->
    NoDup ids -> zlen ids <= 1024 ->
    Forall (fun id => id <> EOC /\ id <> FREE) ids -> Forall (sector_inside f ss) ids ->
    (forall k, (k < length ids * Z.to_nat (ss / 128))%nat ->
       ~ long_name e (slot_of (bytes_of_sectors f ss ids) k)) ->
    map fields_of l = slots_entries e (bytes_of_sectors f ss ids) (length ids * Z.to_nat (ss / 128)) ->
    exists t', read_directory rd e ss sat first t = (Ok l, t').
Proof.
  intros rd f e ss sat first t ids last l HS HT Hp H128 Hm Hu Hl Hf Hne Hc Hn Hin Hnd H1024 HF Hi Hlong Hmap.
  destruct (read_directory_complete rd f HS HT e ss sat first t l Hp H128 Hm Hu Hl Hf) as (l' & t' & H & E).
  { split; auto. exists ids, last. repeat (split; auto). }
  apply map_fields_inj in E. subst l'. eauto.
Qed.
Print Assumptions C21_cyclic_directory.

Example C21_case : exists o t, open_read xf_una (file_reader (cyclic_file Big)) [] = (Ok o, t) /\
  map de_id (o_entries o) = [0; 1; 2; 4; 5] /\
  chain_start (o_sat o) 1 [1; 6] /\ nth_sector (o_sat o) 1 2 1.
Proof.
  eexists. eexists. split; [vm_compute; reflexivity|]. split; [reflexivity|]. split.
  - apply xs_linked_ok; vm_compute; reflexivity.
  - apply nth_sector_c_ok. vm_compute. reflexivity.
Qed.

(** C35 *)
Theorem C35_slot_decoded :
  forall e k slot, zlen slot = 128 -> 0 <= k < 4294967296 ->
    (value_at Little slot 66 1 = 0 /\ dirent_read e k slot = Ok None) \/
    (value_at Little slot 66 1 <> 0 /\ 128 < value_at e slot 64 2 /\ dirent_read e k slot = Err) \/
    (value_at Little slot 66 1 <> 0 /\ value_at e slot 64 2 <= 128 /\
     exists d, dirent_read e k slot = Ok (Some d) /\ fields_of d = slot_fields e k slot).
Proof. exact dirent_read_eq. Qed.
Print Assumptions C35_slot_decoded.

(** Less than a slot is an error. *)
Theorem C35_short_slot :
  forall e k slot, zlen slot < 128 -> dirent_read e k slot = Err.
Proof.
  intros e k slot H. unfold dirent_read. destruct (zlen slot <? 128) eqn:E; [reflexivity|]. apply Z.ltb_ge in E. lia.
Qed.
Print Assumptions C35_short_slot.

(** A name size of 128: the name is the whole slot, its own size included. *)
Definition long_slot : list Z :=
  repeat 65 64 ++ [128; 0] ++ [2; 0] ++ bytes_of Little 4 FREE ++ bytes_of Little 4 FREE ++
  bytes_of Little 4 FREE ++ zeros 48.

Theorem C35_name_overlaps_fields_refuted :
  exists slot d, zlen slot = 128 /\ dirent_read Little 7 slot = Ok (Some d) /\
    64 < zlen (de_name d) /\ slice (de_name d) 64 3 = [128; 0; 2].
Proof.
  exists long_slot. eexists. split; [reflexivity|]. split; [vm_compute; reflexivity|].
  split; vm_compute; reflexivity.
Qed.
Print Assumptions C35_name_overlaps_fields_refuted.

Example C35_case : exists d,
  dirent_read Big 4 (xf_slot Big [115; 116] 1 FREE FREE 5 0 0) = Ok (Some d) /\
  de_name d = [0; 115; 0; 116; 0; 0] /\ de_sub d = 5 /\ de_mtime d = 2000.
Proof. eexists. split; [vm_compute; reflexivity|]. repeat split. Qed.

(** C48 *)
Theorem C48_short_table_is_cut :
  forall u rd f o t i v, una_ok u -> io_bytes rd -> io_sound rd f -> open_read u rd [] = (Ok o, t) ->
    257 * (fh_sector_size (o_header o) / 4) <= i -> znth (o_ssat o) i = Some v -> v = 0.
Proof.
  intros u rd f o t i v Hu HB HS HO Hi Hv. destruct (opened_header u rd Hu HB o t HO) as (_ & Hss & _).
  destruct (opened_outcome u rd Hu HB o t HO) as (data & e & _ & _ & _ & _ & Hh & _ & _ & _ & t1 & t2 & t3 & _ & _ & HT & _).
  rewrite <- Hh in HT. destruct HT as (ids & secs & extra & Hw & _ & H3 & _ & _ & _ & _ & H8 & _). rewrite Hw in Hv.
  destruct (delivered_sectors rd f (fh_sector_size (o_header o)) _ _ HS ltac:(lia) H3) as [Hsecs Hin]. rewrite Hsecs in Hv.
  rewrite sector_words_file, znth_app_r in Hv.
  - eapply znth_zeros; eauto.
  - rewrite zlen_words_sectors by (auto; lia). rewrite zlen_app in H8. pose proof (zlen_nonneg extra).
    assert (0 <= fh_sector_size (o_header o) / 4) by (apply Z.div_pos; lia). nia.
Qed.
Print Assumptions C48_short_table_is_cut.

(** The file of [X_Ssat] has an intact short table of 258 sectors; a stream
    whose second short sector is named in the last of them is read wrongly. *)
Theorem C48_long_short_table_refuted :
  exists u rd f o t d ids data c tr p,
    una_ok u /\ io_bytes rd /\ io_sound rd f /\ io_total rd f /\
    open_read u rd [] = (Ok o, t) /\ In d (o_entries o) /\ de_type d = 2 /\
    let h := o_header o in
    let ss := fh_sector_size h in
    let v := opened_volume o in
    chain_start (o_sat o) (fh_ssat_sector_identifier h) ids /\ NoDup ids /\
    nth_sector (o_sat o) (fh_ssat_sector_identifier h) (length ids) EOC /\
    zlen ids = fh_number_of_ssat_sectors h /\ Forall (sector_inside f ss) ids /\
    stream_read_buffer rd v d 0 2 2 [] = (Ok (data, c), tr) /\ zlen data = 2 /\
    stream_position (with_short v (v_short_sector_size v) (v_container_start v)
                       (words_of_sectors Little f ss ids)) d 1 p /\
    znth f p <> None /\ znth f p <> znth data 1.
Proof.
  assert (HBf : Forall is_byte xs_file) by (apply xf_bytes_ok; vm_compute; reflexivity).
  destruct (says_open xf_una (file_reader xs_file) xs_file xf_una_ok (file_reader_bytes _ HBf) (file_reader_sound _)
    (file_reader_total _) xs_h _ _ _ _ xs_says xs_moderate) as (o & t & HO & Hh & Hm & Hsat & Hssat & Hl).
  { apply links_ok_exact; [exact xf_una_ok| |].
    - split; [repeat constructor; cbn; intuition discriminate|].
      constructor; [unfold is_u32, FREE; cbn; unfold FREE; lia|].
      constructor; [unfold is_u32, FREE; cbn; unfold FREE; lia|constructor].
    - rewrite xs_h_eq. destruct xs_create as (tr & Htr & _). eauto. }
  pose proof (opened_tree _ _ xf_una_ok (file_reader_bytes _ HBf) o t HO) as Ht.
  rewrite Hh, Hl, xs_h_eq in Ht. destruct xs_create as (tr & Htr & Hst).
  assert (Htree : o_tree o = Some tr) by (cbn [header_of_values fh_byte_order] in Ht; congruence).
  assert (Hv : opened_volume o =
    {| v_byte_order := Little; v_sector_size := 128; v_short_sector_size := 1; v_minimum_size := 100;
       v_container_start := 274; v_sat := xs_sat; v_ssat := xs_ssat_loaded |}).
  { unfold opened_volume. rewrite Hh, Htree, Hst, Hsat, Hssat, xs_h_eq. reflexivity. }
  exists xf_una, (file_reader xs_file), xs_file, o, t, xs_stream, xs_ids.
  eexists. eexists. eexists. exists (275 * 128 + 8225).
  split; [exact xf_una_ok|]. split; [exact (file_reader_bytes _ HBf)|].
  split; [apply file_reader_sound|]. split; [apply file_reader_total|]. split; [exact HO|].
  split; [rewrite Hl; right; left; reflexivity|]. split; [reflexivity|].
  cbn zeta. rewrite Hv, Hh, Hsat, xs_h_eq. cbn [header_of_values fh_ssat_sector_identifier fh_sector_size
    fh_number_of_ssat_sectors v_short_sector_size v_container_start].
  change (2 ^ hv_sector_exponent xs_header_values) with 128.
  split; [apply xs_linked_ok; vm_compute; reflexivity|].
  split.
  { unfold xs_ids. apply FinFun.Injective_map_NoDup; [intros a b H; lia|apply seq_NoDup]. }
  split; [apply nth_sector_c_ok; vm_compute; reflexivity|]. split; [vm_compute; reflexivity|].
  split; [apply xs_inside; vm_compute; reflexivity|].
  split; [vm_compute; reflexivity|]. split; [reflexivity|].
  split; [apply stream_position_c_ok; vm_compute; reflexivity|].
  split; vm_compute; discriminate.
Qed.
Print Assumptions C48_long_short_table_refuted.

(** C50 *)
Theorem C50_open_exact :
  forall u rd f h msat sat ssat l,
    una_ok u -> io_bytes rd -> io_sound rd f -> io_total rd f -> moderate h ->
    (file_says f h msat sat ssat l /\ links_ok u (fh_byte_order h) l <->
     exists o t, open_read u rd [] = (Ok o, t) /\ o_header o = h /\ o_msat o = msat /\
       o_sat o = sat /\ o_ssat o = ssat /\ o_entries o = l).
Proof.
  intros u rd f h msat sat ssat l Hu HB HS HT Hm. split.
  - intros [H1 H2]. apply (says_open u rd f Hu HB HS HT h msat sat ssat l H1 Hm H2).
  - intros (o & t & HO & <- & <- & <- & <- & <-).
    destruct (open_says u rd f Hu HB HS HT o t HO Hm) as (H1 & H2 & _). auto.
Qed.
Print Assumptions C50_open_exact.

(** Without failures of the I/O layer the result depends on the file only. *)
Theorem C50_open_deterministic :
  forall u rd1 rd2 f o1 t1,
    una_ok u -> io_bytes rd1 -> io_sound rd1 f -> io_total rd1 f ->
    io_bytes rd2 -> io_sound rd2 f -> io_total rd2 f ->
    open_read u rd1 [] = (Ok o1, t1) -> moderate (o_header o1) ->
    exists t2, open_read u rd2 [] = (Ok o1, t2).
Proof.
  intros u rd1 rd2 f o1 t1 Hu B1 S1 T1 B2 S2 T2 HO Hm.
  destruct (open_says u rd1 f Hu B1 S1 T1 o1 t1 HO Hm) as (H1 & H2 & H3).
  destruct (says_open u rd2 f Hu B2 S2 T2 _ _ _ _ _ H1 Hm H2) as (o2 & t2 & HO2 & E1 & E2 & E3 & E4 & E5).
  pose proof (opened_tree u rd2 Hu B2 o2 t2 HO2) as Ht. rewrite E1, E5, H3 in Ht. injection Ht as E6.
  exists t2. rewrite HO2. do 2 f_equal. destruct o1, o2; cbn in *; congruence.
Qed.
Print Assumptions C50_open_deterministic.

Example C50_case :
  file_says xs_file xs_h (hv_msat_values xs_header_values) xs_sat xs_ssat_loaded xs_entries /\ moderate xs_h /\
  exists tr, create_tree xf_una Little xs_entries = Ok (Some tr).
Proof.
  split; [exact xs_says|]. split; [exact xs_moderate|]. destruct xs_create as (tr & H & _). eauto.
Qed.
