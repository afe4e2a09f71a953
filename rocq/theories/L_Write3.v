(** Lemmas on written files: header, tables and directory are read back. *)
From Coq Require Import ZArith List Bool Lia.
From Verif Require Import Base Spec_IO M_Header M_Table M_Load M_Stream M_Tree M_Open M_Item
  Spec_Stream Spec_Load Spec_Tree Spec_Open Spec_Content Spec_Write L_Base L_Load L_Load2 L_Header L_Stream L_Open2
  L_Write L_Write2.
Import ListNotations.
Open Scope Z_scope.

Section Says.
Variable fm : format.
Variable doc : document.
Hypothesis W : writable fm doc.

Notation ss := (w_ss fm).
Notation sss := (w_sss fm).
Notation fo := (w_items doc).

Lemma ss_facts : exists q, ss = 128 * q /\ 4 <= q <= 256.
Proof.
  pose proof (wr_sector _ _ W) as H. exists (2 ^ (fm_sector fm - 7)). split.
  - unfold w_ss. change 128 with (2 ^ 7). rewrite <- Z.pow_add_r by lia. f_equal. lia.
  - change 4 with (2 ^ 2). change 256 with (2 ^ 8). split; apply Z.pow_le_mono_r; lia.
Qed.

Lemma ss_pos : 512 <= ss <= 32768.
Proof. destruct ss_facts as (q & E & H). lia. Qed.

Lemma ss_4 : ss = 4 * (ss / 4) /\ 128 <= ss / 4 <= 8192.
Proof.
  destruct ss_facts as (q & E & H). rewrite E. replace (128 * q) with (32 * q * 4) by lia. rewrite Z.div_mul by lia. lia.
Qed.

Lemma ss_128 : ss = 128 * (ss / 128) /\ 4 <= ss / 128 <= 256.
Proof. destruct ss_facts as (q & E & H). rewrite E. rewrite Z.mul_comm. rewrite Z.div_mul by lia. lia. Qed.

Lemma sss_pos : 1 <= sss <= ss.
Proof.
  pose proof (wr_short _ _ W) as H. unfold w_sss, w_ss. split.
  - change 1 with (2 ^ 0). apply Z.pow_le_mono_r; lia.
  - apply Z.pow_le_mono_r; lia.
Qed.

Lemma ss_gt0 : 0 < ss. Proof. pose proof ss_pos. lia. Qed.
Lemma sss_gt0 : 0 < sss. Proof. pose proof sss_pos. lia. Qed.

(** * Numbers of sectors *)
Lemma n_ssat_range : 0 <= w_n_ssat fm doc <= 257.
Proof.
  split; [|apply (wr_n_ssat _ _ W)]. pose proof ss_4. apply blocks_nonneg; [lia|]. apply w_blocks_nonneg, sss_gt0.
Qed.

Lemma n_dir_range : 1 <= w_n_dir fm doc <= 1025.
Proof.
  split; [|apply (wr_n_dir _ _ W)]. unfold w_n_dir. pose proof ss_gt0.
  assert (0 <= Z.of_nat (count fo)) by lia.
  pose proof (blocks_nonneg ss (128 * (1 + Z.of_nat (count fo))) ltac:(lia) ltac:(lia)).
  pose proof (blocks_0 ss (128 * (1 + Z.of_nat (count fo))) ltac:(lia) ltac:(lia)). lia.
Qed.

Lemma n_con_nonneg : 0 <= w_n_con fm doc.
Proof. apply blocks_nonneg; [exact ss_gt0|apply zlen_nonneg]. Qed.

Lemma n_big_nonneg : 0 <= w_n_big fm doc.
Proof. apply w_blocks_nonneg, ss_gt0. Qed.

Lemma n_sat_range : 1 <= w_n_sat fm doc <= 109.
Proof.
  split; [|apply (wr_n_sat _ _ W)]. pose proof ss_4. pose proof n_ssat_range. pose proof n_dir_range. pose proof n_con_nonneg. pose proof n_big_nonneg.
  unfold w_n_sat. set (x := _ + _ + _ + _). assert (0 < x) by (unfold x; lia).
  pose proof (blocks_nonneg (ss / 4 - 1) x ltac:(lia) ltac:(lia)). pose proof (blocks_0 (ss / 4 - 1) x ltac:(lia) ltac:(lia)). lia.
Qed.

Lemma n_sat_enough : w_n_ssat fm doc + w_n_dir fm doc + w_n_con fm doc + w_n_big fm doc <= w_n_sat fm doc * (ss / 4 - 1).
Proof.
  pose proof ss_4. pose proof n_ssat_range. pose proof n_dir_range. pose proof n_con_nonneg. pose proof n_big_nonneg.
  apply blocks_enough; lia.
Qed.

Lemma n_sat_blocks : blocks (ss / 4) (w_n_sat fm doc + (w_n_ssat fm doc + w_n_dir fm doc + w_n_con fm doc + w_n_big fm doc)) = w_n_sat fm doc.
Proof.
  pose proof ss_4. pose proof n_ssat_range. pose proof n_dir_range. pose proof n_con_nonneg. pose proof n_big_nonneg. pose proof n_sat_range.
  pose proof n_sat_enough as Hen. unfold w_n_sat in *. set (x := _ + _ + _ + _) in *.
  destruct (blocks_spec (ss / 4 - 1) x ltac:(lia) ltac:(lia)) as [(H5 & H6 & H7)|H5]; [|lia].
  set (n := blocks (ss / 4 - 1) x) in *. unfold blocks.
  symmetry. apply Z.div_unique with (r := n + x + ss / 4 - 1 - ss / 4 * n); lia.
Qed.

Lemma at_eqs : w_ssat_at fm doc = w_n_sat fm doc /\ w_dir_at fm doc = w_ssat_at fm doc + w_n_ssat fm doc /\
  w_con_at fm doc = w_dir_at fm doc + w_n_dir fm doc /\ w_big_at fm doc = w_con_at fm doc + w_n_con fm doc.
Proof. split; [reflexivity|]. split; [reflexivity|]. split; reflexivity. Qed.

Lemma last_sector : w_big_at fm doc + w_n_big fm doc <= 892928.
Proof.
  pose proof n_sat_enough. pose proof ss_4. pose proof n_sat_range. pose proof at_eqs. nia.
Qed.

Lemma short_blocks : zlen (w_short_bytes fm doc) = w_blocks sss (w_shorts fm fo) * sss.
Proof. apply zlen_w_data, sss_gt0. Qed.

Lemma short_blocks_range : 0 <= w_blocks sss (w_shorts fm fo) < 4294967296.
Proof.
  pose proof (w_blocks_nonneg sss (w_shorts fm fo) sss_gt0). pose proof short_blocks as H1.
  pose proof (wr_container _ _ W) as H2. pose proof sss_pos. change (2 ^ 32) with 4294967296 in H2. nia.
Qed.

(** * The directory *)
Lemma count_range : 0 <= Z.of_nat (count fo) < 262400.
Proof.
  pose proof n_dir_range. pose proof ss_pos. pose proof (blocks_enough ss (128 * (1 + Z.of_nat (count fo))) ltac:(lia) ltac:(lia)) as H1.
  fold (w_n_dir fm doc) in H1. nia.
Qed.

Lemma big_at_range : 0 <= w_big_at fm doc.
Proof.
  pose proof n_ssat_range. pose proof n_dir_range. pose proof n_con_nonneg. pose proof n_sat_range.
  pose proof at_eqs. lia.
Qed.

Lemma directory_fits : Forall entry_fits (w_directory fm doc).
Proof.
  pose proof count_range. pose proof short_blocks_range. pose proof last_sector. pose proof n_big_nonneg. pose proof n_con_nonneg.
  pose proof big_at_range. pose proof n_ssat_range. pose proof n_dir_range. pose proof n_sat_range.
  constructor.
  - constructor; cbn; try (unfold is_u32, FREE; lia).
    + apply (wr_name _ _ W).
    + destruct fo; unfold is_u32, FREE; lia.
    + apply (wr_time _ _ W).
    + apply (wr_time _ _ W).
    + unfold is_u32. destruct (w_n_con fm doc =? 0); [unfold EOC; lia|]. pose proof at_eqs. lia.
    + pose proof (wr_container _ _ W). pose proof (zlen_nonneg (w_short_bytes fm doc)). unfold is_u32. lia.
  - apply w_entries_fit; try exact ss_gt0; try exact sss_gt0; try apply W; change (2 ^ 32) with 4294967296; try lia.
    fold (w_n_big fm doc). lia.
Qed.

Lemma directory_length : length (w_directory fm doc) = S (count fo).
Proof. unfold w_directory. cbn [length]. now rewrite w_entries_length. Qed.

Lemma directory_ids k d : nth_error (w_directory fm doc) k = Some d -> de_id d = Z.of_nat k.
Proof.
  unfold w_directory. destruct k as [|k]; cbn [nth_error]; intros H; [injection H as <-; reflexivity|].
  apply w_entries_ids in H. lia.
Qed.

(** * The parts of the file *)
Definition p_header : list Z := fill 0 ss (w_header fm doc).
Definition p_sat : list Z := w_table fm (w_sat fm doc).
Definition p_ssat : list Z := w_table fm (w_ssat fm doc).
Definition p_dir : list Z := fill 0 ss (flat_map (w_slot fm) (w_directory fm doc)).
Definition p_con : list Z := fill 0 ss (w_short_bytes fm doc).
Definition p_big : list Z := w_data ss (w_longs fm fo).

Lemma write_parts : write fm doc = p_header ++ p_sat ++ p_ssat ++ p_dir ++ p_con ++ p_big.
Proof. reflexivity. Qed.

Lemma header_ok : header_values_ok (w_header_values fm doc).
Proof.
  pose proof n_ssat_range. pose proof n_dir_range. pose proof n_con_nonneg. pose proof n_sat_range. pose proof (wr_sector _ _ W). pose proof (wr_short _ _ W).
  constructor; cbn [w_header_values hv_minor hv_major hv_sector_exponent hv_short_exponent hv_sat_sectors hv_root hv_minimum hv_ssat
    hv_ssat_sectors hv_msat hv_msat_sectors hv_msat_values]; try (unfold is_u32, EOC; lia).
  - unfold is_u32. pose proof at_eqs. lia.
  - apply W.
  - destruct (w_n_ssat fm doc =? 0); unfold is_u32, EOC; pose proof at_eqs; lia.
  - apply Forall_app. split; [|apply Forall_repeat; unfold is_u32, FREE; lia].
    apply Forall_forall. intros x Hx. apply in_map_iff in Hx as (k & <- & Hk). apply in_seq in Hk. unfold is_u32. lia.
  - rewrite app_length, map_length, seq_length, repeat_length. lia.
Qed.

Lemma zlen_header : zlen (w_header fm doc) = 512.
Proof.
  unfold w_header, encode_header. rewrite zlen_concat. unfold header_parts. cbn [parts_length].
  rewrite !zlen_bytes_of. fold (w_table fm (hv_msat_values (w_header_values fm doc))). rewrite zlen_w_table.
  pose proof (hk_count _ header_ok) as H. unfold zlen at 5. rewrite H. reflexivity.
Qed.

Lemma zlen_p_header : zlen p_header = ss.
Proof.
  unfold p_header. pose proof ss_pos. rewrite zlen_fill, zlen_header by lia.
  assert (blocks ss 512 = 1) by (unfold blocks; symmetry; apply Z.div_unique with (r := 512 + ss - 1 - ss); lia). lia.
Qed.

Lemma header_read : header_read_data (w_header fm doc) (zeros 109) =
  Ok (header_of_values (fm_order fm) (w_header_values fm doc), hv_msat_values (w_header_values fm doc)).
Proof.
  pose proof (wr_sector _ _ W). pose proof (wr_short _ _ W).
  apply encoded_header_read; cbn [hv_sector_exponent hv_short_exponent w_header_values]; auto using header_ok; try lia.
  - now left.
  - repeat (apply Forall_app; split); try (apply Forall_zeros; unfold is_byte; lia). constructor.
Qed.

Lemma header_bytes : Forall is_byte (w_header fm doc).
Proof.
  unfold w_header, encode_header, header_parts. cbn [concat].
  assert (Hz : forall n, Forall is_byte (zeros n)) by (intros n; apply Forall_zeros; unfold is_byte; lia).
  repeat (apply Forall_app; split); auto using bytes_of_byte; try (repeat constructor; lia).
  apply w_table_bytes.
Qed.

Lemma header_slice : slice (write fm doc) 0 512 = w_header fm doc.
Proof.
  rewrite write_parts. unfold p_header, fill. rewrite <- !app_assoc. pose proof zlen_header.
  rewrite slice_app_l by lia. now apply slice_all.
Qed.

Lemma header_says : header_acceptable (w_header fm doc) (fm_order fm) /\
  header_of_values (fm_order fm) (w_header_values fm doc) = decoded (fm_order fm) (w_header fm doc) /\
  hv_msat_values (w_header_values fm doc) = header_values_of (fm_order fm) (write fm doc).
Proof.
  destruct (header_read_data_inv _ (zeros 109) _ _ header_bytes eq_refl header_read) as (e & H1 & H2 & H3).
  assert (e = fm_order fm) by (apply (f_equal fh_byte_order) in H2; exact (eq_sym H2)). subst e.
  split; [exact H1|]. split; [exact H2|]. rewrite H3. unfold header_values_of. rewrite header_slice. reflexivity.
Qed.

Lemma zlen_sat : zlen (w_sat fm doc) = w_n_sat fm doc * (ss / 4).
Proof.
  pose proof ss_4. pose proof n_ssat_range. pose proof n_dir_range. pose proof n_con_nonneg. pose proof n_sat_range.
  unfold w_sat. rewrite zlen_fill by lia. rewrite !zlen_app, zlen_repeat, !zlen_w_chain, zlen_w_chains by (try apply ss_gt0; lia).
  fold (w_n_big fm doc). rewrite Z2Nat.id by lia. f_equal. rewrite <- n_sat_blocks at 2. f_equal. lia.
Qed.

Lemma zlen_ssat : zlen (w_ssat fm doc) = w_n_ssat fm doc * (ss / 4).
Proof. pose proof ss_4. unfold w_ssat. rewrite zlen_fill by lia. rewrite zlen_w_chains by apply sss_gt0. reflexivity. Qed.

Lemma parts_at : 0 <= w_ssat_at fm doc /\ 0 <= w_dir_at fm doc /\ 0 <= w_con_at fm doc /\ 0 <= w_big_at fm doc /\
  w_ssat_at fm doc + w_n_ssat fm doc <= 892928 /\ w_dir_at fm doc + w_n_dir fm doc <= 892928 /\
  w_con_at fm doc + w_n_con fm doc <= 892928 /\ w_big_at fm doc + w_n_big fm doc <= 892928.
Proof.
  pose proof n_ssat_range. pose proof n_dir_range. pose proof n_con_nonneg. pose proof n_sat_range.
  pose proof last_sector as HL. pose proof n_big_nonneg. pose proof at_eqs. lia.
Qed.

Lemma chain_u32_at base n : 0 <= base -> 0 <= n -> base + n <= 892928 -> Forall is_u32 (w_chain base (Z.to_nat n)).
Proof. intros H1 H2 H3. apply w_chain_u32; [exact H1|]. rewrite Z2Nat.id by exact H2. lia. Qed.

Lemma sat_u32 : Forall is_u32 (w_sat fm doc).
Proof.
  pose proof n_ssat_range as R1. pose proof n_dir_range as R2. pose proof n_con_nonneg as R3. pose proof n_big_nonneg as R4.
  destruct parts_at as (A1 & A2 & A3 & A4 & B1 & B2 & B3 & B4).
  unfold w_sat. apply Forall_fill; [unfold is_u32, FREE; lia|].
  apply Forall_app; split; [apply Forall_repeat; unfold is_u32; lia|].
  apply Forall_app; split; [apply chain_u32_at; [exact A1|apply R1|exact B1]|].
  apply Forall_app; split; [apply chain_u32_at; [exact A2|lia|exact B2]|].
  apply Forall_app; split; [apply chain_u32_at; [exact A3|exact R3|exact B3]|].
  apply w_chains_u32; [apply ss_gt0|exact A4|]. apply Z.le_lt_trans with 892928; [exact B4|reflexivity].
Qed.

Lemma ssat_u32 : Forall is_u32 (w_ssat fm doc).
Proof.
  unfold w_ssat. apply Forall_fill; [unfold is_u32, FREE; lia|]. pose proof short_blocks_range.
  apply w_chains_u32; [apply sss_gt0|lia|lia].
Qed.

Lemma zlen_p_sat : zlen p_sat = w_n_sat fm doc * ss.
Proof. unfold p_sat. rewrite zlen_w_table, zlen_sat. pose proof ss_4. nia. Qed.
Lemma zlen_p_ssat : zlen p_ssat = w_n_ssat fm doc * ss.
Proof. unfold p_ssat. rewrite zlen_w_table, zlen_ssat. pose proof ss_4. nia. Qed.
Lemma zlen_p_dir : zlen p_dir = w_n_dir fm doc * ss.
Proof.
  unfold p_dir. rewrite zlen_fill by apply ss_gt0. rewrite zlen_slots by apply directory_fits. unfold zlen at 1. rewrite directory_length.
  unfold w_n_dir. do 2 f_equal. lia.
Qed.
Lemma zlen_p_con : zlen p_con = w_n_con fm doc * ss.
Proof. unfold p_con. rewrite zlen_fill by apply ss_gt0. reflexivity. Qed.
Lemma zlen_p_big : zlen p_big = w_n_big fm doc * ss.
Proof. apply zlen_w_data, ss_gt0. Qed.

Lemma data_bytes k l : Forall (fun s => Forall is_byte s /\ zlen s < 2 ^ 32) l -> Forall is_byte (w_data k l).
Proof.
  unfold w_data. induction 1 as [|s l [Hs _] _ IH]; cbn [flat_map]; [constructor|]. apply Forall_app. split; [|exact IH].
  apply Forall_fill; [unfold is_byte; lia|exact Hs].
Qed.

Lemma write_bytes : Forall is_byte (write fm doc).
Proof.
  rewrite write_parts. assert (H0 : is_byte 0) by (unfold is_byte; lia).
  assert (Hsh : forall g, Forall (fun s => Forall is_byte s /\ zlen s < 2 ^ 32) (filter g (streams fo))).
  { intros g. apply Forall_forall. intros x Hx. apply filter_In in Hx as [Hx _]. pose proof (wr_data _ _ W) as Hd. rewrite Forall_forall in Hd. auto. }
  apply Forall_app; split; [apply Forall_fill; [exact H0|apply header_bytes]|].
  apply Forall_app; split; [apply w_table_bytes|].
  apply Forall_app; split; [apply w_table_bytes|].
  apply Forall_app; split; [|apply Forall_app; split].
  - apply Forall_fill; [exact H0|]. pose proof directory_fits as Hf. induction Hf; cbn [flat_map]; [constructor|].
    apply Forall_app. split; [now apply w_slot_bytes|assumption].
  - apply Forall_fill; [exact H0|]. apply data_bytes, Hsh.
  - apply data_bytes, Hsh.
Qed.
End Says.
