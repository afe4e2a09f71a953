(** Lemmas on the file header. *)
From Coq Require Import ZArith List Bool Lia ZifyBool ZifyNat.
From Verif Require Import Base Spec_IO Spec_Stream Spec_Load L_Base M_Table M_Header M_Load L_Load L_Load2.
Import ListNotations.
Open Scope Z_scope.

Lemma list_eqb_eq a : forall b, list_eqb a b = true <-> a = b.
Proof.
  induction a as [|x a IH]; intros [|y b]; cbn [list_eqb]; try (split; congruence).
  rewrite andb_true_iff, IH. split.
  - intros [H ->]. f_equal. lia.
  - intros [= -> ->]. split; [lia|reflexivity].
Qed.

Lemma signature_eqb l :
  negb (list_eqb l file_signature) && negb (list_eqb l beta_file_signature) = false
  <-> signature_bytes l.
Proof.
  unfold signature_bytes. change [0xd0; 0xcf; 0x11; 0xe0; 0xa1; 0xb1; 0x1a; 0xe1] with file_signature.
  change [0x0e; 0x11; 0xfc; 0x0d; 0xd0; 0xcf; 0x11; 0x0e] with beta_file_signature.
  rewrite <- !list_eqb_eq. destruct (list_eqb l file_signature), (list_eqb l beta_file_signature);
    cbn; intuition congruence.
Qed.

Lemma signature_eqb_or l :
  list_eqb l file_signature || list_eqb l beta_file_signature = true <-> signature_bytes l.
Proof.
  rewrite <- signature_eqb.
  destruct (list_eqb l file_signature), (list_eqb l beta_file_signature); cbn; intuition congruence.
Qed.

Lemma slice2 (l : list Z) p : 0 <= p -> p + 2 <= zlen l ->
  exists a b, arr_get l p = Ok a /\ arr_get l (p + 1) = Ok b /\ slice l p 2 = [a; b].
Proof.
  intros H1 H2.
  destruct (arr_get_val l p) as (a & Ha & Ha'); [lia|].
  destruct (arr_get_val l (p + 1)) as (b & Hb & Hb'); [lia|].
  exists a, b. split; auto. split; auto.
  apply znth_ext.
  - rewrite zlen_slice by lia. reflexivity.
  - intros i Hi. rewrite zlen_slice in Hi by lia. rewrite znth_slice by lia.
    assert (i = 0 \/ i = 1) as [->| ->] by lia; rewrite ?Z.add_0_r; auto.
Qed.

Definition msat_of (e : endian) (data : list Z) : list Z := values_from e data 76 109.

Lemma header_msat_loop_eq e data : forall n pos pre tail,
  0 <= pos -> pos + 4 * Z.of_nat n <= zlen data -> length tail = n ->
  header_msat_loop n e data pos (pre ++ tail) (zlen pre) = Ok (pre ++ values_from e data pos n).
Proof.
  induction n; intros pos pre tail H1 H2 H3.
  - destruct tail; [|discriminate]. reflexivity.
  - destruct tail as [|x tail]; [discriminate|]. cbn [header_msat_loop].
    rewrite get_u32_value by lia. cbn [rbind].
    assert (Hset : arr_set (pre ++ x :: tail) (zlen pre) (value_at e data pos 4)
                   = Ok ((pre ++ [value_at e data pos 4]) ++ tail)).
    { unfold arr_set. pose proof (zlen_nonneg pre). pose proof (zlen_nonneg tail).
      rewrite zlen_app, zlen_cons. 
      destruct ((0 <=? zlen pre) && (zlen pre <? zlen pre + (1 + zlen tail))) eqn:E; [|lia].
      unfold zlen. rewrite Nat2Z.id, set_nth_app. now rewrite <- app_assoc. }
    rewrite Hset. cbn [rbind].
    replace (zlen pre + 1) with (zlen (pre ++ [value_at e data pos 4]))
      by (rewrite zlen_app, zlen_cons; change (zlen (@nil Z)) with 0; lia).
    rewrite IHn by (try lia; injection H3; auto).
    rewrite <- app_assoc. cbn [app]. now rewrite values_from_S.
Qed.

Lemma value_at_nonneg e data p n : Forall is_byte data -> 0 <= value_at e data p n.
Proof.
  intros H. unfold value_at.
  assert (Hs : Forall is_byte (slice data p n)) by (apply Forall_slice; auto).
  unfold value. destruct e.
  - revert Hs. generalize (slice data p n). induction 1 as [|b l Hb]; cbn [le_value]; [lia|].
    unfold is_byte in Hb. lia.
  - apply Forall_rev in Hs. revert Hs. generalize (rev (slice data p n)).
    induction 1 as [|b l Hb]; cbn [le_value]; [lia|]. unfold is_byte in Hb. lia.
Qed.

Lemma header_read_data_ok e data msat : Forall is_byte data -> zlen msat = 109 ->
  header_acceptable data e ->
  header_read_data data msat = Ok (decoded e data, msat_of e data).
Proof.
  intros Hby Hm (Hl & Hsig & Hord & H1 & H2). unfold header_read_data.
  destruct (zlen data <? 512) eqn:E0; [lia|].
  apply signature_eqb in Hsig. rewrite Hsig.
  destruct (slice2 data 28) as (a & b & Ha & Hb & Hab); [lia|lia|].
  unfold order_mark in Hord. rewrite Hab in Hord.
  change (28 + 1) with 29 in Hb. rewrite Ha, Hb. cbn [rbind].
  assert (Hord' : (if (a =? 254) && (b =? 255) then Ok Little
             else if (a =? 255) && (b =? 254) then Ok Big else Err) = Ok e).
  { destruct e; injection Hord as -> ->; reflexivity. }
  rewrite Hord'. cbn [rbind].
  rewrite !get_u16_value by lia. cbn [rbind].
  rewrite !get_u32_value by lia. cbn [rbind].
  destruct (15 <? value_at e data 30 2) eqn:E1; [lia|].
  destruct (15 <? value_at e data 32 2) eqn:E2; [lia|].
  rewrite Hm. change (109 <? 109) with false. cbn iota. cbn [rbind].
  pose proof (header_msat_loop_eq e data 109 76 [] msat ltac:(lia) ltac:(lia)
                ltac:(unfold zlen in Hm; lia)) as Hloop.
  change (zlen (@nil Z)) with 0 in Hloop. cbn [app] in Hloop. rewrite Hloop. cbn [rbind].
  unfold decoded, msat_of.
  rewrite !Z.shiftl_mul_pow2 by (apply value_at_nonneg; auto). rewrite !Z.mul_1_l. reflexivity.
Qed.

Lemma header_read_data_inv data msat h m : Forall is_byte data -> zlen msat = 109 ->
  header_read_data data msat = Ok (h, m) ->
  exists e, header_acceptable data e /\ h = decoded e data /\ m = msat_of e data.
Proof.
  intros Hby Hm H.
  assert (Hacc : exists e, header_acceptable data e).
  { unfold header_read_data in H. destruct (zlen data <? 512) eqn:E0; [discriminate|].
    destruct (negb _ && negb _) eqn:Es in H; [discriminate|].
    apply signature_eqb in Es.
    destruct (slice2 data 28) as (a & b & Ha & Hb & Hab); [lia|lia|].
    change (28 + 1) with 29 in Hb. rewrite Ha, Hb in H. cbn [rbind] in H.
    destruct ((a =? 254) && (b =? 255)) eqn:E1; [|destruct ((a =? 255) && (b =? 254)) eqn:E2; [|discriminate]];
      cbn [rbind] in H; rewrite !get_u16_value in H by lia; cbn [rbind] in H;
      rewrite !get_u32_value in H by lia; cbn [rbind] in H.
    - destruct (15 <? value_at Little data 30 2) eqn:E3; [discriminate|].
      destruct (15 <? value_at Little data 32 2) eqn:E4; [discriminate|].
      exists Little. unfold header_acceptable, order_mark. rewrite Hab.
      replace a with 254 by lia. replace b with 255 by lia. repeat split; auto; lia.
    - destruct (15 <? value_at Big data 30 2) eqn:E3; [discriminate|].
      destruct (15 <? value_at Big data 32 2) eqn:E4; [discriminate|].
      exists Big. unfold header_acceptable, order_mark. rewrite Hab.
      replace a with 255 by lia. replace b with 254 by lia. repeat split; auto; lia. }
  destruct Hacc as (e & Hacc). exists e. split; auto.
  rewrite (header_read_data_ok e) in H by auto. split; congruence.
Qed.

Lemma header_read_data_defined data msat :
  zlen msat = 109 -> defined (header_read_data data msat).
Proof.
  intros Hm. unfold header_read_data.
  destruct (zlen data <? 512) eqn:E0; [exact I|].
  destruct (negb _ && negb _); [exact I|].
  destruct (slice2 data 28) as (a & b & Ha & Hb & Hab); [lia|lia|].
  change (28 + 1) with 29 in Hb. rewrite Ha, Hb. cbn [rbind].
  assert (Hall : forall e, defined (
    do minor <- get_u16 e data 24;
    do major <- get_u16 e data 26;
    do sector_size <- get_u16 e data 30;
    do short_sector_size <- get_u16 e data 32;
    do number_of_sat_sectors <- get_u32 e data 44;
    do root_directory <- get_u32 e data 48;
    do minimum_data_size <- get_u32 e data 56;
    do ssat_sector <- get_u32 e data 60;
    do number_of_ssat_sectors <- get_u32 e data 64;
    do msat_sector <- get_u32 e data 68;
    do number_of_msat_sectors <- get_u32 e data 72;
    if 15 <? sector_size then Err
    else if 15 <? short_sector_size then Err
    else
      do msat1 <- (if zlen msat <? 109 then table_resize msat 109 else Ok msat);
      do msat2 <- header_msat_loop 109 e data 76 msat1 0;
      Ok ({| fh_byte_order := e;
             fh_minor_format_version := minor;
             fh_major_format_version := major;
             fh_number_of_sat_sectors := number_of_sat_sectors;
             fh_root_directory_sector_identifier := root_directory;
             fh_sector_stream_minimum_data_size := minimum_data_size;
             fh_ssat_sector_identifier := ssat_sector;
             fh_number_of_ssat_sectors := number_of_ssat_sectors;
             fh_msat_sector_identifier := msat_sector;
             fh_number_of_msat_sectors := number_of_msat_sectors;
             fh_sector_size := Z.shiftl 1 sector_size;
             fh_short_sector_size := Z.shiftl 1 short_sector_size |}, msat2))).
  { intros e. rewrite !get_u16_value by lia. cbn [rbind]. rewrite !get_u32_value by lia. cbn [rbind].
    destruct (15 <? _); [exact I|]. destruct (15 <? _); [exact I|].
    rewrite Hm. change (109 <? 109) with false. cbn iota. cbn [rbind].
    pose proof (header_msat_loop_eq e data 109 76 [] msat ltac:(lia) ltac:(lia)
                ltac:(unfold zlen in Hm; lia)) as Hloop.
    change (zlen (@nil Z)) with 0 in Hloop. cbn [app] in Hloop. rewrite Hloop. exact I. }
  destruct ((a =? 254) && (b =? 255)); [apply (Hall Little)|].
  destruct ((a =? 255) && (b =? 254)); [apply (Hall Big)|exact I].
Qed.

(** * Encoding *)


Lemma zlen_le_bytes n : forall x, zlen (le_bytes n x) = Z.of_nat n.
Proof. induction n; intros x; cbn [le_bytes]; [reflexivity|]. rewrite zlen_cons, IHn. lia. Qed.

Lemma zlen_bytes_of e n x : zlen (bytes_of e n x) = Z.of_nat n.
Proof.
  destruct e; cbn [bytes_of]; [apply zlen_le_bytes|].
  unfold zlen. rewrite rev_length. apply zlen_le_bytes.
Qed.

Lemma le_value_bytes n : forall x, 0 <= x < 256 ^ Z.of_nat n -> le_value (le_bytes n x) = x.
Proof.
  induction n; intros x Hx.
  - change (256 ^ Z.of_nat 0) with 1 in Hx. cbn. lia.
  - cbn [le_bytes le_value]. rewrite IHn.
    + pose proof (Z.div_mod x 256). lia.
    + rewrite Nat2Z.inj_succ, Z.pow_succ_r in Hx by lia. split; [apply Z.div_pos; lia|].
      apply Z.div_lt_upper_bound; lia.
Qed.

Lemma value_bytes_of e n x : 0 <= x < 256 ^ Z.of_nat n -> value e (bytes_of e n x) = x.
Proof.
  intros H. destruct e; cbn [value bytes_of]; rewrite ?rev_involutive; now apply le_value_bytes.
Qed.

Lemma le_bytes_byte n : forall x, Forall is_byte (le_bytes n x).
Proof.
  induction n; intros x; cbn [le_bytes]; constructor; auto.
  unfold is_byte. pose proof (Z.mod_pos_bound x 256). lia.
Qed.

Lemma bytes_of_byte e n x : Forall is_byte (bytes_of e n x).
Proof. destruct e; cbn [bytes_of]; [apply le_bytes_byte|apply Forall_rev, le_bytes_byte]. Qed.

Lemma slice_part {A} (a b c : list A) p n : zlen a = p -> zlen b = n -> slice (a ++ b ++ c) p n = b.
Proof.
  intros <- <-. replace (zlen a) with (zlen a + 0) by lia. rewrite slice_app_r by lia.
  rewrite slice_app_l by (pose proof (zlen_nonneg b); lia).
  unfold slice, zlen. rewrite Nat2Z.id. cbn [Z.to_nat skipn]. apply firstn_all.
Qed.

(** Parts of a concatenation. *)
Fixpoint parts_length (l : list (list Z)) : Z :=
  match l with [] => 0 | a :: l' => zlen a + parts_length l' end.

Lemma zlen_concat l : zlen (concat l) = parts_length l.
Proof. induction l; cbn [concat parts_length]; [reflexivity|]. rewrite zlen_app. lia. Qed.

Lemma slice_concat l i x p n :
  nth_error l i = Some x -> parts_length (firstn i l) = p -> zlen x = n ->
  slice (concat l) p n = x.
Proof.
  intros H1 H2 H3. apply nth_error_split in H1 as (a & b & -> & <-).
  rewrite concat_app. cbn [concat]. apply slice_part; auto.
  rewrite zlen_concat, <- H2. rewrite firstn_app, Nat.sub_diag, firstn_O, app_nil_r, firstn_all.
  reflexivity.
Qed.

Lemma values_from_encoded e vals : Forall is_u32 vals ->
  forall pre post, values_from e (pre ++ concat (map (bytes_of e 4) vals) ++ post) (zlen pre) (length vals) = vals.
Proof.
  induction 1 as [|v vals Hv Hvals IH]; intros pre post; [reflexivity|].
  cbn [length]. rewrite values_from_S. cbn [map concat].
  f_equal.
  - unfold value_at. rewrite <- app_assoc. rewrite slice_part; auto.
    + apply value_bytes_of. unfold is_u32 in Hv. change (256 ^ Z.of_nat 4) with 4294967296. lia.
    + apply zlen_bytes_of.
  - specialize (IH (pre ++ bytes_of e 4 v) post). rewrite zlen_app, zlen_bytes_of in IH.
    rewrite <- !app_assoc in *. exact IH.
Qed.

Ltac part V parts k n := apply (V k n); [reflexivity|reflexivity|
   first [change (256 ^ 2) with 65536|change (256 ^ 4) with 4294967296]; lia|
   unfold parts, header_parts; cbn [firstn parts_length]; rewrite ?zlen_bytes_of; lia].

Lemma encoded_header_read e sig clsid r1 r2 rest h msat :
  signature_bytes sig -> length clsid = 16%nat -> length r1 = 10%nat -> length r2 = 4%nat ->
  Forall is_byte (clsid ++ r1 ++ r2 ++ rest) ->
  header_values_ok h -> hv_sector_exponent h <= 15 -> hv_short_exponent h <= 15 ->
  zlen msat = 109 ->
  header_read_data (encode_header e sig clsid r1 r2 rest h) msat
  = Ok (header_of_values e h, hv_msat_values h).
Proof.
  intros Hsig Hc Hr1 Hr2 Hby [K1 K2 K3 K4 K5 K6 K7 K8 K9 K10 K11 K12 K13] Hx1 Hx2 Hm.
  assert (Zc : zlen clsid = 16) by (unfold zlen; lia).
  assert (Z1 : zlen r1 = 10) by (unfold zlen; lia).
  assert (Z2 : zlen r2 = 4) by (unfold zlen; lia).
  assert (Zs : zlen sig = 8) by (destruct Hsig as [-> | ->]; reflexivity).
  assert (Hmv : zlen (concat (map (bytes_of e 4) (hv_msat_values h))) = 436).
  { change 436 with (4 * Z.of_nat 109). rewrite <- K13. clear. induction (hv_msat_values h) as [|v l IH]; [reflexivity|].
    cbn [map concat length]. rewrite zlen_app, zlen_bytes_of, IH. lia. }
  unfold encode_header. set (parts := header_parts e sig clsid r1 r2 rest h).
  assert (Hpart : forall i n x p, nth_error parts i = Some (bytes_of e n x) ->
            0 <= x < 256 ^ Z.of_nat n -> parts_length (firstn i parts) = p ->
            value_at e (concat parts) p (Z.of_nat n) = x).
  { intros i n x p H1 H2 H3. unfold value_at.
    rewrite (slice_concat _ i (bytes_of e n x)); auto using zlen_bytes_of, value_bytes_of. }
  assert (P2 : 256 ^ Z.of_nat 2 = 65536) by reflexivity.
  assert (P4 : 256 ^ Z.of_nat 4 = 4294967296) by reflexivity.
  unfold is_u32 in *.
  assert (V : forall i n x p v, nth_error parts i = Some (bytes_of e n x) -> v = Z.of_nat n ->
            0 <= x < 256 ^ v -> parts_length (firstn i parts) = p ->
            value_at e (concat parts) p v = x).
  { intros i n x p v H1 -> H2 H3. eapply Hpart; eauto. }
  assert (V24 : value_at e (concat parts) 24 2 = hv_minor h) by part V parts 2%nat 2%nat.
  assert (V26 : value_at e (concat parts) 26 2 = hv_major h) by part V parts 3%nat 2%nat.
  assert (V30 : value_at e (concat parts) 30 2 = hv_sector_exponent h) by part V parts 5%nat 2%nat.
  assert (V32 : value_at e (concat parts) 32 2 = hv_short_exponent h) by part V parts 6%nat 2%nat.
  assert (V44 : value_at e (concat parts) 44 4 = hv_sat_sectors h) by part V parts 8%nat 4%nat.
  assert (V48 : value_at e (concat parts) 48 4 = hv_root h) by part V parts 9%nat 4%nat.
  assert (V56 : value_at e (concat parts) 56 4 = hv_minimum h) by part V parts 11%nat 4%nat.
  assert (V60 : value_at e (concat parts) 60 4 = hv_ssat h) by part V parts 12%nat 4%nat.
  assert (V64 : value_at e (concat parts) 64 4 = hv_ssat_sectors h) by part V parts 13%nat 4%nat.
  assert (V68 : value_at e (concat parts) 68 4 = hv_msat h) by part V parts 14%nat 4%nat.
  assert (V72 : value_at e (concat parts) 72 4 = hv_msat_sectors h) by part V parts 15%nat 4%nat.
  assert (Hbytes : Forall is_byte (concat parts)).
  { apply Forall_concat. rewrite !Forall_app in Hby. destruct Hby as (B1 & B2 & B3 & B4).
    repeat (apply Forall_cons; [first [apply bytes_of_byte|assumption|idtac]|]); auto.
    - destruct Hsig as [-> | ->]; repeat constructor; unfold is_byte; lia.
    - apply Forall_concat, Forall_map, Forall_forall. intros. apply bytes_of_byte. }
  rewrite (header_read_data_ok e).
  - unfold decoded, header_of_values, msat_of.
    rewrite V24, V26, V30, V32, V44, V48, V56, V60, V64, V68, V72. do 2 f_equal.
    pose proof (values_from_encoded e _ K12 (concat (firstn 16 parts)) rest) as HV.
    rewrite K13 in HV.
    replace (zlen (concat (firstn 16 parts))) with 76 in HV.
    2: { rewrite zlen_concat. cbn [firstn parts header_parts parts_length]. unfold parts, header_parts.
         cbn [firstn parts_length]. rewrite ?zlen_bytes_of. lia. }
    rewrite <- HV at 1. f_equal.
    rewrite <- (firstn_skipn 16 parts) at 1. rewrite concat_app. f_equal.
    unfold parts, header_parts. cbn [skipn concat]. now rewrite app_nil_r.
  - assumption.
  - assumption.
  - split.
    { rewrite zlen_concat. unfold parts, header_parts. cbn [parts_length]. rewrite ?zlen_bytes_of, Hmv.
      pose proof (zlen_nonneg rest). lia. }
    split. { rewrite (slice_concat _ 0%nat sig); auto. }
    split. { unfold order_mark. rewrite (slice_concat _ 4%nat (bytes_of e 2 65534)); [destruct e; reflexivity|reflexivity| |apply zlen_bytes_of].
             unfold parts, header_parts. cbn [firstn parts_length]. rewrite ?zlen_bytes_of. lia. }
    rewrite V30, V32. lia.
Qed.
