(** Lemmas on opening a file. *)
From Coq Require Import ZArith List Bool Lia ZifyBool ZifyNat Sorted.
From Verif Require Import Base Spec_IO Spec_Stream Spec_Load Spec_Tree L_Base M_Table M_Header M_Load
  M_Stream M_Tree M_Open L_Load L_Load2 L_Header L_Tree L_Tree2.
Import ListNotations.
Open Scope Z_scope.

(** * Tables hold 32-bit values *)
Lemma sector_words_u32 rd e ss ids secs : io_bytes rd ->
  Forall2 (delivered rd ss) ids secs -> Forall is_u32 (sector_words e secs).
Proof.
  intros HB H. unfold sector_words. induction H as [|id s ids secs Hd _ IH]; cbn [map concat]; [constructor|].
  apply Forall_app. split; auto. apply words_u32. eapply delivered_bytes; eauto.
Qed.

Lemma zlen_sector_words rd e ss ids secs :
  Forall2 (delivered rd ss) ids secs -> zlen (sector_words e secs) = zlen ids * (ss / 4).
Proof.
  unfold sector_words. induction 1 as [|id s ids secs Hd _ IH]; cbn [map concat]; [reflexivity|].
  rewrite zlen_app, zlen_words, zlen_cons, IH, (delivered_len _ _ _ _ Hd). lia.
Qed.

Lemma table_sectors_bound ss n : 4 <= ss -> table_sectors ss n * (ss / 4) <= 33554432.
Proof.
  intros. unfold table_sectors. assert (1 <= ss / 4) by (apply Z.div_le_lower_bound; lia).
  destruct (_ || _) eqn:E; [lia|].
  pose proof (Z.mul_div_le (s32 (n * (ss / 4))) (ss / 4)). lia.
Qed.

Lemma u32_zero : is_u32 0.
Proof. unfold is_u32. lia. Qed.

Lemma zlen_firstn {A} (l : list A) k : (k <= length l)%nat -> zlen (firstn k l) = Z.of_nat k.
Proof. intros. unfold zlen. rewrite firstn_length. lia. Qed.

Lemma sat_outcome_ok rd e ss ids n t sat t' : 4 <= ss -> io_bytes rd ->
  sat_outcome rd e ss ids (table_sectors ss n) t sat t' ->
  Forall is_u32 sat /\ zlen sat = table_sectors ss n * (ss / 4) /\ zlen sat <= 33554432.
Proof.
  intros Hss HB (k & secs & H1 & H2 & H3 & -> & _).
  pose proof (table_sectors_bound ss n Hss). pose proof (table_sectors_nonneg ss n Hss).
  assert (1 <= ss / 4) by (apply Z.div_le_lower_bound; lia).
  split. { apply Forall_app. split; [eapply sector_words_u32; eauto|apply Forall_zeros, u32_zero]. }
  rewrite zlen_app, (zlen_sector_words _ _ _ _ _ H3), zlen_firstn, zlen_zeros by (auto; nia). split; nia.
Qed.

Lemma ssat_outcome_ok rd e ss sat first n t ssat t' : 4 <= ss -> io_bytes rd ->
  ssat_outcome rd e ss sat first n (table_sectors ss n) t ssat t' ->
  Forall is_u32 ssat /\ zlen ssat = table_sectors ss n * (ss / 4) /\ zlen ssat <= 33554432.
Proof.
  intros Hss HB (ids & secs & extra & -> & _ & H3 & _ & _ & H4 & _).
  pose proof (table_sectors_bound ss n Hss).
  assert (1 <= ss / 4) by (apply Z.div_le_lower_bound; lia).
  split. { apply Forall_app. split; [eapply sector_words_u32; eauto|apply Forall_zeros, u32_zero]. }
  rewrite zlen_app, (zlen_sector_words _ _ _ _ _ H3), zlen_zeros by nia. split; nia.
Qed.

(** * The directory *)
Definition directory_outcome (rd : reader) (e : endian) (ss : Z) (sat : list Z) (first : Z)
           (t : trace) (l : list dirent) (t' : trace) : Prop :=
  exists ids secs last,
    t' = t ++ map (request ss) ids /\
    Forall2 (delivered rd ss) ids secs /\ chain_prefix sat first ids /\ NoDup ids /\
    zlen ids <= 1025 /\ Forall (fun x => x <> EOC /\ x <> FREE) ids /\
    nth_sector sat first (length ids) last /\
    (last = EOC \/ last = FREE \/ (In last ids /\ zlen ids <= 1024)) /\
    Forall (fun s => ~ bad_slot e s (Z.to_nat (ss / 128))) secs /\
    map fields_of l = slots_entries e (concat secs) (length ids * Z.to_nat (ss / 128)).

Lemma power_128 ss : power_of_two ss -> ss mod 128 = 0 -> 128 <= ss /\ ss = 128 * (ss / 128) /\ 1 <= ss / 128 <= 256.
Proof.
  intros Hp Hm. pose proof (power_range ss Hp).
  pose proof (Z.div_mod ss 128 ltac:(lia)). 
  assert (0 <= ss / 128) by (apply Z.div_pos; lia). 
  assert (ss / 128 <= 256) by (apply Z.div_le_upper_bound; lia). lia.
Qed.

Lemma read_directory_cases rd e ss sat first t :
  power_of_two ss -> Forall is_u32 sat -> zlen sat <= 33554432 -> is_u32 first ->
  (exists ids, read_directory rd e ss sat first t = (Err, t ++ map (request ss) ids) /\ zlen ids <= 1025) \/
  (128 <= ss /\ ss mod 128 = 0 /\ first <> EOC /\ exists l t',
   read_directory rd e ss sat first t = (Ok l, t') /\ directory_outcome rd e ss sat first t l t').
Proof.
  intros Hp Hsat Hsz Hf. unfold read_directory. pose proof (power_range ss Hp) as Hr.
  assert (Hnil : forall o : res (list dirent) * trace, o = (Err, t) ->
            exists ids, o = (Err, t ++ map (request ss) ids) /\ zlen ids <= 1025).
  { intros o ->. exists []. cbn [map]. rewrite app_nil_r. split; auto. change (zlen (@nil Z)) with 0. lia. }
  destruct ((ss =? 0) || (MEMORY_MAXIMUM_ALLOCATION_SIZE <? ss) || negb (ss mod 128 =? 0)) eqn:E0;
    [left; apply Hnil; reflexivity|].
  change END_OF_CHAIN with EOC.
  destruct (first =? EOC) eqn:E1; [left; apply Hnil; reflexivity|].
  assert (Hm : ss mod 128 = 0) by lia.
  destruct (power_128 ss Hp Hm) as (H128 & Hss & HN).
  set (N := Z.to_nat (ss / 128)).
  replace (ss / 128) with (Z.of_nat N) by (unfold N; lia).
  destruct (dir_loop_eq rd e ss sat N ltac:(unfold N; lia) ltac:(unfold N; lia) Hsat Hsz
              1026 [] [] 0%nat first [] 0 t) as (ids & secs & H1 & H2 & H3 & H4 & H5 & H6);
    [reflexivity|auto|lia|lia|lia|reflexivity|].
  change (Z.of_nat 0) with 0 in H6.
  destruct H6 as [(l & last & H6 & H7 & H8 & H9 & H10)|(extra & H6 & H7 & _)].
  - right. split; auto. split; auto. split; [lia|]. exists l. eexists. split; [exact H6|].
    exists ids, secs, last. split; auto. split; auto. split; auto. split; auto. split; [lia|].
    split. { apply Forall_forall. intros x Hx. apply (H4 x Hx). }
    split; auto. split. { destruct H10 as [?|[?|[[[]|?] ?]]]; auto. right; right; split; auto; lia. }
    split; auto.
  - left. exists (ids ++ extra). split; auto. lia.
Qed.

(** Entries of slots. *)
Lemma slots_entries_In e B n ef : In ef (slots_entries e B n) <->
  exists k, (k < n)%nat /\ value_at Little (slot_of B k) 66 1 <> 0 /\
            ef = slot_fields e (Z.of_nat k) (slot_of B k).
Proof.
  unfold slots_entries. rewrite in_flat_map. split.
  - intros (k & Hk & Hin). apply in_seq in Hk. exists k.
    destruct (_ =? 0) eqn:E; [destruct Hin|]. destruct Hin as [<-|[]]. repeat split; lia.
  - intros (k & Hk & Hv & ->). exists k. split; [apply in_seq; lia|].
    destruct (_ =? 0) eqn:E; [lia|]. now left.
Qed.

Lemma slots_entries_sorted e B n : StronglySorted (fun a b => ef_id a < ef_id b) (slots_entries e B n).
Proof.
  unfold slots_entries. generalize 0%nat as s. induction n as [|n IH]; intros s; cbn [seq flat_map]; [constructor|].
  assert (Hall : Forall (fun b => Z.of_nat s < ef_id b)
     (flat_map (fun k => if value_at Little (slot_of B k) 66 1 =? 0 then []
                     else [slot_fields e (Z.of_nat k) (slot_of B k)]) (seq (S s) n))).
  { apply Forall_forall. intros x Hx. apply in_flat_map in Hx as (k & Hk & Hin). apply in_seq in Hk.
    destruct (_ =? 0); [destruct Hin|]. destruct Hin as [<-|[]]. cbn. lia. }
  destruct (_ =? 0); cbn [app]; [apply IH|]. constructor; [apply IH|exact Hall].
Qed.

Lemma sorted_NoDup {A} (f : A -> Z) l : StronglySorted (fun a b => f a < f b) l -> NoDup (map f l).
Proof.
  induction 1 as [|a l Hs IH Hall]; cbn [map]; constructor; auto.
  intros Hin. apply in_map_iff in Hin as (b & Hb & Hin).
  pose proof (proj1 (Forall_forall _ _) Hall _ Hin). cbn in *. lia.
Qed.

Lemma fields_ok e l B n :
  Forall is_byte B -> zlen B = 128 * Z.of_nat n -> Z.of_nat n <= 4294967296 ->
  map fields_of l = slots_entries e B n ->
  entries_ok l /\ Forall dirent_ok l /\ StronglySorted (fun a b => de_id a < de_id b) l.
Proof.
  intros HB Hl Hn H.
  assert (Hin : forall d, In d l -> exists k, (k < n)%nat /\ fields_of d = slot_fields e (Z.of_nat k) (slot_of B k)).
  { intros d Hd. assert (Hf : In (fields_of d) (slots_entries e B n)) by (rewrite <- H; now apply in_map).
    apply slots_entries_In in Hf as (k & H1 & _ & H2). eauto. }
  assert (Hu : forall k p, (k < n)%nat -> 0 <= p -> p + 4 <= 128 -> is_u32 (value_at e (slot_of B k) p 4)).
  { intros k p Hk Hp1 Hp2.
    assert (Hsl : zlen (slot_of B k) = 128) by (unfold slot_of; rewrite zlen_slice by lia; reflexivity).
    apply (value_at_range e (slot_of B k) p 4); try lia. apply Forall_slice; auto. }
  assert (Hso : StronglySorted (fun a b => de_id a < de_id b) l).
  { pose proof (slots_entries_sorted e B n) as Hs. rewrite <- H in Hs. clear - Hs.
    induction l as [|d l IH]; constructor.
    - apply IH. cbn [map] in Hs. now inversion Hs.
    - cbn [map] in Hs. inversion Hs as [|a b H1 H2]; subst. apply Forall_forall. intros x Hx.
      pose proof (proj1 (Forall_forall _ _) H2 (fields_of x) (in_map _ _ _ Hx)) as H3. exact H3. }
  split; [split|split; auto].
  - now apply sorted_NoDup.
  - apply Forall_forall. intros d Hd. destruct (Hin d Hd) as (k & Hk & Hf).
    assert (Hid : de_id d = Z.of_nat k) by (exact (f_equal ef_id Hf)).
    assert (Hpr : de_prev d = value_at e (slot_of B k) 68 4) by (exact (f_equal ef_prev Hf)).
    assert (Hne : de_next d = value_at e (slot_of B k) 72 4) by (exact (f_equal ef_next Hf)).
    assert (Hsu : de_sub d = value_at e (slot_of B k) 76 4) by (exact (f_equal ef_sub Hf)).
    rewrite Hid, Hpr, Hne, Hsu. split; [unfold is_u32; lia|]. repeat split; apply Hu; lia.
  - apply Forall_forall. intros d Hd. destruct (Hin d Hd) as (k & Hk & Hf).
    assert (Hse : de_sector d = value_at e (slot_of B k) 116 4) by (exact (f_equal ef_sector Hf)).
    assert (Hsi : de_size d = value_at e (slot_of B k) 120 4) by (exact (f_equal ef_size Hf)).
    constructor; [rewrite Hse|rewrite Hsi]; apply Hu; lia.
Qed.

Lemma delivered_concat rd ss ids secs : io_bytes rd -> Forall2 (delivered rd ss) ids secs ->
  Forall is_byte (concat secs) /\ zlen (concat secs) = zlen ids * ss.
Proof.
  intros HB. induction 1 as [|id s ids secs Hd _ [IH1 IH2]]; cbn [concat]; [split; [constructor|reflexivity]|].
  split; [apply Forall_app; split; auto; eapply delivered_bytes; eauto|].
  rewrite zlen_app, zlen_cons, IH2, (delivered_len _ _ _ _ Hd). lia.
Qed.

Lemma directory_ok rd e ss sat first t l t' : io_bytes rd -> 128 <= ss <= 32768 -> ss = 128 * (ss / 128) ->
  directory_outcome rd e ss sat first t l t' ->
  entries_ok l /\ Forall dirent_ok l /\ StronglySorted (fun a b => de_id a < de_id b) l.
Proof.
  intros HB Hss Hm (ids & secs & last & _ & H2 & _ & _ & Hlen & _ & _ & _ & _ & H).
  destruct (delivered_concat _ _ _ _ HB H2) as [Hb Hz].
  unfold zlen in Hlen. assert (0 <= ss / 128) by (apply Z.div_pos; lia).
  assert (ss / 128 <= 256) by (apply Z.div_le_upper_bound; lia).
  apply (fields_ok e l (concat secs) (length ids * Z.to_nat (ss / 128))); auto.
  - rewrite Hz. unfold zlen. rewrite Nat2Z.inj_mul, Z2Nat.id by lia. nia.
  - rewrite Nat2Z.inj_mul, Z2Nat.id by lia. nia.
Qed.

(** * Everything after the header *)
Record header_fine (h : file_header) : Prop := {
  hf_ss : power_of_two (fh_sector_size h);
  hf_sss : power_of_two (fh_short_sector_size h);
  hf_nsat : is_u32 (fh_number_of_sat_sectors h);
  hf_root : is_u32 (fh_root_directory_sector_identifier h);
  hf_min : is_u32 (fh_sector_stream_minimum_data_size h);
  hf_ssat : is_u32 (fh_ssat_sector_identifier h);
  hf_nssat : is_u32 (fh_number_of_ssat_sectors h);
  hf_msat : is_u32 (fh_msat_sector_identifier h);
  hf_nmsat : is_u32 (fh_number_of_msat_sectors h)
}.

Lemma decoded_fine e data : Forall is_byte data -> header_acceptable data e -> header_fine (decoded e data).
Proof.
  intros Hb (Hl & _ & _ & H1 & H2).
  assert (Hu : forall p, 0 <= p -> p + 4 <= 512 -> is_u32 (value_at e data p 4)).
  { intros p Hp1 Hp2. apply (value_at_range e data p 4); auto; lia. }
  assert (Hp : forall p, 0 <= p -> p + 2 <= 512 -> value_at e data p 2 <= 15 -> power_of_two (2 ^ value_at e data p 2)).
  { intros p Hp1 Hp2 Hp3. exists (value_at e data p 2). split; auto. split; auto. apply value_at_nonneg; auto. }
  constructor; cbn [decoded fh_sector_size fh_short_sector_size fh_number_of_sat_sectors
    fh_root_directory_sector_identifier fh_sector_stream_minimum_data_size fh_ssat_sector_identifier
    fh_number_of_ssat_sectors fh_msat_sector_identifier fh_number_of_msat_sectors];
    first [apply Hu; lia|apply Hp; auto; lia].
Qed.

(** What the master table is. *)
Definition msat_outcome (rd : reader) (e : endian) (ss : Z) (hdr : list Z) (id n : Z)
           (t : trace) (msat : list Z) (t' : trace) : Prop :=
  (id = EOC /\ n = 0 /\ msat = hdr /\ t' = t) \/
  (4 <= ss /\ id <> EOC /\ msat_total ss n <= 33554432 /\
   let M := Z.max 0 (msat_total ss n - 109) in
   exists ids secs last,
     msat_chain e id ids secs last /\ Forall2 (delivered rd ss) ids secs /\ zlen ids <= 257 /\
     msat = hdr ++ msat_contents e secs ++ zeros (M - zlen ids * (ss / 4 - 1)) /\
     t' = t ++ map (request ss) ids /\
     zlen ids * (ss / 4 - 1) <= M /\
     (last = EOC \/ (M = zlen ids * (ss / 4 - 1) /\ zlen ids <= 256))).

Lemma msat_outcome_len rd e ss hdr id n t msat t' : zlen hdr = 109 ->
  msat_outcome rd e ss hdr id n t msat t' -> zlen msat <= 33554432 + 109.
Proof.
  intros Hh [(_ & _ & -> & _)|(Hss & _ & Ht & ids & secs & last & _ & Hd & _ & -> & _ & Hle & _)]; [lia|].
  set (M := Z.max 0 (msat_total ss n - 109)) in *.
  assert (Hc : zlen (msat_contents e secs) = zlen ids * (ss / 4 - 1)).
  { clear - Hd Hss. unfold msat_contents. induction Hd as [|i s ids secs Hd _ IH]; cbn [map concat]; [reflexivity|].
    rewrite zlen_app, zlen_cons, IH. rewrite (msat_values_eq e s ss) by (auto; eapply delivered_len; eauto).
    rewrite zlen_values_from. assert (1 <= ss / 4) by (apply Z.div_le_lower_bound; lia). lia. }
  rewrite !zlen_app, Hc, zlen_zeros by lia. lia.
Qed.

(** * Room in a table *)
Lemma room_cases ss n : 4 <= ss -> 0 <= n ->
  0 <= table_sectors ss n <= n /\
  (n * (ss / 4) <= 33554432 -> table_sectors ss n = n) /\
  (33554432 < n * (ss / 4) < 2147483648 -> table_sectors ss n = 0).
Proof.
  intros Hss Hn. assert (HE : 1 <= ss / 4) by (apply Z.div_le_lower_bound; lia).
  pose proof (table_sectors_nonneg ss n Hss). set (E := ss / 4) in *.
  assert (Hs : s32 (n * E) <= n * E).
  { unfold s32. assert (0 <= n * E) by nia. pose proof (Z.mod_le (n * E) TWO32 ltac:(lia) ltac:(unfold TWO32; lia)).
    cbn zeta. destruct (_ <=? _); unfold TWO32 in *; lia. }
  assert (Hid : n * E < 2147483648 -> s32 (n * E) = n * E).
  { intros. unfold s32. rewrite Z.mod_small by (unfold TWO32; nia). cbn zeta.
    change INT_MAX with 2147483647. destruct (_ <=? _) eqn:X; lia. }
  split; [|split].
  - split; auto. unfold table_sectors. fold E. cbn zeta. destruct (_ || _) eqn:X; [lia|].
    apply Z.div_le_upper_bound; lia.
  - intros Hle. unfold table_sectors. fold E. cbn zeta. rewrite Hid by lia.
    destruct (_ || _) eqn:X; [nia|]. apply Z.div_mul. lia.
  - intros Hle. unfold table_sectors. fold E. cbn zeta. rewrite Hid by lia.
    destruct (_ || _) eqn:X; [reflexivity|lia].
Qed.

(** Work of opening: identifiers of the sectors read per table. *)
Definition open_work (h : file_header) (t t' : trace) : Prop :=
  let ss := fh_sector_size h in
  exists m s ss_ids d,
    t' = t ++ map (request ss) (m ++ s ++ ss_ids ++ d) /\
    zlen m <= 257 /\
    (zlen s <= Z.max 0 (fh_number_of_sat_sectors h) /\ zlen s * (ss / 4) <= 33554432 /\
     zlen s <= 33554432) /\
    zlen ss_ids <= 257 /\ zlen d <= 1025.

(** What a successful open has done. *)
Definition open_outcome (u : una) (rd : reader) (h : file_header) (hdr : list Z) (t : trace)
       (o : opened) (t' : trace) : Prop :=
  let e := fh_byte_order h in
  let ss := fh_sector_size h in
  o_header o = h /\ 128 <= ss <= 32768 /\ ss = 128 * (ss / 128) /\
  exists t1 t2 t3,
    msat_outcome rd e ss hdr (fh_msat_sector_identifier h) (fh_number_of_msat_sectors h) t (o_msat o) t1 /\
    sat_outcome rd e ss (used_ids (o_msat o)) (table_sectors ss (fh_number_of_sat_sectors h)) t1 (o_sat o) t2 /\
    ssat_outcome rd e ss (o_sat o) (fh_ssat_sector_identifier h) (fh_number_of_ssat_sectors h)
      (table_sectors ss (fh_number_of_ssat_sectors h)) t2 (o_ssat o) t3 /\
    directory_outcome rd e ss (o_sat o) (fh_root_directory_sector_identifier h) t3 (o_entries o) t' /\
    create_tree u e (o_entries o) = Ok (o_tree o).

Lemma open_tables_cases u rd h hdr t :
  una_ok u -> io_bytes rd -> header_fine h -> zlen hdr = 109 ->
  exists r t', open_tables u rd h hdr t = (r, t') /\ defined r /\
    open_work h t t' /\
    forall o, r = Ok o -> open_outcome u rd h hdr t o t'.
Proof.
  intros Hu HB [Hp _ Hns Hr0 _ Hsid Hnss _ _] Hh. unfold open_tables.
  set (e := fh_byte_order h) in *. set (ss := fh_sector_size h) in *.
  pose proof (power_range ss Hp) as Hr.
  assert (Hmsat :
     (exists ids, read_msat rd e ss hdr (fh_msat_sector_identifier h) (fh_number_of_msat_sectors h) t
                  = (Err, t ++ map (request ss) ids) /\ zlen ids <= 257) \/
     (exists msat ids, read_msat rd e ss hdr (fh_msat_sector_identifier h) (fh_number_of_msat_sectors h) t
                  = (Ok msat, t ++ map (request ss) ids) /\ zlen ids <= 257 /\
        msat_outcome rd e ss hdr (fh_msat_sector_identifier h) (fh_number_of_msat_sectors h) t msat
          (t ++ map (request ss) ids))).
  { destruct (read_msat_cases rd e ss hdr (fh_msat_sector_identifier h) (fh_number_of_msat_sectors h) t Hp Hh)
      as [H|[(H1 & H2 & H)|(H1 & H2 & H3 & ids & secs & last & H4 & H5 & H6 & H7)]].
    - left. exists []. cbn [map]. rewrite app_nil_r. split; auto. change (zlen (@nil Z)) with 0. lia.
    - right. exists hdr, []. cbn [map]. rewrite app_nil_r. split; auto. change (zlen (@nil Z)) with 0.
      split; [lia|]. left. auto.
    - destruct H7 as [(H7 & H8 & H9)|(extra & H7 & H8)].
      + right. eexists. exists ids. split; [exact H7|]. split; auto. right. split; auto. split; auto. split; auto.
        exists ids, secs, last. auto 10.
      + left. eauto. }
  assert (Hwork : forall m s x d, zlen m <= 257 ->
     (zlen s <= Z.max 0 (fh_number_of_sat_sectors h) /\ zlen s * (ss / 4) <= 33554432 /\ zlen s <= 33554432) ->
     zlen x <= 257 -> zlen d <= 1025 ->
     forall t', t' = (((t ++ map (request ss) m) ++ map (request ss) s) ++ map (request ss) x) ++ map (request ss) d ->
     open_work h t t').
  { intros m s x d A1 A2 A3 A4 t' ->. exists m, s, x, d. rewrite !map_app, <- !app_assoc. auto. }
  destruct Hmsat as [(m & Hm & Lm)|(msat & m & Hm & Lm & Om)].
  { exists Err. eexists. split; [unfold ibind; rewrite Hm; reflexivity|]. split; [exact I|].
    split; [apply (Hwork m [] [] []); auto; try (change (zlen (@nil Z)) with 0; lia);
            cbn [map]; now rewrite !app_nil_r|]. discriminate. }
  erewrite ibind_step by exact Hm. set (t1 := t ++ map (request ss) m) in *.
  rewrite (ilift_step _ _ _ []) by reflexivity.
  assert (Hsat : exists sat s, read_sat rd e ss msat [] (fh_number_of_sat_sectors h) t1 = (Ok sat, t1 ++ map (request ss) s) /\
     (zlen s <= Z.max 0 (fh_number_of_sat_sectors h) /\ zlen s * (ss / 4) <= 33554432 /\ zlen s <= 33554432) /\
     Forall is_u32 sat /\ zlen sat <= 33554432 /\
     (4 <= ss -> sat_outcome rd e ss (used_ids msat) (table_sectors ss (fh_number_of_sat_sectors h)) t1 sat (t1 ++ map (request ss) s))).
  { destruct (Z_lt_ge_dec ss 4) as [Hlt|Hge].
    - exists [], []. rewrite read_sat_small by lia. cbn [map]. rewrite app_nil_r. split; auto.
      change (zlen (@nil Z)) with 0. split; [lia|]. split; [constructor|]. split; [lia|]. intros; lia.
    - destruct (read_sat_outcome rd e ss msat (fh_number_of_sat_sectors h) t1 Hp ltac:(lia)) as (sat & t2 & H1 & H2).
      destruct (sat_outcome_ok rd e ss _ _ _ _ _ ltac:(lia) HB H2) as (H3 & H4 & H5).
      set (K := table_sectors ss (fh_number_of_sat_sectors h)) in *.
      assert (HK : 0 <= K <= fh_number_of_sat_sectors h /\ K * (ss / 4) <= 33554432 /\ K <= 33554432).
      { pose proof (table_sectors_bound ss (fh_number_of_sat_sectors h) ltac:(lia)) as B1. fold K in B1.
        destruct (room_cases ss (fh_number_of_sat_sectors h) ltac:(lia)) as (B2 & _); [unfold is_u32 in Hns; lia|]. fold K in B2.
        assert (1 <= ss / 4) by (apply Z.div_le_lower_bound; lia). nia. }
      assert (HE0 : 0 <= ss / 4) by (apply Z.div_pos; lia).
      assert (Hb : forall n : nat, Z.of_nat n <= K -> 
        (Z.of_nat n <= Z.max 0 (fh_number_of_sat_sectors h) /\ Z.of_nat n * (ss / 4) <= 33554432 /\ Z.of_nat n <= 33554432)).
      { intros n Hn. destruct HK as (A1 & A2 & A3). split; [lia|]. split; [nia|lia]. }
      pose proof H2 as (k & secs & K1 & K2 & _ & _ & [[_ K3]|(id & K3 & K4 & _ & K5)]).
      + exists sat, (firstn k (used_ids msat)). rewrite <- K3. split; auto. rewrite zlen_firstn by lia. split; auto.
      + exists sat, (firstn (S k) (used_ids msat)). rewrite <- K5. split; auto.
        assert (k < length (used_ids msat))%nat by (apply nth_error_Some; congruence).
        rewrite zlen_firstn by lia. split; [apply Hb; lia|auto]. }
  destruct Hsat as (sat & s & Hs & Ls & Us & Zs & Os).
  erewrite ibind_step by exact Hs. set (t2 := t1 ++ map (request ss) s) in *.
  rewrite (ilift_step _ _ _ []) by reflexivity.
  assert (Hssat : exists ssat x, read_ssat rd e ss sat [] (fh_ssat_sector_identifier h) (fh_number_of_ssat_sectors h) t2 = (Ok ssat, t2 ++ map (request ss) x) /\
     zlen x <= 257 /\
     (4 <= ss -> ssat_outcome rd e ss sat (fh_ssat_sector_identifier h) (fh_number_of_ssat_sectors h)
         (table_sectors ss (fh_number_of_ssat_sectors h)) t2 ssat (t2 ++ map (request ss) x))).
  { destruct (Z_lt_ge_dec ss 4) as [Hlt|Hge].
    - destruct (read_ssat_small rd e ss sat (fh_ssat_sector_identifier h) (fh_number_of_ssat_sectors h) t2) as (x & H1 & H2); auto.
      exists [], x. split; auto. split; auto. intros; lia.
    - destruct (read_ssat_outcome rd e ss sat (fh_ssat_sector_identifier h) (fh_number_of_ssat_sectors h) t2)
        as (ssat & t3 & H1 & H2); auto; [lia|unfold is_u32 in *; lia|].
      pose proof H2 as (ids & secs & extra & _ & K1 & _ & _ & _ & _ & _ & K2 & _).
      exists ssat, (ids ++ extra). rewrite <- K1. auto. }
  destruct Hssat as (ssat & x & Hx & Lx & Ox).
  erewrite ibind_step by exact Hx. set (t3 := t2 ++ map (request ss) x) in *.
  destruct (read_directory_cases rd e ss sat (fh_root_directory_sector_identifier h) t3 Hp Us Zs Hr0)
    as [(d & Hd & Ld)|(H128 & Hm128 & _ & l & t4 & Hd & Od)].
  { exists Err. eexists. split; [unfold ibind; rewrite Hd; reflexivity|]. split; [exact I|].
    split; [apply (Hwork m s x d); auto|]. discriminate. }
  erewrite ibind_step by exact Hd.
  destruct (power_128 ss Hp Hm128) as (_ & Hss & _).
  destruct (directory_ok rd e ss _ _ _ _ _ HB ltac:(lia) Hss Od) as (El & _ & _).
  pose proof Od as (ids & secs & last & Kt & _ & _ & _ & Kl & _).
  assert (W : open_work h t t4) by (apply (Hwork m s x ids); auto).
  pose proof (create_tree_defined u e l Hu El) as Dt.
  destruct (create_tree u e l) as [tr| | |] eqn:Et; try (exfalso; exact Dt).
  - rewrite (ilift_step _ _ _ tr) by reflexivity.
    eexists. exists t4. split; [reflexivity|]. split; [exact I|]. split; auto.
    intros o [= <-]. unfold open_outcome. cbn [o_header o_msat o_sat o_ssat o_entries o_tree]. fold e ss.
    split; auto. split; [lia|]. split; auto.
    exists t1, t2, t3. split; auto. split; [apply Os; lia|]. split; [apply Ox; lia|]. split; auto.
  - exists Err, t4. split; [reflexivity|]. split; [exact I|]. split; auto. discriminate.
Qed.

Lemma open_read_cases u rd :
  una_ok u -> io_bytes rd ->
  exists r t', open_read u rd [] = (r, t') /\ defined r /\
    ((r = Err /\ t' = [(0, 512)]) \/
     (exists data e, rd [] 0 512 = Some data /\ zlen data = 512 /\ Forall is_byte data /\
        header_acceptable data e /\
        open_work (decoded e data) [(0, 512)] t' /\
        forall o, r = Ok o -> open_outcome u rd (decoded e data) (msat_of e data) [(0, 512)] o t')).
Proof.
  intros Hu HB. unfold open_read. change (table_initialize 109) with (Ok (zeros 109)).
  rewrite (ilift_step _ _ _ (zeros 109)) by reflexivity.
  unfold header_read. 
  destruct (read_exact_cases rd 0 512 []) as [(data & Hd1 & Hd2 & Hd3)|[Hd _]].
  2: { exists Err. eexists. split; [unfold ibind; rewrite Hd; reflexivity|]. split; [exact I|]. left. auto. }
  assert (Hby : Forall is_byte data) by (eapply HB; eauto).
  pose proof (header_read_data_defined data (zeros 109) eq_refl) as Hdef.
  destruct (header_read_data data (zeros 109)) as [[h m]| | |] eqn:Eh; try (exfalso; exact Hdef).
  - assert (Hstep : (dio data0 <- read_exact rd 0 512; ilift (header_read_data data0 (zeros 109))) []
                    = (Ok (h, m), [] ++ [(0, 512)])).
    { unfold ibind. rewrite Hd1. rewrite Eh. reflexivity. }
    erewrite ibind_step by exact Hstep. cbn beta iota.
    destruct (header_read_data_inv data (zeros 109) h m Hby eq_refl Eh) as (e & Hacc & -> & ->).
    destruct (open_tables_cases u rd (decoded e data) (msat_of e data) ([] ++ [(0, 512)]) Hu HB
                (decoded_fine e data Hby Hacc)) as (r & t' & H1 & H2 & H3 & H4).
    { unfold msat_of. rewrite zlen_values_from. reflexivity. }
    exists r, t'. split; auto. split; auto. right. exists data, e.
    auto 10.
  - exists Err. eexists. split; [unfold ibind; rewrite Hd1, Eh; reflexivity|]. split; [exact I|]. left. auto.
Qed.
