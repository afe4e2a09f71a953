(** Lemmas on the contents of an opened file. *)
From Coq Require Import ZArith List Bool Lia ZifyBool ZifyNat Sorted.
From Verif Require Import Base Spec_IO Spec_Stream Spec_Load Spec_Open Spec_Tree L_Base M_Table M_Header M_Load
  M_Stream M_Tree M_Open L_Load L_Load2 L_Header L_Tree L_Tree2 L_Tree3 L_Open.
Import ListNotations.
Open Scope Z_scope.

(** * Delivered sectors are sectors of the file *)
Lemma request_nonneg ss id : 0 <= ss -> 0 <= fst (request ss id).
Proof. intros. cbn. pose proof (Z.mod_pos_bound (id + 1) 4294967296 ltac:(lia)). nia. Qed.

Lemma delivered_sector rd f ss id s : io_sound rd f -> 0 < ss -> delivered rd ss id s ->
  s = sector_at f ss id /\ sector_inside f ss id.
Proof.
  intros HS Hss (tr & H & Hl). destruct (HS tr _ _ _ (request_nonneg ss id ltac:(lia)) Hss H Hl) as [H1 H2].
  split; auto.
Qed.

Lemma delivered_sectors rd f ss ids secs : io_sound rd f -> 0 < ss -> Forall2 (delivered rd ss) ids secs ->
  secs = map (sector_at f ss) ids /\ Forall (sector_inside f ss) ids.
Proof.
  intros HS Hss. induction 1 as [|id s ids secs Hd _ [IH1 IH2]]; [split; constructor|].
  destruct (delivered_sector _ _ _ _ _ HS Hss Hd) as [H1 H2]. cbn [map]. split; [congruence|constructor; auto].
Qed.

Lemma refused_outside rd f ss id tr : io_total rd f -> 0 < ss -> refused rd ss id tr -> ~ sector_inside f ss id.
Proof.
  intros HT Hss HR Hin. destruct (HT tr _ _ (request_nonneg ss id ltac:(lia)) Hss Hin) as (l & H1 & H2).
  exact (HR _ H1 H2).
Qed.

Lemma concat_map_flat {A B} (f : A -> list B) l : concat (map f l) = flat_map f l.
Proof. symmetry. apply flat_map_concat_map. Qed.

Lemma sector_words_file e f ss ids :
  sector_words e (map (sector_at f ss) ids) = words_of_sectors e f ss ids.
Proof. unfold sector_words, words_of_sectors. rewrite map_map. apply concat_map_flat. Qed.

Lemma bytes_file f ss ids : concat (map (sector_at f ss) ids) = bytes_of_sectors f ss ids.
Proof. apply concat_map_flat. Qed.

Lemma msat_contents_file e f ss ids :
  msat_contents e (map (sector_at f ss) ids) = master_values e f ss ids.
Proof. unfold msat_contents, master_values. rewrite map_map. apply concat_map_flat. Qed.

Lemma master_chain_file e f ss first ids last :
  msat_chain e first ids (map (sector_at f ss) ids) last -> master_chain e f ss first ids last.
Proof.
  revert first. induction ids as [|i ids IH]; intros first H; inversion H; subst; constructor; auto.
Qed.

(** * An opened file *)
Section Opened.
  Variable u : una.
  Variable rd : reader.
  Hypothesis Hu : una_ok u.
  Hypothesis HB : io_bytes rd.
  Variable o : opened.
  Variable t : trace.
  Hypothesis HO : open_read u rd [] = (Ok o, t).

  Lemma opened_outcome : exists data e,
    rd [] 0 512 = Some data /\ zlen data = 512 /\ Forall is_byte data /\ header_acceptable data e /\
    o_header o = decoded e data /\
    open_outcome u rd (decoded e data) (msat_of e data) [(0, 512)] o t.
  Proof.
    destruct (open_read_cases u rd Hu HB) as (r & t' & H1 & _ & [(-> & _)|(data & e & H2 & H3 & H4 & H5 & _ & H6)]).
    - congruence.
    - assert (r = Ok o /\ t' = t) as [-> ->] by (split; congruence).
      exists data, e. pose proof (H6 o eq_refl) as HO'. pose proof HO' as (Hh & _). auto 10.
  Qed.

  Lemma opened_header : header_fine (o_header o) /\
    128 <= fh_sector_size (o_header o) <= 32768 /\
    fh_sector_size (o_header o) = 128 * (fh_sector_size (o_header o) / 128).
  Proof.
    destruct opened_outcome as (data & e & _ & _ & Hb & Ha & -> & _ & H1 & H2 & _).
    split; [now apply decoded_fine|]. auto.
  Qed.

  Lemma opened_entries : entries_ok (o_entries o) /\ Forall dirent_ok (o_entries o) /\
    StronglySorted (fun a b => de_id a < de_id b) (o_entries o).
  Proof.
    destruct opened_outcome as (data & e & _ & _ & Hb & Ha & _ & _ & H1 & H2 & t1 & t2 & t3 & _ & _ & _ & HD & _).
    eapply directory_ok; eauto.
  Qed.

  Lemma opened_tree : create_tree u (fh_byte_order (o_header o)) (o_entries o) = Ok (o_tree o).
  Proof.
    destruct opened_outcome as (data & e & _ & _ & Hb & Ha & -> & _ & _ & _ & t1 & t2 & t3 & _ & _ & _ & _ & HT).
    exact HT.
  Qed.

  Lemma opened_volume_ok : volume_ok (opened_volume o).
  Proof.
    pose proof opened_entries as (_ & Hd & _).
    assert (Hst : is_u32 (match o_tree o with Some tr => tr_container_start tr | None => 0 end)).
    { destruct (o_tree o) as [tr|] eqn:Et; [|apply u32_zero].
      pose proof opened_tree as HT. rewrite Et in HT.
      destruct (create_tree_made _ _ _ _ Hu (proj1 opened_entries) HT) as (root & _ & Hin & _ & _ & -> & _).
      exact (do_sector _ (proj1 (Forall_forall _ _) Hd _ Hin)). }
    destruct opened_header as (HF & Hss & _).
    destruct opened_outcome as (data & e & _ & _ & Hb & Ha & Hh & _ & _ & _ & t1 & t2 & t3 & _ & HS & HSS & _ & _).
    rewrite <- Hh in HS, HSS.
    assert (H4 : 4 <= fh_sector_size (o_header o)) by lia.
    destruct (sat_outcome_ok _ _ _ _ _ _ _ _ H4 HB HS) as (A1 & _ & A2).
    destruct (ssat_outcome_ok _ _ _ _ _ _ _ _ _ H4 HB HSS) as (B1 & _ & B2).
    constructor; cbn [opened_volume v_sector_size v_short_sector_size v_sat v_ssat v_container_start v_minimum_size]; auto.
    - destruct (hf_ss _ HF) as (a & Ha1 & Ha2). exists a. split; [|exact Ha2].
      split; [|apply Ha1]. rewrite Ha2 in Hss.
      assert (~ a < 7); [|lia]. intros Hlt. assert (2 ^ a <= 2 ^ 6) by (apply Z.pow_le_mono_r; lia).
      change (2 ^ 6) with 64 in *. lia.
    - apply (hf_sss _ HF).
    - apply (hf_min _ HF).
  Qed.

  (** The tables. *)
  Lemma opened_msat_len : zlen (o_msat o) <= 33554432 + 109.
  Proof.
    destruct opened_outcome as (data & e & _ & _ & _ & _ & _ & _ & _ & _ & t1 & t2 & t3 & HM & _).
    eapply msat_outcome_len; eauto. unfold msat_of. now rewrite zlen_values_from.
  Qed.

  Lemma opened_sat f : io_sound rd f ->
    let h := o_header o in
    let ss := fh_sector_size h in
    let e := fh_byte_order h in
    let n := fh_number_of_sat_sectors h in
    let ids := used_ids (o_msat o) in
    exists (k : nat) room,
      0 <= room <= n /\ (n * (ss / 4) <= 33554432 -> room = n) /\
      (33554432 < n * (ss / 4) < 2147483648 -> room = 0) /\
      Z.of_nat k <= room /\ (k <= length ids)%nat /\
      o_sat o = words_of_sectors e f ss (firstn k ids) ++ zeros ((room - Z.of_nat k) * (ss / 4)) /\
      (Z.of_nat k = room \/ k = length ids \/
       exists id tr, nth_error ids k = Some id /\ refused rd ss id tr).
  Proof.
    intros HS. destruct opened_header as (HF & Hss & _).
    destruct opened_outcome as (data & e & _ & _ & _ & _ & Hh & _ & _ & _ & t1 & t2 & t3 & _ & HT & _).
    rewrite <- Hh in HT. cbn zeta. destruct HT as (k & secs & H1 & H2 & H3 & H4 & H5).
    destruct (room_cases (fh_sector_size (o_header o)) (fh_number_of_sat_sectors (o_header o)))
      as (R1 & R2 & R3); [lia|pose proof (hf_nsat _ HF) as X; unfold is_u32 in X; lia|].
    exists k, (table_sectors (fh_sector_size (o_header o)) (fh_number_of_sat_sectors (o_header o))).
    split; auto. split; auto. split; auto. split; auto. split; auto.
    destruct (delivered_sectors rd f (fh_sector_size (o_header o)) _ _ HS ltac:(lia) H3) as [-> _]. rewrite sector_words_file in H4.
    split; auto. destruct H5 as [[[H5|H5] _]|(id & _ & H5 & H6 & _)]; auto.
    right; right. eauto.
  Qed.

  Lemma opened_ssat f : io_sound rd f ->
    let h := o_header o in
    let ss := fh_sector_size h in
    let e := fh_byte_order h in
    let n := fh_number_of_ssat_sectors h in
    exists ids room,
      0 <= room <= n /\ (n * (ss / 4) <= 33554432 -> room = n) /\
      (33554432 < n * (ss / 4) < 2147483648 -> room = 0) /\
      zlen ids <= room /\ zlen ids <= 257 /\
      chain_start (o_sat o) (fh_ssat_sector_identifier h) ids /\
      Forall (fun id => id <> EOC /\ id <> FREE) ids /\
      o_ssat o = words_of_sectors e f ss ids ++ zeros ((room - zlen ids) * (ss / 4)) /\
      (zlen ids = room \/ zlen ids = 257 \/
       (forall x, ~ nth_sector (o_sat o) (fh_ssat_sector_identifier h) (length ids) x) \/
       exists x, nth_sector (o_sat o) (fh_ssat_sector_identifier h) (length ids) x /\
                 (x = EOC \/ x = FREE \/ exists tr, refused rd ss x tr)).
  Proof.
    intros HS. destruct opened_header as (HF & Hss & _).
    destruct opened_outcome as (data & e & _ & _ & _ & _ & Hh & _ & _ & _ & t1 & t2 & t3 & _ & _ & HT & _).
    rewrite <- Hh in HT. cbn zeta.
    destruct HT as (ids & secs & extra & H1 & _ & H3 & H4 & H5 & H6 & H7 & H8 & H9).
    destruct (room_cases (fh_sector_size (o_header o)) (fh_number_of_ssat_sectors (o_header o)))
      as (R1 & R2 & R3); [lia|pose proof (hf_nssat _ HF) as X; unfold is_u32 in X; lia|].
    exists ids, (table_sectors (fh_sector_size (o_header o)) (fh_number_of_ssat_sectors (o_header o))).
    split; auto. split; auto. split; auto. split; auto.
    split; [rewrite zlen_app in H8; pose proof (zlen_nonneg extra); lia|].
    split; auto. split; auto.
    destruct (delivered_sectors rd f (fh_sector_size (o_header o)) _ _ HS ltac:(lia) H3) as [-> _]. rewrite sector_words_file in H1.
    split; auto. destruct H9 as [H9|[H9|[H9|[(x & H9 & H10)|H9]]]]; auto.
    - left. lia.
    - right; right; right. exists x. split; auto. destruct H10 as [?|[?|?]]; eauto.
  Qed.

  Lemma opened_msat f : io_sound rd f ->
    let h := o_header o in
    let ss := fh_sector_size h in
    let e := fh_byte_order h in
    let id := fh_msat_sector_identifier h in
    let n := fh_number_of_msat_sectors h in
    let header_part := map (fun k => value_at e (slice f 0 512) (76 + 4 * Z.of_nat k) 4) (seq 0 109) in
    (id = EOC /\ n = 0 /\ o_msat o = header_part) \/
    (id <> EOC /\
     let m := if n =? 0 then 1 else n in
     (109 + m * (ss / 4 - 1) < 2147483648 ->
      109 + m * (ss / 4 - 1) <= 33554432 /\
      exists ids last, master_chain e f ss id ids last /\ zlen ids <= 257 /\ zlen ids <= m /\
        o_msat o = header_part ++ master_values e f ss ids ++ zeros ((m - zlen ids) * (ss / 4 - 1)) /\
        (last = EOC \/ (zlen ids = m /\ m <= 256)))).
  Proof.
    intros HS. destruct opened_header as (HF & Hss & _).
    destruct opened_outcome as (data & e & Hd & Hl & _ & _ & Hh & _ & _ & _ & t1 & t2 & t3 & HT & _).
    cbn zeta. assert (He : fh_byte_order (o_header o) = e) by (now rewrite Hh). rewrite He.
    rewrite <- Hh in HT. rewrite He in HT.
    destruct (HS [] 0 512 data ltac:(lia) ltac:(lia) Hd Hl) as [_ Hdata].
    assert (Hm : msat_of e data = map (fun k => value_at e (slice f 0 512) (76 + 4 * Z.of_nat k) 4) (seq 0 109)).
    { rewrite <- Hdata. reflexivity. }
    rewrite <- Hm.
    destruct HT as [(H1 & H2 & H3 & _)|(H1 & H2 & H3 & ids & secs & last & C1 & C2 & C3 & C4 & _ & C5 & C6)]; [now left|].
    right. split; auto. set (m := if fh_number_of_msat_sectors (o_header o) =? 0 then 1 else fh_number_of_msat_sectors (o_header o)) in *.
    set (E := fh_sector_size (o_header o) / 4) in *.
    assert (HE : 32 <= E) by (apply Z.div_le_lower_bound; lia).
    assert (Hm1 : 1 <= m).
    { unfold m. pose proof (hf_nmsat _ HF) as X. unfold is_u32 in X. destruct (_ =? 0) eqn:Y; lia. }
    intros Hsmall.
    assert (Htot : msat_total (fh_sector_size (o_header o)) (fh_number_of_msat_sectors (o_header o)) = 109 + m * (E - 1)).
    { unfold msat_total. fold m E. unfold s32. rewrite Z.mod_small by (unfold TWO32; nia). cbn zeta.
      change INT_MAX with 2147483647. destruct (_ <=? _) eqn:X; lia. }
    rewrite Htot in *.
    assert (HM : Z.max 0 (109 + m * (E - 1) - 109) = m * (E - 1)) by nia. rewrite HM in *.
    split; auto. exists ids, last.
    destruct (delivered_sectors rd f (fh_sector_size (o_header o)) _ _ HS ltac:(lia) C2) as [Hsec _]. subst secs.
    split; [now apply master_chain_file|]. split; auto. split; [nia|].
    rewrite msat_contents_file in C4. split; [rewrite C4; do 3 f_equal; lia|].
    destruct C6 as [C6|[C6 C7]]; auto. right. assert (zlen ids = m) by nia. lia.
  Qed.

  Lemma opened_directory f : io_sound rd f ->
    let h := o_header o in
    let ss := fh_sector_size h in
    let e := fh_byte_order h in
    exists ids last,
      chain_start (o_sat o) (fh_root_directory_sector_identifier h) ids /\ NoDup ids /\ zlen ids <= 1025 /\
      Forall (fun id => id <> EOC /\ id <> FREE) ids /\
      nth_sector (o_sat o) (fh_root_directory_sector_identifier h) (length ids) last /\
      (last = EOC \/ last = FREE \/ (In last ids /\ zlen ids <= 1024)) /\
      map fields_of (o_entries o) =
        slots_entries e (bytes_of_sectors f ss ids) (length ids * Z.to_nat (ss / 128)) /\
      forall k, (k < length ids * Z.to_nat (ss / 128))%nat ->
        ~ long_name e (slot_of (bytes_of_sectors f ss ids) k).
  Proof.
    intros HS. destruct opened_header as (HF & Hss & Hss128).
    destruct opened_outcome as (data & e & _ & _ & _ & _ & Hh & _ & _ & _ & t1 & t2 & t3 & _ & _ & _ & HT & _).
    rewrite <- Hh in HT. cbn zeta.
    destruct HT as (ids & secs & last & _ & H2 & H3 & H4 & H5 & H6 & H7 & H8 & H9 & H10).
    exists ids, last.
    destruct (delivered_sectors rd f (fh_sector_size (o_header o)) _ _ HS ltac:(lia) H2) as [Hsec _].
    rewrite Hsec, bytes_file in H10.
    split; auto. split; auto. split; auto. split; auto. split; auto. split; auto. split; auto.
    (* no long names *)
    set (ss := fh_sector_size (o_header o)) in *.
    set (N := Z.to_nat (ss / 128)) in *. rewrite <- bytes_file, <- Hsec.
    assert (HssN : ss = 128 * Z.of_nat N) by (unfold N; rewrite Z2Nat.id; lia).
    assert (HN : (1 <= N)%nat) by lia.
    assert (Hlen : Forall (fun s => zlen s = ss) secs).
    { clear - H2. induction H2 as [|i s ids secs Hd _ IH]; constructor; auto. eapply delivered_len; eauto. }
    assert (Hli : length ids = length secs) by (clear - H2; induction H2; cbn [length]; congruence).
    rewrite Hli. clear - HssN HN H9 Hlen.
    intros k Hk [L1 L2].
    (* slot k lies in sector k / N *)
    revert k Hk L1 L2. induction secs as [|s secs IH]; intros k Hk L1 L2; [cbn in Hk; lia|].
    inversion H9 as [|x y Hb H9']; subst. inversion Hlen as [|x y Hs Hlen']; subst.
    cbn [concat] in L1, L2.
    destruct (Nat.lt_ge_cases k N) as [Hlt|Hge].
    - assert (Heq : slot_of (s ++ concat secs) k = slot_of s k).
      { unfold slot_of. rewrite slice_app_l by lia. reflexivity. }
      rewrite Heq in *. apply Hb. exists k. unfold slot_empty in L1. auto.
    - assert (Heq : slot_of (s ++ concat secs) k = slot_of (concat secs) (k - N)).
      { unfold slot_of. replace (128 * Z.of_nat k) with (zlen s + 128 * Z.of_nat (k - N)) by lia.
        now rewrite slice_app_r by lia. }
      rewrite Heq in *. apply (IH H9' Hlen' (k - N)%nat); auto. cbn [length] in Hk. lia.
  Qed.
End Opened.
