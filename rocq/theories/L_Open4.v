(** Entries of the tables of an opened file. *)
From Coq Require Import ZArith List Bool Lia ZifyBool ZifyNat Sorted.
From Verif Require Import Base Spec_IO Spec_Stream Spec_Load Spec_Open Spec_Tree L_Base M_Table M_Header M_Load
  M_Stream M_Tree M_Open L_Stream L_Load L_Load2 L_Header L_Tree L_Tree2 L_Tree3 L_Open L_Open2 L_Exact.
Import ListNotations.
Open Scope Z_scope.

Lemma zlen_sector f ss id : 0 < ss -> sector_inside f ss id -> zlen (sector_at f ss id) = ss.
Proof.
  intros Hss Hin. unfold sector_at. apply zlen_slice; [|lia|exact Hin].
  apply (request_nonneg ss id). lia.
Qed.

Lemma znth_words e s j : 0 <= j < zlen s / 4 -> znth (words e s) j = Some (value_at e s (4 * j) 4).
Proof.
  intros Hj. unfold words. unfold znth. destruct (j <? 0) eqn:E; [lia|].
  assert (Hl : (Z.to_nat j < length s / 4)%nat).
  { unfold zlen in Hj. rewrite <- (Nat2Z.id (length s / 4)), Nat2Z.inj_div. change (Z.of_nat 4) with 4. lia. }
  rewrite (map_nth_error _ _ _ (d := Z.to_nat j)).
  - do 2 f_equal. lia.
  - rewrite (nth_error_nth' _ 0%nat) by (rewrite seq_length; lia). now rewrite seq_nth by lia.
Qed.

Lemma zlen_words_sectors e f ss ids : 0 < ss -> Forall (sector_inside f ss) ids ->
  zlen (words_of_sectors e f ss ids) = zlen ids * (ss / 4).
Proof.
  intros Hss. induction 1 as [|i ids Hi _ IH]; [reflexivity|].
  cbn [words_of_sectors flat_map]. unfold words_of_sectors in IH. rewrite zlen_app, IH, zlen_cons, zlen_words, zlen_sector by auto. lia.
Qed.

Lemma znth_app_r {A} (a b : list A) i : zlen a <= i -> znth (a ++ b) i = znth b (i - zlen a).
Proof.
  intros H. pose proof (zlen_nonneg a). unfold znth.
  destruct (i <? 0) eqn:E1; [lia|]. destruct (i - zlen a <? 0) eqn:E2; [lia|].
  rewrite nth_error_app2 by (unfold zlen in *; lia). f_equal. unfold zlen. lia.
Qed.
Lemma znth_app_l {A} (a b : list A) i : i < zlen a -> znth (a ++ b) i = znth a i.
Proof.
  intros H. unfold znth. destruct (i <? 0) eqn:E1; auto. rewrite nth_error_app1 by (unfold zlen in *; lia). reflexivity.
Qed.

Lemma znth_words_sectors e f ss ids (k : nat) id j : 0 < ss -> Forall (sector_inside f ss) ids ->
  nth_error ids k = Some id -> 0 <= j < ss / 4 ->
  znth (words_of_sectors e f ss ids) (Z.of_nat k * (ss / 4) + j) = Some (value_at e (sector_at f ss id) (4 * j) 4).
Proof.
  intros Hss Hin. revert k. induction Hin as [|i ids Hi _ IH]; intros k Hk Hj; [destruct k; discriminate|].
  assert (Hl : zlen (words e (sector_at f ss i)) = ss / 4) by (rewrite zlen_words, zlen_sector by auto; reflexivity).
  cbn [words_of_sectors flat_map]. destruct k as [|k].
  - injection Hk as ->. rewrite znth_app_l by lia. rewrite Z.mul_0_l, Z.add_0_l. apply znth_words.
    rewrite zlen_sector by auto. lia.
  - cbn [nth_error] in Hk. rewrite znth_app_r by nia. rewrite Hl.
    replace (Z.of_nat (S k) * (ss / 4) + j - ss / 4) with (Z.of_nat k * (ss / 4) + j) by lia.
    unfold words_of_sectors in IH. now apply IH.
Qed.

Lemma znth_zeros n i v : znth (zeros n) i = Some v -> v = 0.
Proof.
  unfold znth, zeros. destruct (i <? 0); [discriminate|]. intros H.
  apply nth_error_In in H. now apply repeat_spec in H.
Qed.

Section Opened.
  Variable u : una.
  Variable rd : reader.
  Variable f : list Z.
  Hypothesis Hu : una_ok u.
  Hypothesis HB : io_bytes rd.
  Hypothesis HS : io_sound rd f.
  Variable o : opened.
  Variable t : trace.
  Hypothesis HO : open_read u rd [] = (Ok o, t).

  Lemma sat_facts : let h := o_header o in let ss := fh_sector_size h in let e := fh_byte_order h in
    let n := fh_number_of_sat_sectors h in let ids := used_ids (o_msat o) in
    128 <= ss /\ exists k room, 0 <= room <= n /\ (n * (ss / 4) <= 33554432 -> room = n) /\
      (33554432 < n * (ss / 4) < 2147483648 -> room = 0) /\
      Z.of_nat k <= room /\ (k <= length ids)%nat /\ Forall (sector_inside f ss) (firstn k ids) /\
      Forall (fun id => exists s, delivered rd ss id s) (firstn k ids) /\
      o_sat o = words_of_sectors e f ss (firstn k ids) ++ zeros ((room - Z.of_nat k) * (ss / 4)) /\
      (Z.of_nat k = room \/ k = length ids \/
       exists id tr, nth_error ids k = Some id /\ refused rd ss id tr).
  Proof.
    cbn zeta. destruct (opened_header u rd Hu HB o t HO) as (HF & Hss & _). split; [lia|].
    destruct (opened_outcome u rd Hu HB o t HO) as (data & e & _ & _ & _ & _ & Hh & _ & _ & _ & t1 & t2 & t3 & _ & HT & _).
    rewrite <- Hh in HT. destruct HT as (k & secs & H1 & H2 & H3 & H4 & H5).
    destruct (room_cases (fh_sector_size (o_header o)) (fh_number_of_sat_sectors (o_header o)))
      as (R1 & R2 & R3); [lia|pose proof (hf_nsat _ HF) as X; unfold is_u32 in X; lia|].
    exists k, (table_sectors (fh_sector_size (o_header o)) (fh_number_of_sat_sectors (o_header o))).
    split; auto. split; auto. split; auto. split; auto. split; auto.
    destruct (delivered_sectors rd f (fh_sector_size (o_header o)) _ _ HS ltac:(lia) H3) as [-> Hin]. rewrite sector_words_file in H4.
    split; auto. split.
    { clear - H3. induction H3; constructor; eauto. }
    split; auto. destruct H5 as [[[H5|H5] _]|(id & _ & H5 & H6 & _)]; auto.
    right; right. eauto.
  Qed.

  (** The size of the table. *)
  Lemma sat_size : let h := o_header o in let E := fh_sector_size h / 4 in let n := fh_number_of_sat_sectors h in
    n * E <= 33554432 -> zlen (o_sat o) = n * E.
  Proof.
    cbn zeta. intros Hn. destruct sat_facts as (H128 & k & room & R1 & R2 & _ & K1 & K2 & K3 & K6 & K4 & _).
    rewrite (R2 Hn) in *. rewrite K4, zlen_app, zlen_words_sectors by (auto; lia).
    assert (0 <= fh_sector_size (o_header o) / 4) by (apply Z.div_pos; lia).
    rewrite zlen_firstn by auto. rewrite zlen_zeros by nia. lia.
  Qed.

  (** Entries of sectors that can be read. *)
  Lemma sat_entry (k : nat) id j : let h := o_header o in let ss := fh_sector_size h in
    let n := fh_number_of_sat_sectors h in let ids := used_ids (o_msat o) in
    n * (ss / 4) <= 33554432 -> Z.of_nat k < n -> nth_error ids k = Some id ->
    (forall i, In i (firstn (S k) ids) -> forall tr, ~ refused rd ss i tr) ->
    0 <= j < ss / 4 ->
    znth (o_sat o) (Z.of_nat k * (ss / 4) + j) = Some (value_at (fh_byte_order h) (sector_at f ss id) (4 * j) 4).
  Proof.
    cbn zeta. intros Hn Hk Hid Hr Hj.
    destruct sat_facts as (H128 & k0 & room & R1 & R2 & _ & K1 & K2 & K3 & K7 & K4 & K5).
    rewrite (R2 Hn) in *. clear R1 R2 room.
    assert (Hkl : (k < length (used_ids (o_msat o)))%nat) by (apply nth_error_Some; congruence).
    assert (Hlt : (k < k0)%nat).
    { destruct K5 as [K5|[K5|(x & tr & K5 & K6)]]; [lia|lia|].
      destruct (Nat.lt_ge_cases k k0) as [|Hge]; auto. exfalso. apply (Hr x) with tr; auto.
      apply nth_error_In with (n := k0). rewrite <- (firstn_skipn (S k) (used_ids (o_msat o))) in K5.
      rewrite nth_error_app1 in K5; auto. rewrite firstn_length. lia. }
    assert (Hk' : nth_error (firstn k0 (used_ids (o_msat o))) k = Some id).
    { rewrite <- (firstn_skipn k0 (used_ids (o_msat o))) in Hid. rewrite nth_error_app1 in Hid; auto.
      rewrite firstn_length. lia. }
    rewrite K4. rewrite znth_app_l.
    - apply znth_words_sectors; auto. lia.
    - rewrite zlen_words_sectors by (auto; lia). rewrite zlen_firstn by auto. nia.
  Qed.

  (** The entries after an unreadable sector are 0. *)
  Lemma sat_unreadable (k : nat) id i v : let h := o_header o in let ss := fh_sector_size h in
    let ids := used_ids (o_msat o) in
    nth_error ids k = Some id -> (forall tr, refused rd ss id tr) ->
    Z.of_nat k * (ss / 4) <= i -> znth (o_sat o) i = Some v -> v = 0.
  Proof.
    cbn zeta. intros Hid Hr Hi Hv.
    destruct sat_facts as (H128 & k0 & room & R1 & _ & _ & K1 & K2 & K3 & K6 & K4 & _).
    assert (Hle : (k0 <= k)%nat).
    { destruct (Nat.le_gt_cases k0 k) as [|Hgt]; auto. exfalso.
      assert (Hx : In id (firstn k0 (used_ids (o_msat o)))).
      { apply nth_error_In with (n := k). rewrite <- (firstn_skipn k0 (used_ids (o_msat o))) in Hid.
        rewrite nth_error_app1 in Hid; auto. rewrite firstn_length. lia. }
      rewrite Forall_forall in K6. destruct (K6 id Hx) as (s & tr & Hs & Hl). exact (Hr tr s Hs Hl). }
    rewrite K4 in Hv. rewrite znth_app_r in Hv.
    - eapply znth_zeros; eauto.
    - rewrite zlen_words_sectors by (auto; lia). rewrite zlen_firstn by auto.
      assert (0 <= fh_sector_size (o_header o) / 4) by (apply Z.div_pos; lia). nia.
  Qed.
End Opened.
