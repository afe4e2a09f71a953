(** Lemmas on written files: the directory. *)
From Coq Require Import ZArith List Bool Lia.
From Verif Require Import Base Spec_IO M_Header M_Table M_Load M_Stream M_Tree M_Open M_Item
  Spec_Stream Spec_Load Spec_Tree Spec_Open Spec_Content Spec_Write L_Base L_Load L_Load2 L_Header L_Stream L_Open2 L_Write.
Import ListNotations.
Open Scope Z_scope.

(** * Slots *)
Record entry_fits (d : dirent) : Prop := {
  ft_name : name_fits (de_name d);
  ft_type : 1 <= de_type d <= 5;
  ft_prev : is_u32 (de_prev d);
  ft_next : is_u32 (de_next d);
  ft_sub : is_u32 (de_sub d);
  ft_ctime : 0 <= de_ctime d < 2 ^ 64;
  ft_mtime : 0 <= de_mtime d < 2 ^ 64;
  ft_sector : is_u32 (de_sector d);
  ft_size : is_u32 (de_size d)
}.

Definition w_slot_parts (fm : format) (d : dirent) : list (list Z) :=
  let e := fm_order fm in
  [de_name d; zeros (64 - zlen (de_name d)); bytes_of e 2 (zlen (de_name d)); [de_type d]; [0];
   bytes_of e 4 (de_prev d); bytes_of e 4 (de_next d); bytes_of e 4 (de_sub d); zeros 16; zeros 4;
   bytes_of e 8 (de_ctime d); bytes_of e 8 (de_mtime d); bytes_of e 4 (de_sector d);
   bytes_of e 4 (de_size d); zeros 4].

Lemma zlen_w_slot fm d : entry_fits d -> zlen (w_slot fm d) = 128.
Proof.
  intros H. destruct (ft_name d H) as [Hn _]. pose proof (zlen_nonneg (de_name d)). unfold w_slot. cbn [concat]. rewrite !zlen_app, !zlen_bytes_of.
  rewrite !zlen_zeros by lia. rewrite !zlen_cons, !zlen_nil. lia.
Qed.

Lemma w_slot_bytes fm d : entry_fits d -> Forall is_byte (w_slot fm d).
Proof.
  intros H. destruct (ft_name d H) as [_ Hn]. unfold w_slot. cbn [concat].
  assert (Hz : forall n, Forall is_byte (zeros n)) by (intros n; apply Forall_zeros; unfold is_byte; lia).
  pose proof (ft_type d H).
  repeat (apply Forall_app; split); auto using bytes_of_byte; repeat constructor; unfold is_byte; lia.
Qed.

Lemma w_slot_fields fm d k : entry_fits d -> de_id d = k -> slot_fields (fm_order fm) k (w_slot fm d) = fields_of d.
Proof.
  intros H Hid. destruct H as [[Hn Hby] Ht H1 H2 H3 H4 H5 H6 H7]. pose proof (zlen_nonneg (de_name d)) as Hn0.
  unfold w_slot. fold (w_slot_parts fm d). set (parts := w_slot_parts fm d). set (e := fm_order fm) in *.
  assert (V : forall i n x p v, nth_error parts i = Some (bytes_of e n x) -> v = Z.of_nat n ->
            0 <= x < 256 ^ v -> parts_length (firstn i parts) = p -> value_at e (concat parts) p v = x).
  { intros i n x p v E1 -> E2 E3. unfold value_at.
    rewrite (slice_concat _ i (bytes_of e n x)); auto using zlen_bytes_of, value_bytes_of. }
  unfold is_u32 in *.
  assert (V64 : value_at e (concat parts) 64 2 = zlen (de_name d)).
  { apply (V 2%nat 2%nat); [reflexivity|reflexivity|change (256 ^ 2) with 65536; lia|].
    unfold parts, w_slot_parts. cbn [firstn parts_length]. rewrite zlen_zeros by lia. lia. }
  unfold slot_fields, fields_of. rewrite V64. f_equal; auto.
  - unfold value_at. rewrite (slice_concat _ 3 [de_type d]); auto; [destruct e; cbn; lia|].
    unfold parts, w_slot_parts. cbn [firstn parts_length]. rewrite ?zlen_zeros, ?zlen_bytes_of by lia. lia.
  - change (slice (concat parts) 0 (zlen (de_name d)) = de_name d). rewrite (slice_concat _ 0 (de_name d)); auto.
  - apply (V 5%nat 4%nat); [reflexivity|reflexivity|change (256 ^ 4) with 4294967296; lia|].
    unfold parts, w_slot_parts. cbn [firstn parts_length]. rewrite ?zlen_zeros, ?zlen_bytes_of, ?zlen_cons, ?zlen_nil by lia. lia.
  - apply (V 6%nat 4%nat); [reflexivity|reflexivity|change (256 ^ 4) with 4294967296; lia|].
    unfold parts, w_slot_parts. cbn [firstn parts_length]. rewrite ?zlen_zeros, ?zlen_bytes_of, ?zlen_cons, ?zlen_nil by lia. lia.
  - apply (V 7%nat 4%nat); [reflexivity|reflexivity|change (256 ^ 4) with 4294967296; lia|].
    unfold parts, w_slot_parts. cbn [firstn parts_length]. rewrite ?zlen_zeros, ?zlen_bytes_of, ?zlen_cons, ?zlen_nil by lia. lia.
  - apply (V 10%nat 8%nat); [reflexivity|reflexivity|change (256 ^ 8) with (2 ^ 64); lia|].
    unfold parts, w_slot_parts. cbn [firstn parts_length]. rewrite ?zlen_zeros, ?zlen_bytes_of, ?zlen_cons, ?zlen_nil by lia. lia.
  - apply (V 11%nat 8%nat); [reflexivity|reflexivity|change (256 ^ 8) with (2 ^ 64); lia|].
    unfold parts, w_slot_parts. cbn [firstn parts_length]. rewrite ?zlen_zeros, ?zlen_bytes_of, ?zlen_cons, ?zlen_nil by lia. lia.
  - apply (V 12%nat 4%nat); [reflexivity|reflexivity|change (256 ^ 4) with 4294967296; lia|].
    unfold parts, w_slot_parts. cbn [firstn parts_length]. rewrite ?zlen_zeros, ?zlen_bytes_of, ?zlen_cons, ?zlen_nil by lia. lia.
  - apply (V 13%nat 4%nat); [reflexivity|reflexivity|change (256 ^ 4) with 4294967296; lia|].
    unfold parts, w_slot_parts. cbn [firstn parts_length]. rewrite ?zlen_zeros, ?zlen_bytes_of, ?zlen_cons, ?zlen_nil by lia. lia.
Qed.

Lemma zlen_slots fm l : Forall entry_fits l -> zlen (flat_map (w_slot fm) l) = 128 * zlen l.
Proof. induction 1 as [|d l Hd _ IH]; [reflexivity|]. cbn [flat_map]. rewrite zlen_app, zlen_cons, IH, zlen_w_slot by exact Hd. lia. Qed.

Lemma slot_of_slots fm l k d post : Forall entry_fits l -> nth_error l k = Some d ->
  slot_of (flat_map (w_slot fm) l ++ post) k = w_slot fm d.
Proof.
  intros H. revert k. induction H as [|a l Ha _ IH]; intros k Hk; [destruct k; discriminate Hk|].
  unfold slot_of in *. cbn [flat_map]. rewrite <- app_assoc. destruct k as [|k].
  - injection Hk as ->. change (128 * Z.of_nat 0) with 0.
    rewrite slice_app_l by (rewrite ?zlen_w_slot by exact Ha; lia). apply slice_all. now apply zlen_w_slot.
  - replace (128 * Z.of_nat (S k)) with (zlen (w_slot fm a) + 128 * Z.of_nat k) by (rewrite zlen_w_slot by exact Ha; lia).
    rewrite slice_app_r by lia. now apply IH.
Qed.

Lemma slot_of_zeros fm l n k : Forall entry_fits l -> (length l <= k)%nat ->
  value_at Little (slot_of (flat_map (w_slot fm) l ++ repeat 0 n) k) 66 1 = 0.
Proof.
  intros Hl Hk. unfold slot_of. replace (128 * Z.of_nat k) with (zlen (flat_map (w_slot fm) l) + 128 * (Z.of_nat k - zlen l))
    by (rewrite zlen_slots by exact Hl; lia). rewrite slice_app_r by (unfold zlen; lia).
  assert (H0 : forall m, Forall (fun x => x = 0) m -> le_value m = 0).
  { clear. induction 1 as [|x m -> _ IH]; [reflexivity|]. cbn [le_value]. lia. }
  unfold value_at, value. apply H0. do 2 apply Forall_slice. now apply Forall_repeat.
Qed.

Lemma flat_map_nth {A B} (g : nat -> list B) (h : A -> B) (l : list A) base :
  (forall k d, nth_error l k = Some d -> g (base + k)%nat = [h d]) -> flat_map g (seq base (length l)) = map h l.
Proof.
  revert base. induction l as [|a l IH]; intros base H; [reflexivity|]. cbn [length seq flat_map map].
  rewrite <- (Nat.add_0_r base) at 1. rewrite (H O a eq_refl). cbn [app]. f_equal. apply IH. intros k d Hk.
  replace (S base + k)%nat with (base + S k)%nat by lia. now apply H.
Qed.

Lemma flat_map_nil {A B} (g : A -> list B) l : (forall x, In x l -> g x = []) -> flat_map g l = [].
Proof. induction l as [|a l IH]; intros H; [reflexivity|]. cbn. rewrite H by (now left). apply IH. intros x Hx. apply H. now right. Qed.

Lemma slots_entries_slots fm l n m : Forall entry_fits l -> (forall k d, nth_error l k = Some d -> de_id d = Z.of_nat k) ->
  slots_entries (fm_order fm) (flat_map (w_slot fm) l ++ repeat 0 n) (length l + m) = map fields_of l.
Proof.
  intros Hl Hid. unfold slots_entries. rewrite seq_app, flat_map_app. cbn [Nat.add]. rewrite <- (app_nil_r (map fields_of l)). f_equal.
  - apply flat_map_nth. intros k d Hk. cbn [Nat.add]. rewrite (slot_of_slots fm l k d _ Hl Hk).
    assert (Hd : entry_fits d) by (eapply Forall_forall; [exact Hl|eapply nth_error_In, Hk]).
    pose proof (w_slot_fields fm d (Z.of_nat k) Hd (Hid k d Hk)) as HF. rewrite HF.
    assert (Ht : value_at Little (w_slot fm d) 66 1 = de_type d).
    { pose proof (f_equal ef_type HF) as E. cbn [slot_fields fields_of ef_type] in E. rewrite <- E.
      unfold value_at, value. destruct (fm_order fm); [reflexivity|].
      pose proof (zlen_slice (w_slot fm d) 66 1 ltac:(lia) ltac:(lia) ltac:(rewrite zlen_w_slot by exact Hd; lia)) as Hz.
      destruct (slice (w_slot fm d) 66 1) as [|x [|y r]]; [discriminate Hz|reflexivity|].
      rewrite !zlen_cons in Hz. pose proof (zlen_nonneg r). lia. }
    rewrite Ht. pose proof (ft_type d Hd). replace (de_type d =? 0) with false by lia. reflexivity.
  - apply flat_map_nil. intros k Hk. apply in_seq in Hk. rewrite slot_of_zeros by (auto; lia). reflexivity.
Qed.

Lemma slots_not_long fm l n k : Forall entry_fits l -> ~ long_name (fm_order fm) (slot_of (flat_map (w_slot fm) l ++ repeat 0 n) k).
Proof.
  intros Hl [H1 H2]. destruct (nth_error l k) as [d|] eqn:E.
  - rewrite (slot_of_slots fm l k d _ Hl E) in H2.
    assert (Hd : entry_fits d) by (eapply Forall_forall; [exact Hl|eapply nth_error_In, E]).
    destruct (ft_name d Hd) as [Hn _]. pose proof (zlen_nonneg (de_name d)).
    assert (V : value_at (fm_order fm) (w_slot fm d) 64 2 = zlen (de_name d)).
    { unfold w_slot. fold (w_slot_parts fm d). unfold value_at. rewrite (slice_concat _ 2 (bytes_of (fm_order fm) 2 (zlen (de_name d)))).
      - apply value_bytes_of. change (256 ^ Z.of_nat 2) with 65536. lia.
      - reflexivity.
      - unfold w_slot_parts. cbn [firstn parts_length]. rewrite zlen_zeros by lia. lia.
      - apply zlen_bytes_of. }
    lia.
  - apply nth_error_None in E. apply H1. unfold slot_empty. now apply slot_of_zeros.
Qed.

(** * Entries *)
Section Entries.
Variable fm : format.
Hypothesis Hss : 0 < w_ss fm.
Hypothesis Hsss : 0 < w_sss fm.

Lemma w_entries_length fo : forall id ns nb, length (w_entries fm id ns nb fo) = count fo.
Proof.
  induction fo as [|n c m s r IH|n c m a IHa r IHr]; intros id ns nb; cbn [w_entries count length]; [reflexivity|now rewrite IH|].
  rewrite app_length, IHa, IHr. reflexivity.
Qed.

Lemma w_entries_ids fo : forall id ns nb k d, nth_error (w_entries fm id ns nb fo) k = Some d -> de_id d = id + Z.of_nat k.
Proof.
  induction fo as [|n c m s r IH|n c m a IHa r IHr]; intros id ns nb k d H; cbn [w_entries] in H.
  - destruct k; discriminate H.
  - destruct k as [|k]; [injection H as <-; cbn; lia|]. cbn [nth_error] in H. apply IH in H. lia.
  - destruct k as [|k]; [injection H as <-; cbn; lia|]. cbn [nth_error] in H.
    destruct (Nat.lt_ge_cases k (count a)) as [Hk|Hk].
    + rewrite nth_error_app1 in H by (rewrite w_entries_length; exact Hk). apply IHa in H. lia.
    + rewrite nth_error_app2 in H by (rewrite w_entries_length; exact Hk). rewrite w_entries_length in H. apply IHr in H. lia.
Qed.

Lemma w_shorts_stream n c m s r : w_shorts fm (AddStream n c m s r) = (if w_small fm s then [s] else []) ++ w_shorts fm r.
Proof. unfold w_shorts. cbn [streams filter]. destruct (w_small fm s); reflexivity. Qed.
Lemma w_longs_stream n c m s r : w_longs fm (AddStream n c m s r) = (if w_small fm s then [] else [s]) ++ w_longs fm r.
Proof. unfold w_longs. cbn [streams filter]. destruct (w_small fm s); reflexivity. Qed.
Lemma w_shorts_storage n c m a r : w_shorts fm (AddStorage n c m a r) = w_shorts fm a ++ w_shorts fm r.
Proof. unfold w_shorts. cbn [streams]. apply filter_app. Qed.
Lemma w_longs_storage n c m a r : w_longs fm (AddStorage n c m a r) = w_longs fm a ++ w_longs fm r.
Proof. unfold w_longs. cbn [streams]. apply filter_app. Qed.

Lemma w_entries_fit fo : forall id ns nb,
  names_ok name_fits fo -> times_ok fo -> Forall (fun s => Forall is_byte s /\ zlen s < 2 ^ 32) (streams fo) ->
  0 <= id -> id + Z.of_nat (count fo) < 2 ^ 32 ->
  0 <= ns -> ns + w_blocks (w_sss fm) (w_shorts fm fo) < 2 ^ 32 ->
  0 <= nb -> nb + w_blocks (w_ss fm) (w_longs fm fo) < 2 ^ 32 ->
  Forall entry_fits (w_entries fm id ns nb fo).
Proof.
  assert (HF : is_u32 FREE) by (unfold is_u32, FREE; lia). assert (HE : is_u32 EOC) by (unfold is_u32, EOC; lia).
  change (2 ^ 32) with 4294967296.
  induction fo as [|n c m s r IH|n c m a IHa r IHr]; intros id ns nb Hn Ht Hd H1 H2 H3 H4 H5 H6; cbn [w_entries]; [constructor| |].
  - destruct Hn as [Hn Hnr]. destruct Ht as (Hc & Hm & Htr). cbn [streams] in Hd. inversion Hd as [|? ? [Hd1 Hd2] Hd3]; subst. clear Hd.
    cbn [count] in H2. rewrite w_shorts_stream, w_blocks_app in H4. rewrite w_longs_stream, w_blocks_app in H6.
    pose proof (zlen_nonneg s) as Hz. pose proof (w_blocks_nonneg (w_sss fm) (w_shorts fm r) Hsss). pose proof (w_blocks_nonneg (w_ss fm) (w_longs fm r) Hss).
    pose proof (blocks_nonneg (w_sss fm) (zlen s) Hsss Hz). pose proof (blocks_nonneg (w_ss fm) (zlen s) Hss Hz).
    constructor.
    + constructor; cbn; auto; try lia.
      * destruct r; [exact HF|unfold is_u32; lia|unfold is_u32; lia].
      * destruct (w_small fm s); destruct (_ =? 0); auto; unfold is_u32; cbn in *; lia.
      * unfold is_u32. lia.
    + destruct (w_small fm s); cbn [app w_blocks fold_right] in *; rewrite ?w_blocks_cons in *; apply IH; auto; try lia; cbn in *; lia.
  - destruct Hn as (Hn & Hna & Hnr). destruct Ht as (Hc & Hm & Hta & Htr). cbn [streams] in Hd. apply Forall_app in Hd as [Hda Hdr].
    cbn [count] in H2. rewrite w_shorts_storage, w_blocks_app in H4. rewrite w_longs_storage, w_blocks_app in H6.
    pose proof (w_blocks_nonneg (w_sss fm) (w_shorts fm r) Hsss). pose proof (w_blocks_nonneg (w_ss fm) (w_longs fm r) Hss).
    pose proof (w_blocks_nonneg (w_sss fm) (w_shorts fm a) Hsss). pose proof (w_blocks_nonneg (w_ss fm) (w_longs fm a) Hss).
    constructor.
    + constructor; cbn; auto; try lia.
      * destruct r; [exact HF|unfold is_u32; lia|unfold is_u32; lia].
      * destruct a; [exact HF|unfold is_u32; lia|unfold is_u32; lia].
      * unfold is_u32. lia.
      * unfold is_u32. lia.
    + apply Forall_app. split; [apply IHa|apply IHr]; auto; lia.
Qed.
End Entries.
