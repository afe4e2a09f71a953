(** Lemmas on stream reads. *)
From Coq Require Import ZArith List Bool Lia ZifyBool ZifyNat.
From Verif Require Import Base Spec_IO L_Base M_Table M_Load M_Stream Spec_Stream.
Import ListNotations.
Open Scope Z_scope.

(** * Chains *)
Lemma nth_sector_fun tbl first k id1 id2 :
  nth_sector tbl first k id1 -> nth_sector tbl first k id2 -> id1 = id2.
Proof.
  intros H1. revert id2. induction H1; intros id2 H2; inversion H2; subst; auto.
  match goal with H : nth_sector _ _ k ?a |- _ => apply IHnth_sector in H; subst end.
  congruence.
Qed.

Lemma nth_sector_cons tbl a b k c :
  znth tbl a = Some b -> nth_sector tbl b k c -> nth_sector tbl a (S k) c.
Proof.
  intros H1 H2. induction H2.
  - econstructor; [constructor|assumption].
  - econstructor; eauto.
Qed.

Lemma nth_sector_u32 tbl first k id :
  Forall is_u32 tbl -> is_u32 first -> nth_sector tbl first k id -> is_u32 id.
Proof. intros H1 H2 H. induction H; auto. eapply Forall_znth; eauto. Qed.

(** Earlier sectors of a chain are regular entries of the table. *)
Lemma nth_sector_prefix tbl first k id j :
  nth_sector tbl first k id -> (j <= k)%nat ->
  exists id', nth_sector tbl first j id' /\ ((j < k)%nat -> 0 <= id' < zlen tbl).
Proof.
  intros H. revert j. induction H; intros j Hj.
  - assert (j = O) by lia. subst. exists first. split; [constructor|lia].
  - destruct (Nat.eq_dec j (S k)).
    + subst. exists id'. split; [econstructor; eauto|lia].
    + destruct (IHnth_sector j) as (x & Hx & Hr); [lia|].
      exists x. split; auto. intros _.
      destruct (Nat.eq_dec j k); [|apply Hr; lia].
      subst. rewrite (nth_sector_fun _ _ _ _ _ Hx H). now apply znth_range in H0.
Qed.

Lemma table_next_ok tbl id id' :
  0 <= id -> table_next tbl id = Ok id' -> znth tbl id = Some id' /\ id <= INT_MAX.
Proof.
  unfold table_next, table_get. intros H0.
  destruct (INT_MAX <? id) eqn:E; [discriminate|].
  assert (HIM : INT_MAX = 2147483647) by reflexivity.
  rewrite s32_id by lia.
  destruct ((id <? 0) || (zlen tbl <=? id)); [discriminate|].
  intros H. split; [now apply arr_get_ok|lia].
Qed.

Lemma table_next_in tbl id :
  0 <= id < zlen tbl -> zlen tbl <= 33554432 ->
  exists id', table_next tbl id = Ok id' /\ znth tbl id = Some id'.
Proof.
  intros H1 H2. unfold table_next, table_get.
  assert (HIM : INT_MAX = 2147483647) by reflexivity.
  destruct (INT_MAX <? id) eqn:E; [lia|].
  rewrite s32_id by lia.
  destruct ((id <? 0) || (zlen tbl <=? id)) eqn:E2; [lia|].
  destruct (znth_some tbl id H1) as [x Hx]. exists x. split; auto. now apply arr_get_ok.
Qed.

Lemma table_next_defined tbl id : 0 <= id -> defined (table_next tbl id).
Proof.
  intros H1. unfold table_next, table_get.
  assert (HIM : INT_MAX = 2147483647) by reflexivity.
  destruct (INT_MAX <? id) eqn:E; [exact I|].
  rewrite s32_id by lia.
  destruct ((id <? 0) || (zlen tbl <=? id)) eqn:E2; [exact I|].
  destruct (arr_get_in tbl id) as [x ->]; [lia|exact I].
Qed.

Lemma skip_sectors_ok n tbl a b :
  Forall is_u32 tbl -> is_u32 a -> skip_sectors n tbl a = Ok b -> nth_sector tbl a n b.
Proof.
  intros HF. revert a. induction n; simpl; intros a Ha H.
  - injection H as <-. constructor.
  - destruct (a =? END_OF_CHAIN); [discriminate|].
    apply rbind_ok in H as (c & H1 & H2). unfold is_u32 in Ha.
    apply table_next_ok in H1 as [H1 _]; [|lia].
    eapply nth_sector_cons; eauto. apply IHn; auto. eapply Forall_znth; eauto.
Qed.

Lemma skip_sectors_defined n tbl a :
  Forall is_u32 tbl -> is_u32 a -> defined (skip_sectors n tbl a).
Proof.
  intros HF. revert a. induction n; simpl; intros a Ha; [exact I|].
  destruct (a =? END_OF_CHAIN); [exact I|].
  pose proof (table_next_defined tbl a). unfold is_u32 in Ha.
  destruct (table_next tbl a) eqn:E; simpl in *; try (destruct H; lia); auto.
  apply IHn. apply table_next_ok in E as [E _]; [|lia]. eapply Forall_znth; eauto.
Qed.

Lemma nth_sector_inv_cons tbl a k c :
  nth_sector tbl a (S k) c -> exists b, znth tbl a = Some b /\ nth_sector tbl b k c.
Proof.
  revert c. induction k; intros c H; inversion H; subst.
  - inversion H1; subst. exists c. split; auto. constructor.
  - destruct (IHk _ H1) as (b & Hb1 & Hb2). exists b. split; auto. econstructor; eauto.
Qed.

Lemma skip_sectors_complete n tbl a b :
  zlen tbl <= 33554432 -> nth_sector tbl a n b -> skip_sectors n tbl a = Ok b.
Proof.
  intros HL. revert a. induction n; simpl; intros a H.
  - inversion H. reflexivity.
  - apply nth_sector_inv_cons in H as (c & H1 & H2).
    pose proof (znth_range _ _ _ H1).
    destruct (a =? END_OF_CHAIN) eqn:E; [unfold END_OF_CHAIN in E; lia|].
    destruct (table_next_in tbl a) as (c' & Hc & Hc'); [lia|lia|].
    rewrite Hc. simpl. assert (c' = c) by congruence. subst. auto.
Qed.

Lemma container_walk_ok fuel sat ss off cid c rest :
  Forall is_u32 sat -> is_u32 cid -> 0 < ss -> 0 <= off ->
  container_walk fuel sat ss off cid = Ok (c, rest) ->
  nth_sector sat cid (Z.to_nat (off / ss)) c /\ rest = off mod ss.
Proof.
  intros HF. revert off cid. induction fuel; simpl; intros off cid Hc Hss Ho H;
    [discriminate|].
  destruct (ss <=? off) eqn:E.
  - apply rbind_ok in H as (c1 & H1 & H2). unfold is_u32 in Hc.
    apply table_next_ok in H1 as [H1 _]; [|lia].
    apply IHfuel in H2 as [H2 H3]; auto; try lia.
    2: eapply Forall_znth; eauto.
    assert (Hd : off / ss = (off - ss) / ss + 1).
    { replace off with ((off - ss) + 1 * ss) at 1 by lia. rewrite Z.div_add; lia. }
    assert (0 <= (off - ss) / ss) by (apply Z.div_pos; lia).
    split.
    + rewrite Hd. replace (Z.to_nat ((off - ss) / ss + 1)) with (S (Z.to_nat ((off - ss) / ss))) by lia.
      eapply nth_sector_cons; eauto.
    + rewrite H3. replace (off - ss) with (off + (-1) * ss) by lia. now rewrite Z.mod_add by lia.
  - assert (c = cid /\ rest = off) as [-> ->] by (split; congruence).
    rewrite Z.div_small, Z.mod_small by lia. split; [constructor|reflexivity].
Qed.

Lemma container_walk_defined fuel sat ss off cid :
  Forall is_u32 sat -> is_u32 cid -> 0 < ss -> 0 <= off ->
  off / ss < Z.of_nat fuel ->
  defined (container_walk fuel sat ss off cid).
Proof.
  intros HF. revert off cid. induction fuel; intros off cid Hc Hss Ho Hf.
  - assert (0 <= off / ss) by (apply Z.div_pos; lia). lia.
  - simpl. destruct (ss <=? off) eqn:E; [|exact I].
    pose proof (table_next_defined sat cid). unfold is_u32 in Hc.
    destruct (table_next sat cid) eqn:E2; simpl in *; try (destruct H; lia); auto.
    apply table_next_ok in E2 as [E2 _]; [|lia].
    assert (Hd : off / ss = (off - ss) / ss + 1).
    { replace off with ((off - ss) + 1 * ss) at 1 by lia. rewrite Z.div_add; lia. }
    apply IHfuel; auto; try lia. eapply Forall_znth; eauto.
Qed.

Lemma container_walk_complete fuel sat ss off cid c :
  zlen sat <= 33554432 -> 0 < ss -> 0 <= off ->
  off / ss < Z.of_nat fuel ->
  nth_sector sat cid (Z.to_nat (off / ss)) c ->
  container_walk fuel sat ss off cid = Ok (c, off mod ss).
Proof.
  intros HL. revert off cid. induction fuel; intros off cid Hss Ho Hf H.
  - assert (0 <= off / ss) by (apply Z.div_pos; lia). lia.
  - simpl. destruct (ss <=? off) eqn:E.
    + assert (Hd : off / ss = (off - ss) / ss + 1).
      { replace off with ((off - ss) + 1 * ss) at 1 by lia. rewrite Z.div_add; lia. }
      assert (0 <= (off - ss) / ss) by (apply Z.div_pos; lia).
      rewrite Hd in H.
      replace (Z.to_nat ((off - ss) / ss + 1)) with (S (Z.to_nat ((off - ss) / ss))) in H by lia.
      apply nth_sector_inv_cons in H as (b & H1 & H2).
      pose proof (znth_range _ _ _ H1).
      destruct (table_next_in sat cid) as (b' & Hb & Hb'); [lia|lia|].
      rewrite Hb. simpl. assert (b' = b) by congruence. subst.
      rewrite IHfuel; auto; try lia.
      replace (off - ss) with (off + (-1) * ss) by lia. now rewrite Z.mod_add by lia.
    + rewrite Z.div_small in H by lia. inversion H; subst.
      rewrite Z.mod_small by lia. reflexivity.
Qed.

(** * The read loop *)

(** Where the loop reads stream offset [i]: the start of the sector, as the
    code computes it, plus the offset in the sector. *)
Definition raw_position (v : volume) (d : dirent) (i p : Z) : Prop :=
  exists id base,
    nth_sector (stream_table v d) (de_sector d)
               (Z.to_nat (i / stream_sector_size v d)) id /\
    sector_read_offset v d id = Ok base /\
    p = base + i mod stream_sector_size v d.

Lemma raw_position_fun v d i p1 p2 :
  raw_position v d i p1 -> raw_position v d i p2 -> p1 = p2.
Proof.
  intros (id1 & b1 & H1 & H2 & H3) (id2 & b2 & H4 & H5 & H6).
  assert (id1 = id2) by (eapply nth_sector_fun; eauto). subst.
  assert (b1 = b2) by congruence. now subst.
Qed.

Lemma stream_ss_pos v d : volume_ok v -> 0 < stream_sector_size v d <= 32768.
Proof.
  intros H. unfold stream_sector_size.
  destruct (vo_ss v H) as (a & Ha & Ea). destruct (vo_sss v H) as (b & Hb & Eb).
  assert (32768 = 2 ^ 15) by reflexivity.
  destruct (is_short v d).
  - rewrite Eb. split; [apply Z.pow_pos_nonneg; lia|].
    rewrite H0. apply Z.pow_le_mono_r; lia.
  - rewrite Ea. split; [apply Z.pow_pos_nonneg; lia|].
    rewrite H0. apply Z.pow_le_mono_r; lia.
Qed.

Lemma volume_ss_pos v : volume_ok v -> 128 <= v_sector_size v <= 32768.
Proof.
  intros H. destruct (vo_ss v H) as (a & Ha & Ea). rewrite Ea.
  change 128 with (2 ^ 7). change 32768 with (2 ^ 15).
  split; apply Z.pow_le_mono_r; lia.
Qed.

Lemma volume_sss_pos v : volume_ok v -> 1 <= v_short_sector_size v <= 32768.
Proof.
  intros H. destruct (vo_sss v H) as (a & Ha & Ea). rewrite Ea.
  change 1 with (2 ^ 0). change 32768 with (2 ^ 15).
  split; apply Z.pow_le_mono_r; lia.
Qed.

Lemma stream_table_u32 v d : volume_ok v -> Forall is_u32 (stream_table v d).
Proof. intros H. unfold stream_table. destruct (is_short v d); [apply (vo_ssat v H)|apply (vo_sat v H)]. Qed.

Lemma stream_table_len v d : volume_ok v -> zlen (stream_table v d) <= 33554432.
Proof. intros H. unfold stream_table. destruct (is_short v d); [apply (vo_ssat_len v H)|apply (vo_sat_len v H)]. Qed.

Lemma sector_read_offset_nonneg v d id base :
  volume_ok v -> 0 <= id -> sector_read_offset v d id = Ok base -> 0 <= base.
Proof.
  intros HV Hid. unfold sector_read_offset.
  pose proof (volume_ss_pos v HV). pose proof (volume_sss_pos v HV).
  pose proof (u32_range (id + 1)) as Hu.
  destruct (is_short v d) eqn:E.
  - intros H1. apply rbind_ok in H1 as ((c, rest) & H1 & H2).
    apply container_walk_ok in H1 as [H1 H3]; try lia.
    + apply Ok_inj in H2. pose proof (u32_range (c + 1)) as Hu2.
      unfold sector_offset in H2. subst. nia.
    + apply (vo_sat v HV).
    + apply (vo_start v HV).
  - intros H1. apply Ok_inj in H1. unfold sector_offset in H1. nia.
Qed.

Lemma stream_loop_ok f rd v d :
  io_sound rd f -> volume_ok v -> dirent_ok d ->
  forall fuel id index so size cap acc t data t',
    nth_sector (stream_table v d) (de_sector d) (Z.to_nat index) id ->
    0 <= index -> 0 <= size ->
    (size = 0 \/ index * stream_sector_size v d <= so
                 < (index + 1) * stream_sector_size v d) ->
    stream_loop fuel rd v d id index so size cap acc t = (Ok data, t') ->
    exists new, data = acc ++ new /\ zlen new = size /\
      forall j b, znth new j = Some b ->
        exists p, raw_position v d (so + j) p /\ znth f p = Some b.
Proof.
  intros HS HV HD. pose proof (stream_ss_pos v d HV) as Hss.
  set (ss := stream_sector_size v d) in *.
  induction fuel; intros id index so size cap acc t data t' Hns Hi Hsz Hb H;
    simpl in H; [discriminate|].
  destruct (size <=? 0) eqn:E0.
  { assert (size = 0) by lia. subst size. apply iret_ok in H as [<- _].
    exists []. rewrite app_nil_r. repeat split; auto.
    intros j b Hj. apply znth_range in Hj. unfold zlen in Hj. simpl in Hj. lia. }
  destruct Hb as [Hb|Hb]; [lia|].
  destruct (id =? END_OF_CHAIN); [discriminate|].
  apply ibind_ok in H as (base & t1 & Hbase & H).
  apply ilift_ok in Hbase as [Hbase ->].
  fold ss in H.
  set (delta := if index * ss <? so then so - index * ss else 0) in *.
  assert (Hdelta : delta = so - index * ss) by (unfold delta; destruct (index * ss <? so) eqn:?; lia).
  rewrite u64_id in H by lia.
  set (rs := if size <? ss - delta then size else ss - delta) in *.
  assert (Hrs : 0 < rs /\ rs <= size /\ rs <= ss - delta /\ (rs < size -> rs = ss - delta))
    by (unfold rs; destruct (size <? ss - delta) eqn:?; lia).
  destruct (cap <? rs); [discriminate|].
  apply ibind_ok in H as (chunk & t2 & Hrd & H).
  apply ibind_ok in H as (id' & t3 & Hnext & H).
  apply ilift_ok in Hnext as [Hnext ->].
  destruct (index =? INT_MAX); [discriminate|].
  apply read_exact_ok in Hrd as (Hrd & Hlen & ->).
  assert (Hu : is_u32 id).
  { exact (nth_sector_u32 _ _ _ _ (stream_table_u32 v d HV) (do_sector d HD) Hns). }
  unfold is_u32 in Hu.
  assert (Hid0 : 0 <= id) by lia.
  pose proof (sector_read_offset_nonneg _ _ _ _ HV Hid0 Hbase) as Hbase0.
  apply HS in Hrd as [Hin Hchunk]; try lia.
  apply table_next_ok in Hnext as [Hnext _]; [|lia].
  assert (Hns' : nth_sector (stream_table v d) (de_sector d) (Z.to_nat (index + 1)) id').
  { replace (Z.to_nat (index + 1)) with (S (Z.to_nat index)) by lia. econstructor; eauto. }
  eapply IHfuel in H; eauto; try lia.
  destruct H as (new & -> & Hnl & Hnew).
  exists (chunk ++ new). split; [now rewrite app_assoc|].
  split; [rewrite zlen_app; lia|].
  intros j b Hj. pose proof (znth_range _ _ _ Hj) as Hjr. rewrite zlen_app in Hjr.
  destruct (Z_lt_ge_dec j rs) as [Hjl|Hjg].
  - rewrite znth_app_l in Hj by lia. exists (base + delta + j).
    split.
    + exists id, base. fold ss.
      assert (Hdiv : (so + j) / ss = index).
      { symmetry. apply Z.div_unique with (r := delta + j); lia. }
      assert (Hmod : (so + j) mod ss = delta + j).
      { symmetry. apply Z.mod_unique with (q := index); lia. }
      rewrite Hdiv, Hmod. repeat split; auto. lia.
    + rewrite Hchunk in Hj. now rewrite znth_slice in Hj by lia.
  - rewrite znth_app_r in Hj by lia. rewrite Hlen in Hj.
    destruct (Hnew _ _ Hj) as (p & Hp1 & Hp2). exists p. split; auto.
    now replace (so + rs + (j - rs)) with (so + j) in Hp1 by lia.
Qed.

Lemma index_small v d offset index :
  volume_ok v -> 0 <= offset -> index = s32 (offset / stream_sector_size v d) ->
  0 <= index -> offset < 4294967296 ->
  index = offset / stream_sector_size v d.
Proof.
  intros HV H0 -> H1 H2. pose proof (stream_ss_pos v d HV) as Hss.
  apply s32_nonneg; [|exact H1].
  assert (HT : TWO32 = 4294967296) by reflexivity.
  split; [apply Z.div_pos; lia|apply Z.div_lt_upper_bound; nia].
Qed.

Lemma io_read_stream_ok f rd v d offset size cap t data t' :
  io_sound rd f -> volume_ok v -> dirent_ok d ->
  0 <= size -> offset < 4294967296 ->
  io_read_stream rd v d offset size cap t = (Ok data, t') ->
  zlen data = size /\
  forall j b, znth data j = Some b ->
    exists p, raw_position v d (offset + j) p /\ znth f p = Some b.
Proof.
  intros HS HV HD Hsz Ho H. unfold io_read_stream in H.
  destruct (offset <? 0) eqn:E1; [discriminate|].
  destruct (SSIZE_MAX <? size); [discriminate|].
  set (index := s32 (offset / stream_sector_size v d)) in *.
  destruct ((index <? 0) || (zlen (stream_table v d) <=? index)) eqn:E2; [discriminate|].
  apply ibind_ok in H as (id & t1 & Hid & H). apply ilift_ok in Hid as [Hid ->].
  apply skip_sectors_ok in Hid; [|apply stream_table_u32; auto|apply (do_sector d HD)].
  pose proof (stream_ss_pos v d HV) as Hss.
  assert (Hix : index = offset / stream_sector_size v d)
    by (eapply index_small; eauto; lia).
  assert (Hw : index * stream_sector_size v d <= offset < (index + 1) * stream_sector_size v d).
  { rewrite Hix. pose proof (Z.div_mod offset (stream_sector_size v d)).
    pose proof (Z.mod_pos_bound offset (stream_sector_size v d)). nia. }
  eapply stream_loop_ok in H; eauto; try lia.
  destruct H as (new & -> & H1 & H2). simpl. auto.
Qed.

Lemma clamp_eq dsize cursor size :
  0 <= cursor < dsize -> 0 <= size -> dsize < 4294967296 ->
  (if (dsize <? size) || (u64 (dsize - size) <? cursor) then dsize - cursor else size)
  = Z.min size (dsize - cursor).
Proof.
  intros. destruct (dsize <? size) eqn:E; simpl; [lia|].
  rewrite u64_id by lia. destruct (dsize - size <? cursor) eqn:E2; lia.
Qed.

(** The number of bytes that a successful read of [size] bytes delivers. *)
Definition read_amount (d : dirent) (cursor size : Z) : Z :=
  if de_size d <=? cursor then 0 else Z.min size (de_size d - cursor).

Lemma read_buffer_ok f rd v d cursor size cap t data cursor' t' :
  io_sound rd f -> volume_ok v -> dirent_ok d -> 0 <= size ->
  stream_read_buffer rd v d cursor size cap t = (Ok (data, cursor'), t') ->
  de_type d = TYPE_STREAM /\ 0 <= cursor /\ size <= SSIZE_MAX /\
  zlen data = read_amount d cursor size /\ cursor' = cursor + zlen data /\
  forall j b, znth data j = Some b ->
    exists p, raw_position v d (cursor + j) p /\ znth f p = Some b.
Proof.
  intros HS HV HD Hsz H. unfold stream_read_buffer in H.
  destruct (de_type d =? TYPE_STREAM) eqn:E0; [|discriminate]. simpl in H.
  destruct (cursor <? 0) eqn:E1; [discriminate|].
  destruct (SSIZE_MAX <? size) eqn:E2; [discriminate|].
  unfold read_amount. pose proof (do_size d HD) as Hds. unfold is_u32 in Hds.
  destruct (de_size d <=? cursor) eqn:E3.
  - apply iret_ok in H as [H _].
    assert (data = [] /\ cursor' = cursor) as [-> ->] by (split; congruence).
    unfold zlen; simpl. repeat split; try lia.
    intros j b Hj. apply znth_range in Hj. unfold zlen in Hj. simpl in Hj. lia.
  - rewrite clamp_eq in H by lia.
    apply ibind_ok in H as (dat & t1 & H1 & H).
    destruct (zlen dat =? Z.min size (de_size d - cursor)) eqn:E4; [|discriminate].
    apply iret_ok in H as [H _].
    assert (data = dat /\ cursor' = cursor + zlen dat) as [-> ->] by (split; congruence).
    eapply io_read_stream_ok in H1 as [_ H1]; eauto; try lia.
    repeat split; auto; lia.
Qed.

(** * From the positions of the code to those of the format *)
Lemma raw_to_stream v d i p :
  volume_ok v -> dirent_ok d -> 0 <= i ->
  (de_size d < v_minimum_size v ->
   v_short_sector_size v <= v_sector_size v /\ container_used v) ->
  (forall k id, nth_sector (stream_table v d) (de_sector d) k id ->
                k = Z.to_nat (i / stream_sector_size v d) ->
                id < 4294967295) ->
  raw_position v d i p -> stream_position v d i p.
Proof.
  intros HV HD Hi Hsh Hid (id & base & H1 & H2 & ->).
  unfold stream_position. unfold sector_read_offset, stream_table, stream_sector_size in *.
  assert (Hu : is_u32 id).
  { refine (nth_sector_u32 _ _ _ _ _ (do_sector d HD) H1).
    destruct (is_short v d); [apply (vo_ssat v HV)|apply (vo_sat v HV)]. }
  pose proof (volume_ss_pos v HV). pose proof (volume_sss_pos v HV).
  assert (Hid' : id < 4294967295) by (eapply Hid; eauto).
  unfold is_u32 in Hu. unfold is_short in *.
  destruct (de_size d <? v_minimum_size v) eqn:E.
  - exists id. split; [exact H1|].
    destruct Hsh as [Hle Hcu]; [lia|].
    apply rbind_ok in H2 as ((c, rest) & H2 & H3). apply Ok_inj in H3.
    apply container_walk_ok in H2 as [H2 H4]; try lia;
      [|apply (vo_sat v HV)|apply (vo_start v HV)].
    pose proof (nth_sector_u32 _ _ _ _ (vo_sat v HV) (vo_start v HV) H2) as Hc.
    unfold is_u32 in Hc.
    assert (c <> UNUSED) by (intros ->; eapply Hcu; eauto).
    unfold UNUSED in *. unfold sector_offset in H3. rewrite u32_id in H3 by (unfold TWO32; lia).
    destruct (vo_ss v HV) as (a & Ha & Ea). destruct (vo_sss v HV) as (b & Hb & Eb).
    assert (b <= a).
    { destruct (Z_le_gt_dec b a); auto. exfalso.
      assert (2 ^ a < 2 ^ b) by (apply Z.pow_lt_mono_r; lia). lia. }
    assert (Hm : v_sector_size v = 2 ^ (a - b) * v_short_sector_size v).
    { rewrite Ea, Eb, <- Z.pow_add_r by lia. f_equal. lia. }
    set (m := 2 ^ (a - b)) in *. set (ss := v_sector_size v) in *.
    set (sss := v_short_sector_size v) in *. clearbody m ss sss.
    pose proof (Z.mod_pos_bound i sss) as Hx. set (x := i mod sss) in *. clearbody x.
    set (k := id * sss / ss) in *.
    assert (Hkr : id * sss = ss * k + rest) by (subst k rest; apply Z.div_mod; lia).
    assert (Hrest : 0 <= rest < ss) by (subst rest; apply Z.mod_pos_bound; lia).
    assert (Hfit : rest + sss <= ss).
    { assert (rest = (id - m * k) * sss) by nia.
      assert (id - m * k < m) by nia. nia. }
    exists c. split.
    + replace ((id * sss + x) / ss) with k; [exact H2|].
      symmetry. symmetry. apply Z.div_unique with (r := rest + x); lia.
    + replace ((id * sss + x) mod ss) with (rest + x).
      2: { apply Z.mod_unique with (q := k); lia. }
      lia.
  - apply Ok_inj in H2. exists id. split; [exact H1|].
    unfold sector_offset in H2. rewrite u32_id in H2 by (unfold TWO32; lia). lia.
Qed.

(** The sectors of a successful read are regular entries of the table. *)
Lemma stream_loop_ids rd v d :
  volume_ok v -> dirent_ok d ->
  forall fuel id index so size cap acc t data t',
    nth_sector (stream_table v d) (de_sector d) (Z.to_nat index) id ->
    0 <= index -> 0 <= size ->
    (size = 0 \/ index * stream_sector_size v d <= so
                 < (index + 1) * stream_sector_size v d) ->
    stream_loop fuel rd v d id index so size cap acc t = (Ok data, t') ->
    forall j, 0 <= j < size ->
      exists id', nth_sector (stream_table v d) (de_sector d)
                    (Z.to_nat ((so + j) / stream_sector_size v d)) id' /\
                  0 <= id' < zlen (stream_table v d).
Proof.
  intros HV HD. pose proof (stream_ss_pos v d HV) as Hss.
  set (ss := stream_sector_size v d) in *.
  induction fuel; intros id index so size cap acc t data t' Hns Hi Hsz Hb H j Hj;
    simpl in H; [discriminate|].
  destruct (size <=? 0) eqn:E0; [lia|].
  destruct Hb as [Hb|Hb]; [lia|].
  destruct (id =? END_OF_CHAIN); [discriminate|].
  apply ibind_ok in H as (base & t1 & Hbase & H).
  apply ilift_ok in Hbase as [Hbase ->].
  fold ss in H.
  set (delta := if index * ss <? so then so - index * ss else 0) in *.
  assert (Hdelta : delta = so - index * ss) by (unfold delta; destruct (index * ss <? so) eqn:?; lia).
  rewrite u64_id in H by lia.
  set (rs := if size <? ss - delta then size else ss - delta) in *.
  assert (Hrs : 0 < rs /\ rs <= size /\ rs <= ss - delta /\ (rs < size -> rs = ss - delta))
    by (unfold rs; destruct (size <? ss - delta) eqn:?; lia).
  destruct (cap <? rs); [discriminate|].
  apply ibind_ok in H as (chunk & t2 & Hrd & H).
  apply ibind_ok in H as (id' & t3 & Hnext & H).
  apply ilift_ok in Hnext as [Hnext ->].
  destruct (index =? INT_MAX); [discriminate|].
  assert (Hu : is_u32 id).
  { exact (nth_sector_u32 _ _ _ _ (stream_table_u32 v d HV) (do_sector d HD) Hns). }
  unfold is_u32 in Hu.
  apply table_next_ok in Hnext as [Hnext _]; [|lia].
  assert (Hns' : nth_sector (stream_table v d) (de_sector d) (Z.to_nat (index + 1)) id').
  { replace (Z.to_nat (index + 1)) with (S (Z.to_nat index)) by lia. econstructor; eauto. }
  destruct (Z_lt_ge_dec j rs) as [Hjl|Hjg].
  - exists id. replace ((so + j) / ss) with index.
    + split; auto. now apply znth_range in Hnext.
    + apply Z.div_unique with (r := delta + j); lia.
  - assert (G : exists id', nth_sector (stream_table v d) (de_sector d)
                    (Z.to_nat ((so + rs + (j - rs)) / ss)) id' /\
                  0 <= id' < zlen (stream_table v d)).
    { exact (IHfuel id' (index + 1) (so + rs) (size - rs) (cap - rs) _ _ _ _ Hns'
               ltac:(lia) ltac:(lia) ltac:(lia) H (j - rs) ltac:(lia)). }
    now replace (so + rs + (j - rs)) with (so + j) in G by lia.
Qed.
