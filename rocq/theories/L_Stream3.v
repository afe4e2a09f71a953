(** Lemmas on stream reads: success, pieces, histories. *)
From Coq Require Import ZArith List Bool Lia ZifyBool ZifyNat.
From Verif Require Import Base Spec_IO L_Base M_Table M_Load M_Stream Spec_Stream
  L_Stream L_Stream2.
Import ListNotations.
Open Scope Z_scope.

(** * Intact chains can be read *)
Lemma stream_loop_complete f rd v d :
  io_total rd f -> volume_ok v -> dirent_ok d ->
  forall fuel id index so size cap acc t,
    nth_sector (stream_table v d) (de_sector d) (Z.to_nat index) id ->
    0 <= index -> 0 <= size <= cap ->
    (size = 0 \/ index * stream_sector_size v d <= so
                 < (index + 1) * stream_sector_size v d) ->
    (size > 0 -> (so + size - 1) / stream_sector_size v d < INT_MAX) ->
    (size > 0 -> exists idl,
        nth_sector (stream_table v d) (de_sector d)
                   (Z.to_nat ((so + size - 1) / stream_sector_size v d)) idl /\
        0 <= idl < zlen (stream_table v d)) ->
    (forall j, 0 <= j < size -> exists p, raw_position v d (so + j) p /\ p < zlen f) ->
    size < Z.of_nat fuel ->
    exists data t', stream_loop fuel rd v d id index so size cap acc t = (Ok data, t').
Proof.
  intros HT HV HD. pose proof (stream_ss_pos v d HV) as Hss.
  pose proof (stream_table_len v d HV) as Htl.
  set (ss := stream_sector_size v d) in *.
  induction fuel; intros id index so size cap acc t Hns Hi Hsz Hb Hmax Hlast Hpos Hf; [lia|].
  simpl. destruct (size <=? 0) eqn:E0; [eexists; eexists; reflexivity|].
  destruct Hb as [Hb|Hb]; [lia|].
  assert (Hge : index <= (so + size - 1) / ss) by (apply Z.div_le_lower_bound; lia).
  assert (Hidr : 0 <= id < zlen (stream_table v d)).
  { destruct Hlast as (idl & Hl1 & Hl2); [lia|].
    destruct (nth_sector_prefix _ _ _ _ (Z.to_nat index) Hl1) as (x & Hx & Hr); [lia|].
    rewrite <- (nth_sector_fun _ _ _ _ _ Hx Hns).
    destruct (Z.eq_dec index ((so + size - 1) / ss)) as [He|He].
    - rewrite <- He in Hl1. rewrite (nth_sector_fun _ _ _ _ _ Hx Hl1). exact Hl2.
    - apply Hr. lia. }
  destruct (id =? END_OF_CHAIN) eqn:E1; [unfold END_OF_CHAIN in E1; lia|].
  set (delta := if index * ss <? so then so - index * ss else 0) in *.
  assert (Hdelta : delta = so - index * ss) by (unfold delta; destruct (index * ss <? so) eqn:?; lia).
  set (rs := if size <? u64 (ss - delta) then size else u64 (ss - delta)) in *.
  assert (Hrs : 0 < rs /\ rs <= size /\ rs <= ss - delta /\ (rs < size -> rs = ss - delta))
    by (unfold rs; rewrite u64_id by lia; destruct (size <? ss - delta) eqn:?; lia).
  assert (Hdivj : forall j, 0 <= j < rs -> (so + j) / ss = index /\ (so + j) mod ss = delta + j).
  { intros j Hj. split.
    - symmetry. apply Z.div_unique with (r := delta + j); lia.
    - symmetry. apply Z.mod_unique with (q := index); lia. }
  destruct (Hpos 0) as (p0 & (id0 & base & Hn0 & Hbase & Hp0) & _); [lia|].
  fold ss in Hn0, Hp0.
  destruct (Hdivj 0) as [Hd0 Hm0]; [lia|]. rewrite Hd0 in Hn0.
  rewrite <- (nth_sector_fun _ _ _ _ _ Hns Hn0) in Hbase.
  destruct (Hpos (rs - 1)) as (p1 & (id1 & base1 & Hn1 & Hbase1 & Hp1) & Hp1f); [lia|].
  fold ss in Hn1, Hp1.
  destruct (Hdivj (rs - 1)) as [Hd1 Hm1]; [lia|]. rewrite Hd1 in Hn1. rewrite Hm1 in Hp1.
  rewrite <- (nth_sector_fun _ _ _ _ _ Hns Hn1) in Hbase1.
  assert (base1 = base) by congruence. subst base1.
  unfold ibind at 1. unfold ilift at 1. rewrite Hbase. fold ss. fold delta. fold rs.
  destruct (cap <? rs) eqn:Ecap; [lia|].
  pose proof (sector_read_offset_nonneg _ _ _ _ HV (proj1 Hidr) Hbase) as Hb0.
  unfold ibind at 1.
  destruct (read_exact_cases rd (base + delta) rs t) as [(chunk & -> & _)|[_ Hno]].
  2: { exfalso. assert (Ha1 : 0 <= base + delta) by lia.
       assert (Ha2 : 0 < rs) by lia. assert (Ha3 : base + delta + rs <= zlen f) by lia.
       destruct (HT t (base + delta) rs Ha1 Ha2 Ha3) as (l & Hl1 & Hl2).
       exact (Hno l Hl1 Hl2). }
  destruct (table_next_in (stream_table v d) id) as (id' & Hnext & Hz); [lia|lia|].
  unfold ibind at 1. unfold ilift at 1. rewrite Hnext.
  destruct (index =? INT_MAX) eqn:Em; [lia|].
  clearbody rs. clear Hdivj Hm0 Hm1 Hd0 Hd1 Hp0 Hp1 Hp1f Hn0 Hn1 Hbase Hbase1 Hb0 E1.
  clearbody delta.
  assert (Hn' : nth_sector (stream_table v d) (de_sector d) (Z.to_nat (index + 1)) id').
  { replace (Z.to_nat (index + 1)) with (S (Z.to_nat index)) by (clear - Hi; lia).
    econstructor; eauto. }
  assert (Hsz' : 0 <= size - rs <= cap - rs) by (clear - Hrs Hsz; lia).
  assert (Hw' : size - rs = 0 \/
                (index + 1) * ss <= so + rs < (index + 1 + 1) * ss).
  { clear - Hrs Hdelta Hb Hss. destruct (Z.eq_dec rs size); [left; lia|right].
    assert (rs = ss - delta) by lia. lia. }
  assert (He : so + rs + (size - rs) - 1 = so + size - 1) by (clear; lia).
  apply IHfuel; auto; rewrite ?He.
  - clear - Hi; lia.
  - intros _. apply Hmax. clear - E0; lia.
  - intros _. apply Hlast. clear - E0; lia.
  - intros j Hj. destruct (Hpos (rs + j)) as (p & Hp & Hpf); [clear - Hj Hrs; lia|].
    exists p. split; auto. now replace (so + rs + j) with (so + (rs + j)) by (clear; lia).
  - clear - Hf Hrs; lia.
Qed.

Lemma stream_to_raw v d i p :
  volume_ok v -> dirent_ok d -> 0 <= i ->
  (de_size d < v_minimum_size v ->
   v_short_sector_size v <= v_sector_size v /\ container_used v) ->
  (forall id, nth_sector (stream_table v d) (de_sector d)
                         (Z.to_nat (i / stream_sector_size v d)) id ->
              id < 4294967295) ->
  stream_position v d i p -> raw_position v d i p.
Proof.
  intros HV HD Hi Hsh Hid H. unfold stream_position in H. unfold raw_position.
  unfold sector_read_offset, stream_table, stream_sector_size, is_short in *.
  pose proof (volume_ss_pos v HV) as Hs1. pose proof (volume_sss_pos v HV) as Hs2.
  destruct (de_size d <? v_minimum_size v) eqn:E.
  - destruct H as (id & H1 & c & H2 & H3).
    pose proof (nth_sector_u32 _ _ _ _ (vo_ssat v HV) (do_sector d HD) H1) as Hu.
    unfold is_u32 in Hu. specialize (Hid _ H1).
    destruct Hsh as [Hle Hcu]; [lia|].
    destruct (vo_ss v HV) as (a & Ha & Ea). destruct (vo_sss v HV) as (b & Hb & Eb).
    assert (b <= a).
    { destruct (Z_le_gt_dec b a); auto. exfalso.
      assert (2 ^ a < 2 ^ b) by (apply Z.pow_lt_mono_r; lia). lia. }
    assert (Hm : v_sector_size v = 2 ^ (a - b) * v_short_sector_size v).
    { rewrite Ea, Eb, <- Z.pow_add_r by lia. f_equal. lia. }
    assert (Hfit : id * v_short_sector_size v mod v_sector_size v + v_short_sector_size v
                   <= v_sector_size v).
    { set (m := 2 ^ (a - b)) in *. set (ss := v_sector_size v) in *.
      set (sss := v_short_sector_size v) in *. clearbody m ss sss.
      pose proof (Z.div_mod (id * sss) ss ltac:(lia)) as Hdm.
      pose proof (Z.mod_pos_bound (id * sss) ss ltac:(lia)) as Hmb.
      set (k := id * sss / ss) in *. set (rest := (id * sss) mod ss) in *.
      clearbody k rest.
      assert (rest = (id - m * k) * sss) by nia.
      assert (id - m * k < m) by nia. nia. }
    set (ss := v_sector_size v) in *. set (sss := v_short_sector_size v) in *.
    pose proof (Z.mod_pos_bound i sss ltac:(lia)) as Hx.
    set (x := i mod sss) in *.
    pose proof (Z.div_mod (id * sss) ss ltac:(lia)) as Hdm.
    pose proof (Z.mod_pos_bound (id * sss) ss ltac:(lia)) as Hmb.
    assert (Hq : (id * sss + x) / ss = id * sss / ss).
    { symmetry. apply Z.div_unique with (r := (id * sss) mod ss + x); lia. }
    assert (Hr : (id * sss + x) mod ss = (id * sss) mod ss + x).
    { symmetry. apply Z.mod_unique with (q := id * sss / ss); lia. }
    rewrite Hq in H2. rewrite Hr in H3.
    assert (0 <= id * sss) by nia.
    assert (0 <= id * sss / ss) by (apply Z.div_pos; lia).
    exists id, ((id * sss) mod ss + sector_offset c ss). split; [exact H1|].
    rewrite container_walk_complete with (c := c); auto; try lia;
      [|apply (vo_sat_len v HV)].
    simpl. split; auto.
    assert (c <> UNUSED) by (intros ->; eapply Hcu; eauto).
    pose proof (nth_sector_u32 _ _ _ _ (vo_sat v HV) (vo_start v HV) H2) as Hc.
    unfold is_u32, UNUSED in *.
    unfold sector_offset. rewrite u32_id by (unfold TWO32; lia). lia.
  - destruct H as (id & H1 & H3).
    pose proof (nth_sector_u32 _ _ _ _ (vo_sat v HV) (do_sector d HD) H1) as Hu.
    unfold is_u32 in Hu. specialize (Hid _ H1).
    exists id, (sector_offset id (v_sector_size v)). split; auto. split; auto.
    unfold sector_offset. rewrite u32_id by (unfold TWO32; lia). lia.
Qed.

(** Success in terms of the positions of the code. *)
Lemma io_read_stream_complete f rd v d offset size cap t :
  io_total rd f -> volume_ok v -> dirent_ok d ->
  0 <= offset -> 0 < size <= cap -> offset + size <= de_size d ->
  size <= SSIZE_MAX ->
  offset / stream_sector_size v d < zlen (stream_table v d) ->
  (exists idl, nth_sector (stream_table v d) (de_sector d)
       (Z.to_nat ((offset + size - 1) / stream_sector_size v d)) idl /\
     0 <= idl < zlen (stream_table v d)) ->
  (forall j, 0 <= j < size -> exists p, raw_position v d (offset + j) p /\ p < zlen f) ->
  few_sectors v d size ->
  exists data t', io_read_stream rd v d offset size cap t = (Ok data, t').
Proof.
  intros HT HV HD Ho Hsz Hend Hss Hix Hlast Hpos Hfew.
  pose proof (do_size d HD) as Hds. unfold is_u32 in Hds.
  pose proof (stream_ss_pos v d HV) as Hsp.
  pose proof (stream_table_len v d HV) as Htl.
  unfold io_read_stream.
  destruct (offset <? 0) eqn:E1; [lia|].
  destruct (SSIZE_MAX <? size) eqn:E2; [lia|].
  assert (0 <= offset / stream_sector_size v d) by (apply Z.div_pos; lia).
  assert (HIM : INT_MAX = 2147483647) by reflexivity.
  rewrite s32_id by lia.
  set (index := offset / stream_sector_size v d) in *.
  destruct ((index <? 0) || (zlen (stream_table v d) <=? index)) eqn:E3; [lia|].
  assert (Hw : index * stream_sector_size v d <= offset < (index + 1) * stream_sector_size v d).
  { unfold index. pose proof (Z.div_mod offset (stream_sector_size v d)).
    pose proof (Z.mod_pos_bound offset (stream_sector_size v d)). nia. }
  assert (Hge : index <= (offset + size - 1) / stream_sector_size v d)
    by (apply Z.div_le_lower_bound; lia).
  destruct Hlast as (idl & Hl1 & Hl2).
  destruct (nth_sector_prefix _ _ _ _ (Z.to_nat index) Hl1) as (id & Hid & _); [lia|].
  rewrite (ilift_step _ _ _ id) by (apply skip_sectors_complete; auto).
  eapply stream_loop_complete; eauto; try lia.
  intros _. apply Z.div_lt_upper_bound; [lia|]. destruct Hfew; nia.
Qed.

Lemma io_read_stream_length rd v d cursor m cap t data t' :
  0 <= m -> io_read_stream rd v d cursor m cap t = (Ok data, t') -> zlen data = m.
Proof.
  intros Hm Hr. unfold io_read_stream in Hr.
    destruct (cursor <? 0) eqn:E1; [discriminate|].
    destruct (SSIZE_MAX <? m); [discriminate|].
    destruct (_ || _) eqn:E2 in Hr; [discriminate|].
    apply ibind_ok in Hr as (id & t1 & Hid & H). apply ilift_ok in Hid as [Hid ->].
    revert H. assert (G : forall fuel id index so size cap acc t data t',
      0 <= size ->
      stream_loop fuel rd v d id index so size cap acc t = (Ok data, t') ->
      zlen data = zlen acc + size).
    { clear. induction fuel; intros id index so size cap acc t data t' Hsz H; simpl in H; [discriminate|].
      destruct (size <=? 0) eqn:E; [apply iret_ok in H as [<- _]; lia|].
      destruct (id =? END_OF_CHAIN); [discriminate|].
      apply ibind_ok in H as (base & t1 & _ & H).
      match type of H with (if cap <? ?r then _ else _) _ = _ => set (rs := r) in * end.
      assert (Hrs : rs <= size).
      { unfold rs. match goal with |- (if ?c then _ else _) <= _ => destruct c eqn:? end; lia. }
      destruct (cap <? rs); [discriminate|].
      apply ibind_ok in H as (chunk & t2 & Hrd & H).
      apply ibind_ok in H as (id' & t3 & _ & H).
      apply read_exact_ok in Hrd as (_ & Hl & _).
      destruct (index =? INT_MAX); [discriminate|].
      apply IHfuel in H; [|lia]. rewrite zlen_app in H. lia. }
    intros H. apply G in H; [|lia]. rewrite zlen_nil in H. lia. 
Qed.

Lemma read_buffer_complete f rd v d cursor size cap t :
  let m := Z.min size (de_size d - cursor) in
  let ss := if de_size d <? v_minimum_size v then v_short_sector_size v
            else v_sector_size v in
  let tbl := if de_size d <? v_minimum_size v then v_ssat v else v_sat v in
  io_total rd f -> volume_ok v -> dirent_ok d -> de_type d = 2 ->
  (de_size d < v_minimum_size v ->
   v_short_sector_size v <= v_sector_size v /\ container_used v) ->
  0 <= cursor < de_size d -> 0 < size <= cap -> size <= SSIZE_MAX ->
  (4 <= ss \/ size <= 1073741824) ->
  cursor / ss < zlen tbl ->
  (exists id, nth_sector tbl (de_sector d) (Z.to_nat ((cursor + m - 1) / ss)) id /\
              0 <= id < zlen tbl) ->
  (forall i, cursor <= i < cursor + m -> exists p, stream_position v d i p /\ p < zlen f) ->
  exists data t',
    stream_read_buffer rd v d cursor size cap t = (Ok (data, cursor + m), t') /\
    zlen data = m.
Proof.
  intros m ss tbl HT HV HD Hty Hsh Hc Hsz Hmax Hfew Hix Hlast Hpos.
  assert (Htbl : tbl = stream_table v d) by reflexivity.
  assert (Hss : ss = stream_sector_size v d) by reflexivity.
  clearbody tbl ss. subst tbl ss.
  pose proof (do_size d HD) as Hds. unfold is_u32 in Hds.
  pose proof (stream_ss_pos v d HV) as Hsp.
  assert (Hm : 0 < m <= size) by (unfold m; lia).
  assert (Hraw : forall j, 0 <= j < m -> exists p, raw_position v d (cursor + j) p /\ p < zlen f).
  { intros j Hj. destruct (Hpos (cursor + j)) as (p & Hp & Hpf); [lia|].
    exists p. split; auto. apply stream_to_raw; auto; try lia.
    intros id Hid. destruct Hlast as (idl & Hl1 & Hl2).
    assert ((cursor + j) / stream_sector_size v d <= (cursor + m - 1) / stream_sector_size v d)
      by (apply Z.div_le_mono; lia).
    assert (0 <= (cursor + j) / stream_sector_size v d) by (apply Z.div_pos; lia).
    destruct (nth_sector_prefix _ _ _ _ (Z.to_nat ((cursor + j) / stream_sector_size v d)) Hl1)
      as (x & Hx & Hr); [lia|].
    pose proof (stream_table_len v d HV).
    rewrite (nth_sector_fun _ _ _ _ _ Hid Hx).
    destruct (Z.eq_dec ((cursor + j) / stream_sector_size v d)
                       ((cursor + m - 1) / stream_sector_size v d)) as [He|He].
    - rewrite <- He in Hl1. rewrite (nth_sector_fun _ _ _ _ _ Hx Hl1). lia.
    - assert (0 <= x < zlen (stream_table v d)) by (apply Hr; lia). lia. }
  destruct (io_read_stream_complete f rd v d cursor m cap t) as (data & t' & Hr); auto; try lia.
  { destruct Hfew; [left; lia|right; lia]. }
  unfold stream_read_buffer.
  replace (de_type d =? TYPE_STREAM) with true by (unfold TYPE_STREAM; lia). simpl.
  destruct (cursor <? 0) eqn:E1; [lia|].
  destruct (SSIZE_MAX <? size) eqn:E2; [lia|].
  destruct (de_size d <=? cursor) eqn:E3; [lia|].
  rewrite clamp_eq by lia. fold m.
  erewrite ibind_step by exact Hr.
  assert (Hlen : zlen data = m) by (eapply io_read_stream_length; [|exact Hr]; lia).
  rewrite Hlen, Z.eqb_refl. exists data, t'. auto.
Qed.

(** * Acyclic chains are shorter than the table *)
Lemma NoDup_map_in {A B} (f : A -> B) l :
  (forall x y, In x l -> In y l -> f x = f y -> x = y) -> NoDup l -> NoDup (map f l).
Proof.
  intros H HN. induction HN; simpl; constructor.
  - rewrite in_map_iff. intros (y & Hy & Hin). apply H0.
    rewrite <- (H y x); simpl; auto.
  - apply IHHN. intros; apply H; simpl; auto.
Qed.

Lemma acyclic_bound tbl first n id :
  nth_sector tbl first n id -> 0 <= id < zlen tbl ->
  (forall j k x, (j <= n)%nat -> (k <= n)%nat ->
     nth_sector tbl first j x -> nth_sector tbl first k x -> j = k) ->
  Z.of_nat n < zlen tbl.
Proof.
  intros Hn Hid Hinj.
  assert (Hex : forall k, (k <= n)%nat -> exists x, nth_sector tbl first k x /\ 0 <= x < zlen tbl).
  { intros k Hk. destruct (nth_sector_prefix _ _ _ _ k Hn Hk) as (x & Hx & Hr).
    exists x. split; auto. destruct (Nat.eq_dec k n); [|apply Hr; lia].
    subst. rewrite (nth_sector_fun _ _ _ _ _ Hx Hn). lia. }
  assert (Hch : exists l, length l = S n /\
     forall k, (k <= n)%nat -> exists x, nth_error l k = Some x /\
       nth_sector tbl first k x /\ 0 <= x < zlen tbl).
  { assert (G : forall m, (m <= S n)%nat -> exists l, length l = m /\
     forall k, (k < m)%nat -> exists x, nth_error l k = Some x /\
       nth_sector tbl first k x /\ 0 <= x < zlen tbl).
    { induction m; intros Hm.
      - exists []. split; auto. intros; lia.
      - destruct IHm as (l & Hl & Hk); [lia|].
        destruct (Hex m) as (x & Hx & Hr); [lia|].
        exists (l ++ [x]). split; [rewrite app_length; simpl; lia|].
        intros k Hkm. destruct (Nat.eq_dec k m).
        + subst. exists x. rewrite nth_error_app2, Nat.sub_diag by lia. auto.
        + destruct (Hk k) as (y & Hy & H'); [lia|]. exists y.
          rewrite nth_error_app1 by lia. auto. }
    destruct (G (S n) (le_n _)) as (l & Hl & Hk). exists l. split; auto.
    intros k Hkn. apply Hk. lia. }
  destruct Hch as (l & Hl & Hk).
  assert (HND : NoDup l).
  { apply NoDup_nth_error. intros i j Hi E.
    destruct (Hk i) as (x & Hx & Hnx & _); [lia|].
    assert (Hj : (j < length l)%nat) by (apply nth_error_Some; congruence).
    destruct (Hk j) as (y & Hy & Hny & _); [lia|].
    assert (x = y) by congruence. subst. eapply Hinj; eauto; lia. }
  assert (Hincl : incl l (map Z.of_nat (seq 0 (length tbl)))).
  { intros x Hx. apply In_nth_error in Hx as (k & Hx).
    assert (Hkl : (k < length l)%nat) by (apply nth_error_Some; congruence).
    destruct (Hk k) as (y & Hy & _ & Hr); [lia|].
    assert (x = y) by congruence. subst. apply in_map_iff.
    exists (Z.to_nat y). split; [lia|]. apply in_seq. unfold zlen in Hr. lia. }
  pose proof (NoDup_incl_length HND Hincl) as Hle.
  rewrite map_length, seq_length in Hle. unfold zlen. lia.
Qed.

(** * Reading in pieces *)
Lemma step_read_ok f rd v d cursor size data cursor' :
  io_sound rd f -> volume_ok v -> dirent_ok d -> 0 <= size ->
  item_step rd v d (OpRead size) cursor = (RData data, cursor') ->
  0 <= cursor /\ zlen data = read_amount d cursor size /\ cursor' = cursor + zlen data /\
  forall j b, znth data j = Some b ->
    exists p, raw_position v d (cursor + j) p /\ znth f p = Some b.
Proof.
  intros HS HV HD Hsz H. unfold item_step in H.
  destruct (stream_read_buffer rd v d cursor size size []) as [[[dat c]| | |] t'] eqn:E;
    try discriminate H.
  assert (dat = data /\ c = cursor') as [-> ->] by (split; congruence).
  pose proof (read_buffer_ok _ _ _ _ _ _ _ _ _ _ _ HS HV HD Hsz E) as (_ & H1 & _ & H2 & H3 & H4).
  auto.
Qed.

Lemma pieces_ok f v d calls :
  volume_ok v -> dirent_ok d ->
  Forall (fun c => io_sound (fst c) f /\ 0 <= snd c) calls ->
  forall cursor ds cursor', 0 <= cursor ->
    item_run v d (read_calls calls) cursor = (map RData ds, cursor') ->
    zlen (concat ds) = read_amount d cursor (sum_sizes calls) /\
    cursor' = cursor + zlen (concat ds) /\
    forall j b, znth (concat ds) j = Some b ->
      exists p, raw_position v d (cursor + j) p /\ znth f p = Some b.
Proof.
  intros HV HD HF. induction HF as [|[rd size] calls [HS Hsz] HF IH];
    intros cursor ds cursor' Hc H.
  - simpl in H. destruct ds; [|discriminate H].
    assert (cursor = cursor') by congruence. subst.
    simpl. unfold read_amount. change (zlen (@nil Z)) with 0. repeat split; try lia.
    + destruct (de_size d <=? cursor') eqn:E; lia.
    + intros j b Hj. apply znth_range in Hj. unfold zlen in Hj. simpl in Hj. lia.
  - cbn [fst snd] in *. cbn [read_calls map fst snd] in H. cbn [item_run] in H.
    fold (read_calls calls) in H.
    destruct (item_step rd v d (OpRead size) cursor) as (r, c1) eqn:E1.
    destruct (item_run v d (read_calls calls) c1) as (rs, c2) eqn:E2.
    destruct ds as [|data ds]; [discriminate H|]. cbn [map] in H.
    assert (r = RData data) by congruence. assert (rs = map RData ds) by congruence.
    assert (c2 = cursor') by congruence. subst r rs c2. clear H.
    pose proof (step_read_ok f _ _ _ _ _ _ _ HS HV HD Hsz E1) as (_ & Hl1 & Hc1 & Hp1).
    pose proof (zlen_nonneg data).
    assert (Hc1' : 0 <= c1) by lia.
    destruct (IH c1 ds cursor' Hc1' E2) as (Hl2 & Hc2 & Hp2).
    assert (Hsum : 0 <= sum_sizes calls).
    { clear -HF. induction HF as [|x l [_ Hx]]; unfold sum_sizes in *; simpl; lia. }
    cbn [concat]. rewrite zlen_app.
    change (sum_sizes ((rd, size) :: calls)) with (size + sum_sizes calls).
    unfold read_amount in *. split.
    + destruct (de_size d <=? cursor) eqn:E; destruct (de_size d <=? c1) eqn:E'; lia.
    + split; [lia|]. intros j b Hj. pose proof (znth_range _ _ _ Hj) as Hjr.
      rewrite zlen_app in Hjr. destruct (Z_lt_ge_dec j (zlen data)).
      * rewrite znth_app_l in Hj by lia. auto.
      * rewrite znth_app_r in Hj by lia. destruct (Hp2 _ _ Hj) as (p & Hp & Hb).
        exists p. split; auto. now replace (c1 + (j - zlen data)) with (cursor + j) in Hp by lia.
Qed.

Lemma pieces_whole f v d calls rd cursor ds cursor1 data cursor2 :
  volume_ok v -> dirent_ok d -> 0 <= cursor ->
  Forall (fun c => io_sound (fst c) f /\ 0 <= snd c) calls -> io_sound rd f ->
  item_run v d (read_calls calls) cursor = (map RData ds, cursor1) ->
  item_step rd v d (OpRead (sum_sizes calls)) cursor = (RData data, cursor2) ->
  data = concat ds /\ cursor1 = cursor2.
Proof.
  intros HV HD Hc HF HS H1 H2.
  assert (Hsum : 0 <= sum_sizes calls).
  { clear -HF. induction HF as [|x l [_ Hx]]; unfold sum_sizes in *; simpl; lia. }
  pose proof (pieces_ok f v d calls HV HD HF _ _ _ Hc H1) as (Hl1 & Hc1 & Hp1).
  pose proof (step_read_ok f _ _ _ _ _ _ _ HS HV HD Hsum H2) as (_ & Hl2 & Hc2 & Hp2).
  split; [|lia]. apply znth_ext; [lia|]. intros i Hi.
  destruct (znth_some data i Hi) as (b & Hb).
  destruct (znth_some (concat ds) i) as (b' & Hb'); [lia|].
  destruct (Hp1 _ _ Hb') as (p1 & Hq1 & Hv1). destruct (Hp2 _ _ Hb) as (p2 & Hq2 & Hv2).
  rewrite (raw_position_fun _ _ _ _ _ Hq1 Hq2) in Hv1. congruence.
Qed.

Lemma sum_sizes_nonneg (calls : list (reader * Z)) :
  Forall (fun c => 0 <= snd c) calls -> 0 <= sum_sizes calls.
Proof. induction 1; unfold sum_sizes in *; simpl; lia. Qed.

Lemma pieces_complete f v d calls :
  volume_ok v -> dirent_ok d -> de_type d = TYPE_STREAM ->
  Forall (fun c => io_total (fst c) f /\ 0 < snd c) calls ->
  forall cursor, 0 <= cursor -> sum_sizes calls <= SSIZE_MAX ->
    few_sectors v d (sum_sizes calls) ->
    (forall j, 0 <= j < read_amount d cursor (sum_sizes calls) ->
       (cursor + j) / stream_sector_size v d < zlen (stream_table v d) /\
       (exists idl, nth_sector (stream_table v d) (de_sector d)
          (Z.to_nat ((cursor + j) / stream_sector_size v d)) idl /\
          0 <= idl < zlen (stream_table v d)) /\
       exists p, raw_position v d (cursor + j) p /\ p < zlen f) ->
    exists ds cursor', item_run v d (read_calls calls) cursor = (map RData ds, cursor').
Proof.
  intros HV HD Hty HF. induction HF as [|[rd size] calls [HT Hsz] HF IH];
    intros cursor Hc Hmax Hfew Hj.
  { exists [], cursor. reflexivity. }
  cbn [fst snd] in *. change (sum_sizes ((rd, size) :: calls)) with (size + sum_sizes calls) in *.
  assert (Hsum : 0 <= sum_sizes calls).
  { apply sum_sizes_nonneg. eapply Forall_impl; [|exact HF]. simpl. intros; lia. }
  pose proof (do_size d HD) as Hds. unfold is_u32 in Hds.
  assert (Hfew1 : few_sectors v d size) by (destruct Hfew; [left|right]; lia).
  assert (Hfew2 : few_sectors v d (sum_sizes calls)) by (destruct Hfew; [left|right]; lia).
  assert (H1 : exists data, item_step rd v d (OpRead size) cursor = (RData data, cursor + zlen data)
                            /\ zlen data = read_amount d cursor size).
  { unfold item_step. destruct (Z_le_gt_dec (de_size d) cursor) as [Hle|Hgt].
    - exists []. unfold stream_read_buffer. rewrite Hty, Z.eqb_refl. simpl.
      destruct (cursor <? 0) eqn:E1; [lia|]. destruct (SSIZE_MAX <? size) eqn:E2; [lia|].
      unfold read_amount. destruct (de_size d <=? cursor) eqn:E3; [|lia].
      change (zlen (@nil Z)) with 0. rewrite Z.add_0_r. split; reflexivity.
    - unfold read_amount in Hj. destruct (de_size d <=? cursor) eqn:E3; [lia|].
      set (m := Z.min size (de_size d - cursor)) in *.
      assert (Hm : 0 < m <= size /\ m <= de_size d - cursor) by (unfold m; lia).
      assert (Hmj : forall j, 0 <= j < m ->
                0 <= j < Z.min (size + sum_sizes calls) (de_size d - cursor)) by lia.
      destruct (Hj 0) as (Hix & _); [apply Hmj; lia|]. rewrite Z.add_0_r in Hix.
      destruct (Hj (m - 1)) as (_ & Hl & _); [apply Hmj; lia|].
      replace (cursor + (m - 1)) with (cursor + m - 1) in Hl by lia.
      destruct (io_read_stream_complete f rd v d cursor m size []) as (data & t' & Hr);
        auto; try lia.
      { intros j Hjm. apply Hj. apply Hmj. exact Hjm. }
      { destruct Hfew1; [left|right]; lia. }
      assert (Hlen : zlen data = m) by (eapply io_read_stream_length; [|exact Hr]; lia).
      exists data. unfold stream_read_buffer. rewrite Hty, Z.eqb_refl. simpl.
      destruct (cursor <? 0) eqn:E1; [lia|]. destruct (SSIZE_MAX <? size) eqn:E2; [lia|].
      unfold read_amount. rewrite E3. rewrite clamp_eq by lia. fold m.
      erewrite ibind_step by exact Hr. rewrite Hlen, Z.eqb_refl. split; reflexivity. }
  destruct H1 as (data & H1 & Hlen).
  pose proof (zlen_nonneg data).
  destruct (IH (cursor + zlen data)) as (ds & c' & H2); auto; try lia.
  { intros j Hjr. replace (cursor + zlen data + j) with (cursor + (zlen data + j)) by lia.
    apply Hj. clear - Hjr Hlen Hsz Hsum Hc. unfold read_amount in *.
    destruct (de_size d <=? cursor) eqn:E1; destruct (de_size d <=? cursor + zlen data) eqn:E2; lia. }
  exists (data :: ds), c'. cbn [read_calls map fst snd item_run].
  fold (read_calls calls). rewrite H1, H2. reflexivity.
Qed.

Lemma whole_pieces f v d calls rd cursor data cursor' :
  volume_ok v -> dirent_ok d -> 0 <= cursor ->
  Forall (fun c => io_total (fst c) f /\ io_sound (fst c) f /\ 0 < snd c) calls ->
  io_sound rd f ->
  few_sectors v d (sum_sizes calls) ->
  (forall i, cursor <= i < cursor + zlen data ->
     i / stream_sector_size v d < zlen (stream_table v d)) ->
  item_step rd v d (OpRead (sum_sizes calls)) cursor = (RData data, cursor') ->
  exists ds, item_run v d (read_calls calls) cursor = (map RData ds, cursor') /\
             data = concat ds.
Proof.
  intros HV HD Hc HF HS Hfew Hix H.
  assert (Hsum : 0 <= sum_sizes calls).
  { apply sum_sizes_nonneg. eapply Forall_impl; [|exact HF]. simpl. intros; lia. }
  pose proof (step_read_ok f _ _ _ _ _ _ _ HS HV HD Hsum H) as (_ & Hl & Hc' & Hp).
  assert (Hb : exists t', stream_read_buffer rd v d cursor (sum_sizes calls) (sum_sizes calls) []
                          = (Ok (data, cursor'), t')).
  { unfold item_step in H.
    destruct (stream_read_buffer rd v d cursor (sum_sizes calls) (sum_sizes calls) [])
      as [[[dat c]| | |] t'] eqn:E; try discriminate H.
    exists t'. congruence. }
  destruct Hb as (t' & Hb).
  pose proof (read_buffer_ok _ _ _ _ _ _ _ _ _ _ _ HS HV HD Hsum Hb) as (Hty & _ & Hmax & _).
  destruct (pieces_complete f v d calls HV HD Hty) with (cursor := cursor)
    as (ds & c1 & Hr); auto; try lia.
  - eapply Forall_impl; [|exact HF]. simpl. tauto.
  - rewrite <- Hl. intros j Hj. split; [apply Hix; lia|]. split.
    + exact (read_buffer_ids _ _ _ _ _ _ _ _ _ _ HV HD Hsum Hb j Hj Hl).
    + destruct (znth_some data j Hj) as (b & Hbj). destruct (Hp j b Hbj) as (p & Hpp & Hpb).
      exists p. split; auto. apply znth_range in Hpb. lia.
  - exists ds.
    destruct (pieces_whole f v d calls rd cursor ds c1 data cursor') as [E1 E2]; auto.
    + eapply Forall_impl; [|exact HF]. simpl. intros x (_ & ? & ?). split; auto. lia.
    + subst c1. auto.
Qed.

(** * Histories *)
Lemma seek_result d cursor offset whence c :
  stream_seek_offset d cursor offset whence = Ok c ->
  0 <= c /\ de_type d = TYPE_STREAM.
Proof.
  unfold stream_seek_offset. destruct (de_type d =? TYPE_STREAM) eqn:E; [|discriminate].
  simpl. destruct (cursor <? 0); [discriminate|].
  destruct (negb _ && _ && _); [discriminate|].
  intros H. apply rbind_ok in H as (o & _ & H).
  destruct (o <? 0) eqn:E2; [discriminate|]. apply Ok_inj in H. lia.
Qed.

Lemma read_buffer_basic rd v d cursor size cap t data cursor' t' :
  dirent_ok d -> 0 <= size ->
  stream_read_buffer rd v d cursor size cap t = (Ok (data, cursor'), t') ->
  de_type d = TYPE_STREAM /\ 0 <= cursor /\ size <= SSIZE_MAX /\
  zlen data = read_amount d cursor size /\ cursor' = cursor + zlen data.
Proof.
  intros HD Hsz H. unfold stream_read_buffer in H.
  destruct (de_type d =? TYPE_STREAM) eqn:E0; [|discriminate]. simpl in H.
  destruct (cursor <? 0) eqn:E1; [discriminate|].
  destruct (SSIZE_MAX <? size) eqn:E2; [discriminate|].
  unfold read_amount. pose proof (do_size d HD) as Hds. unfold is_u32 in Hds.
  destruct (de_size d <=? cursor) eqn:E3.
  - apply iret_ok in H as [H _].
    assert (data = [] /\ cursor' = cursor) as [-> ->] by (split; congruence).
    change (zlen (@nil Z)) with 0. repeat split; try lia.
  - rewrite clamp_eq in H by lia.
    apply ibind_ok in H as (dat & t1 & H1 & H).
    destruct (zlen dat =? Z.min size (de_size d - cursor)) eqn:E4; [|discriminate].
    apply iret_ok in H as [H _].
    assert (data = dat /\ cursor' = cursor + zlen dat) as [-> ->] by (split; congruence).
    repeat split; auto; lia.
Qed.

Lemma read_amount_bounds d cursor size :
  0 <= size -> 0 <= read_amount d cursor size <= size.
Proof. unfold read_amount. destruct (de_size d <=? cursor) eqn:E; lia. Qed.

Lemma item_step_cursor rd v d op cursor r cursor' :
  dirent_ok d -> op_args op -> 0 <= cursor ->
  item_step rd v d op cursor = (r, cursor') -> 0 <= cursor'.
Proof.
  intros HD Hop Hc H. destruct op as [size|offset size|offset whence|]; simpl in *.
  - destruct (stream_read_buffer rd v d cursor size size []) as [[[dat c]| | |] t'] eqn:E.
    + apply read_buffer_basic in E as (_ & _ & _ & Hl & Hc'); auto.
      pose proof (zlen_nonneg dat).
      assert (c = cursor') by congruence. lia.
    + assert (cursor = cursor') by congruence. lia.
    + assert (cursor = cursor') by congruence. lia.
    + assert (cursor = cursor') by congruence. lia.
  - destruct Hop as [Ho Hsz]. unfold stream_read_at in H.
    destruct (stream_seek_offset d cursor offset SEEK_SET) as [c1| | |] eqn:Es.
    + apply seek_result in Es as [Es _].
      destruct (stream_read_buffer rd v d c1 size size []) as [[[dat c]| | |] t'] eqn:E.
      * apply read_buffer_basic in E as (_ & _ & _ & Hl & Hc'); auto.
        pose proof (zlen_nonneg dat).
        assert (c = cursor') by congruence. lia.
      * assert (c1 = cursor') by congruence. lia.
      * assert (c1 = cursor') by congruence. lia.
      * assert (c1 = cursor') by congruence. lia.
    + assert (cursor = cursor') by congruence. lia.
    + assert (cursor = cursor') by congruence. lia.
    + assert (cursor = cursor') by congruence. lia.
  - destruct (stream_seek_offset d cursor offset whence) as [c1| | |] eqn:Es.
    + apply seek_result in Es as [Es _]. assert (c1 = cursor') by congruence. lia.
    + assert (cursor = cursor') by congruence. lia.
    + assert (cursor = cursor') by congruence. lia.
    + assert (cursor = cursor') by congruence. lia.
  - destruct (stream_get_offset d cursor); assert (cursor = cursor') by congruence; lia.
Qed.

Lemma item_run_cursor v d h :
  dirent_ok d -> Forall (fun c => op_args (snd c)) h ->
  forall cursor rs cursor', 0 <= cursor ->
    item_run v d h cursor = (rs, cursor') -> 0 <= cursor'.
Proof.
  intros HD HF. induction HF as [|[rd op] h Hop HF IH]; intros cursor rs cursor' Hc H; simpl in H.
  - assert (cursor = cursor') by congruence. lia.
  - destruct (item_step rd v d op cursor) as (r, c1) eqn:E1.
    destruct (item_run v d h c1) as (rs', c2) eqn:E2.
    apply item_step_cursor in E1; auto.
    assert (c2 = cursor') by congruence. subst. eapply IH; eauto.
Qed.

Lemma read_at_history_free rd v d c1 c2 offset size cap t :
  0 <= c1 -> 0 <= c2 ->
  fst (fst (stream_read_at rd v d c1 offset size cap t)) =
  fst (fst (stream_read_at rd v d c2 offset size cap t)) /\
  snd (stream_read_at rd v d c1 offset size cap t) =
  snd (stream_read_at rd v d c2 offset size cap t).
Proof.
  intros H1 H2. unfold stream_read_at, stream_seek_offset, SEEK_SET, SEEK_CUR, SEEK_END.
  destruct (negb (de_type d =? TYPE_STREAM)); [auto|].
  destruct (c1 <? 0) eqn:E1; [lia|]. destruct (c2 <? 0) eqn:E2; [lia|]. simpl.
  destruct (offset <? 0); [auto|].
  destruct (stream_read_buffer rd v d offset size cap t) as [[[]| | |] ?]; auto.
Qed.

Lemma item_step_accounting rd v d op cursor r cursor' :
  dirent_ok d -> op_args op -> 0 <= cursor ->
  item_step rd v d op cursor = (r, cursor') -> step_accounting d op cursor r cursor'.
Proof.
  intros HD Hop Hc H. split; [eapply item_step_cursor; eauto|].
  destruct op as [size|offset size|offset whence|]; simpl in *.
  - destruct (stream_read_buffer rd v d cursor size size []) as [[[dat c]| | |] t'] eqn:E;
      injection H as <- <-; auto.
    apply read_buffer_basic in E as (_ & _ & _ & Hl & Hc'); auto.
    pose proof (read_amount_bounds d cursor size Hop). unfold read_amount in *.
    destruct (de_size d <=? cursor) eqn:E; lia.
  - destruct Hop as [Ho Hsz]. unfold stream_read_at in H.
    destruct (stream_seek_offset d cursor offset SEEK_SET) as [c1| | |] eqn:Es;
      [|injection H as <- <-; auto..].
    assert (c1 = offset).
    { unfold stream_seek_offset in Es. destruct (negb _); [discriminate|].
      destruct (cursor <? 0); [discriminate|]. simpl in Es.
      destruct (offset <? 0); [discriminate|]. congruence. }
    subst c1. apply seek_result in Es as [Es _].
    destruct (stream_read_buffer rd v d offset size size []) as [[[dat c]| | |] t'] eqn:E;
      injection H as <- <-; auto.
    apply read_buffer_basic in E as (_ & _ & _ & Hl & Hc'); auto.
    pose proof (read_amount_bounds d offset size Hsz). unfold read_amount in *.
    destruct (de_size d <=? offset) eqn:E; lia.
  - destruct (stream_seek_offset d cursor offset whence) as [c1| | |] eqn:Es;
      injection H as <- <-; auto.
  - unfold stream_get_offset in H. destruct (negb (de_type d =? TYPE_STREAM));
      injection H as <- <-; auto.
Qed.

(** * Seek *)
Lemma seek_exact d cursor offset whence :
  dirent_ok d -> de_type d = 2 -> 0 <= cursor -> int64 offset ->
  stream_seek_offset d cursor offset whence =
  match seek_base d cursor whence with
  | None => Err
  | Some base =>
      if INT64_MAX <? base + offset then Undef
      else if base + offset <? 0 then Err
      else Ok (base + offset)
  end.
Proof.
  intros HD Hty Hc Ho. unfold int64, INT64_MIN, INT64_MAX in Ho.
  pose proof (do_size d HD) as Hds. unfold is_u32 in Hds.
  unfold stream_seek_offset, seek_base, SEEK_SET, SEEK_CUR, SEEK_END.
  replace (de_type d =? TYPE_STREAM) with true by (unfold TYPE_STREAM; lia). simpl.
  destruct (cursor <? 0) eqn:E; [lia|].
  destruct (whence =? 0) eqn:E0.
  { replace (whence =? 1) with false by lia. replace (whence =? 2) with false by lia. simpl.
    unfold INT64_MAX. destruct (9223372036854775807 <? offset) eqn:E3; [lia|]. auto. }
  destruct (whence =? 1) eqn:E1.
  { simpl. unfold add_s64. rewrite (Z.add_comm offset cursor).
    replace (cursor + offset <? INT64_MIN) with false by (unfold INT64_MIN; lia). simpl.
    destruct (INT64_MAX <? cursor + offset); auto. }
  destruct (whence =? 2) eqn:E2.
  { simpl. unfold add_s64. rewrite (Z.add_comm offset (de_size d)).
    replace (de_size d + offset <? INT64_MIN) with false by (unfold INT64_MIN; lia). simpl.
    destruct (INT64_MAX <? de_size d + offset); auto. }
  auto.
Qed.

(** * Items that are not streams *)
Lemma non_stream_step rd v d op cursor :
  de_type d <> 2 -> item_step rd v d op cursor = (RError, cursor).
Proof.
  intros H. assert (E : (de_type d =? TYPE_STREAM) = false) by (unfold TYPE_STREAM; lia).
  destruct op; simpl; unfold stream_read_buffer, stream_read_at, stream_seek_offset,
    stream_get_offset; rewrite E; reflexivity.
Qed.

(** * At the end *)
Lemma read_at_end rd v d cursor size cap t :
  de_type d = 2 -> 0 <= cursor -> size <= SSIZE_MAX -> de_size d <= cursor ->
  stream_read_buffer rd v d cursor size cap t = (Ok ([], cursor), t).
Proof.
  intros Hty Hc Hs He. unfold stream_read_buffer.
  replace (de_type d =? TYPE_STREAM) with true by (unfold TYPE_STREAM; lia). simpl.
  destruct (cursor <? 0) eqn:E; [lia|]. destruct (SSIZE_MAX <? size) eqn:E1; [lia|].
  destruct (de_size d <=? cursor) eqn:E2; [reflexivity|lia].
Qed.

Lemma read_before_end rd v d cursor size cap t data cursor' t' :
  dirent_ok d -> 0 < size -> 0 <= cursor < de_size d ->
  stream_read_buffer rd v d cursor size cap t = (Ok (data, cursor'), t') ->
  0 < zlen data /\ zlen data = Z.min size (de_size d - cursor).
Proof.
  intros HD Hs Hc H. apply read_buffer_basic in H as (_ & _ & _ & H & _); auto; try lia.
  unfold read_amount in H. destruct (de_size d <=? cursor) eqn:E; lia.
Qed.

(** * The choice of the storage *)
Lemma stream_loop_cong rd v v' d :
  stream_table v d = stream_table v' d ->
  stream_sector_size v d = stream_sector_size v' d ->
  (forall id, sector_read_offset v d id = sector_read_offset v' d id) ->
  forall fuel id index so size cap acc t,
    stream_loop fuel rd v d id index so size cap acc t =
    stream_loop fuel rd v' d id index so size cap acc t.
Proof.
  intros H1 H2 H3. induction fuel; intros; simpl; auto.
  destruct (size <=? 0); auto. destruct (id =? END_OF_CHAIN); auto.
  rewrite H3, <- H2, <- H1. unfold ibind, ilift.
  destruct (sector_read_offset v' d id); auto.
  match goal with |- (if ?c then _ else _) _ = _ => destruct c end; auto.
  destruct (read_exact _ _ _ t) as [[]]; auto.
  destruct (table_next _ id); auto.
  destruct (index =? INT_MAX); auto.
Qed.

Lemma read_buffer_cong rd v v' d cursor size cap t :
  stream_table v d = stream_table v' d ->
  stream_sector_size v d = stream_sector_size v' d ->
  (forall id, sector_read_offset v d id = sector_read_offset v' d id) ->
  stream_read_buffer rd v d cursor size cap t =
  stream_read_buffer rd v' d cursor size cap t.
Proof.
  intros H1 H2 H3. unfold stream_read_buffer.
  destruct (negb _); auto. destruct (cursor <? 0); auto. destruct (SSIZE_MAX <? size); auto.
  destruct (de_size d <=? cursor); auto. unfold ibind.
  assert (G : forall n, io_read_stream rd v d cursor n cap t =
                        io_read_stream rd v' d cursor n cap t).
  { intros n. unfold io_read_stream. rewrite H1, H2. destruct (cursor <? 0); auto.
    destruct (SSIZE_MAX <? n); auto.
    destruct (_ || _); auto. unfold ibind, ilift. destruct (skip_sectors _ _ _); auto.
    apply stream_loop_cong; auto. }
  now rewrite G.
Qed.

Lemma read_threshold_only rd v d cursor size cap t m :
  (de_size d < v_minimum_size v <-> de_size d < m) ->
  stream_read_buffer rd v d cursor size cap t =
  stream_read_buffer rd (with_minimum v m) d cursor size cap t.
Proof.
  intros H. assert (E : is_short v d = is_short (with_minimum v m) d).
  { unfold is_short, with_minimum. simpl.
    destruct (de_size d <? v_minimum_size v) eqn:E1, (de_size d <? m) eqn:E2; lia. }
  apply read_buffer_cong; [unfold stream_table|unfold stream_sector_size|intros id; unfold sector_read_offset];
    rewrite <- E; reflexivity.
Qed.

Lemma read_regular_only rd v d cursor size cap t sss start ssat :
  v_minimum_size v <= de_size d ->
  stream_read_buffer rd v d cursor size cap t =
  stream_read_buffer rd (with_short v sss start ssat) d cursor size cap t.
Proof.
  intros H. assert (E : is_short v d = false) by (unfold is_short; lia).
  assert (E' : is_short (with_short v sss start ssat) d = false) by (unfold is_short; simpl; lia).
  apply read_buffer_cong; [unfold stream_table|unfold stream_sector_size|intros id; unfold sector_read_offset];
    rewrite E, E'; reflexivity.
Qed.

Lemma read_at_history v d history rs cursor rd offset size :
  dirent_ok d -> Forall (fun c => op_args (snd c)) history ->
  item_run v d history 0 = (rs, cursor) ->
  fst (item_step rd v d (OpReadAt offset size) cursor) =
  fst (item_step rd v d (OpReadAt offset size) 0).
Proof.
  intros HD HF H. apply item_run_cursor in H; auto; [|lia].
  destruct (read_at_history_free rd v d cursor 0 offset size size [] H ltac:(lia)) as [E _].
  unfold item_step.
  destruct (stream_read_at rd v d cursor offset size size []) as [[r1 c1] t1].
  destruct (stream_read_at rd v d 0 offset size size []) as [[r2 c2] t2].
  simpl in E. subst r2. destruct r1; reflexivity.
Qed.

Lemma history_accounting v d history rs cursor rd op r cursor' :
  dirent_ok d -> Forall (fun c => op_args (snd c)) history -> op_args op ->
  item_run v d history 0 = (rs, cursor) ->
  item_step rd v d op cursor = (r, cursor') ->
  0 <= cursor /\ step_accounting d op cursor r cursor'.
Proof.
  intros HD HF Hop H H1. apply item_run_cursor in H; auto; [|lia].
  split; auto. eapply item_step_accounting; eauto.
Qed.

Lemma read_short_positions f rd v d cursor size cap t data cursor' t' :
  io_sound rd f -> volume_ok v -> dirent_ok d -> 0 <= size ->
  de_size d < v_minimum_size v ->
  v_short_sector_size v <= v_sector_size v -> container_used v ->
  stream_read_buffer rd v d cursor size cap t = (Ok (data, cursor'), t') ->
  forall j b, znth data j = Some b ->
    exists id p,
      nth_sector (v_ssat v) (de_sector d)
                 (Z.to_nat ((cursor + j) / v_short_sector_size v)) id /\
      chain_position (v_sat v) (v_sector_size v) (v_container_start v)
        (id * v_short_sector_size v + (cursor + j) mod v_short_sector_size v) p /\
      znth f p = Some b.
Proof.
  intros HS HV HD Hsz Hsh H1 H2 H j b Hj.
  destruct (read_buffer_position _ _ _ _ _ _ _ _ _ _ _ HS HV HD Hsz (fun _ => conj H1 H2) H j b Hj)
    as (p & Hp & Hb).
  unfold stream_position in Hp.
  destruct (de_size d <? v_minimum_size v) eqn:E; [|lia].
  destruct Hp as (id & Hid & Hp). exists id, p. auto.
Qed.
