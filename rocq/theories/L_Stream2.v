(** Lemmas on stream reads: positions, defined outcomes, number of reads. *)
From Coq Require Import ZArith List Bool Lia ZifyBool ZifyNat.
From Verif Require Import Base Spec_IO L_Base M_Table M_Load M_Stream Spec_Stream L_Stream.
Import ListNotations.
Open Scope Z_scope.

Lemma read_buffer_ids rd v d cursor size cap t data cursor' t' :
  volume_ok v -> dirent_ok d -> 0 <= size ->
  stream_read_buffer rd v d cursor size cap t = (Ok (data, cursor'), t') ->
  forall j, 0 <= j < zlen data ->
    zlen data = read_amount d cursor size ->
    exists id', nth_sector (stream_table v d) (de_sector d)
                    (Z.to_nat ((cursor + j) / stream_sector_size v d)) id' /\
                  0 <= id' < zlen (stream_table v d).
Proof.
  intros HV HD Hsz H j Hjr Hlen.
  unfold stream_read_buffer in H.
    destruct (de_type d =? TYPE_STREAM) eqn:E0; [|discriminate]. simpl in H.
    destruct (cursor <? 0) eqn:E1; [discriminate|].
    destruct (SSIZE_MAX <? size) eqn:E2; [discriminate|].
    unfold read_amount in Hlen. pose proof (do_size d HD) as Hds. unfold is_u32 in Hds.
    destruct (de_size d <=? cursor) eqn:E3; [lia|].
    rewrite clamp_eq in H by lia.
    apply ibind_ok in H as (dat & t1 & H1 & H).
    unfold io_read_stream in H1. rewrite E1 in H1.
    destruct (SSIZE_MAX <? Z.min size (de_size d - cursor)); [discriminate|].
    set (index := s32 (cursor / stream_sector_size v d)) in *.
    destruct ((index <? 0) || (zlen (stream_table v d) <=? index)) eqn:E4; [discriminate|].
    apply ibind_ok in H1 as (id0 & t0 & Hid & H1). apply ilift_ok in Hid as [Hid ->].
    apply skip_sectors_ok in Hid; [|apply stream_table_u32; auto|apply (do_sector d HD)].
    pose proof (stream_ss_pos v d HV) as Hss.
    assert (Hix : index = cursor / stream_sector_size v d)
      by (eapply index_small; eauto; lia).
    assert (Hw : index * stream_sector_size v d <= cursor < (index + 1) * stream_sector_size v d).
    { rewrite Hix. pose proof (Z.div_mod cursor (stream_sector_size v d)).
      pose proof (Z.mod_pos_bound cursor (stream_sector_size v d)). nia. }
    exact (stream_loop_ids rd v d HV HD _ _ index cursor
             (Z.min size (de_size d - cursor)) _ _ _ _ _ Hid ltac:(lia) ltac:(lia)
             (or_intror Hw) H1 j ltac:(lia)).
Qed.

Lemma read_buffer_position f rd v d cursor size cap t data cursor' t' :
  io_sound rd f -> volume_ok v -> dirent_ok d -> 0 <= size ->
  (de_size d < v_minimum_size v ->
   v_short_sector_size v <= v_sector_size v /\ container_used v) ->
  stream_read_buffer rd v d cursor size cap t = (Ok (data, cursor'), t') ->
  forall j b, znth data j = Some b ->
    exists p, stream_position v d (cursor + j) p /\ znth f p = Some b.
Proof.
  intros HS HV HD Hsz Hsh H j b Hj.
  pose proof (read_buffer_ok _ _ _ _ _ _ _ _ _ _ _ HS HV HD Hsz H)
    as (_ & Hc0 & _ & Hlen & Hc' & Hpos).
  destruct (Hpos j b Hj) as (p & Hp & Hb). exists p. split; auto.
  pose proof (znth_range _ _ _ Hj) as Hjr.
  apply raw_to_stream; auto; try lia.
  intros k id Hns ->.
  destruct (read_buffer_ids _ _ _ _ _ _ _ _ _ _ HV HD Hsz H j Hjr Hlen) as (id' & Hn' & Hr').
  rewrite (nth_sector_fun _ _ _ _ _ Hns Hn').
  pose proof (stream_table_len v d HV). lia.
Qed.

Lemma chain_position_fun tbl ss first i p1 p2 :
  chain_position tbl ss first i p1 -> chain_position tbl ss first i p2 -> p1 = p2.
Proof.
  intros (id1 & H1 & E1) (id2 & H2 & E2).
  rewrite (nth_sector_fun _ _ _ _ _ H1 H2) in E1. congruence.
Qed.

Lemma stream_position_fun v d i p1 p2 :
  stream_position v d i p1 -> stream_position v d i p2 -> p1 = p2.
Proof.
  unfold stream_position. destruct (de_size d <? v_minimum_size v).
  - intros (id1 & H1 & E1) (id2 & H2 & E2).
    rewrite (nth_sector_fun _ _ _ _ _ H1 H2) in E1.
    eapply chain_position_fun; eauto.
  - apply chain_position_fun.
Qed.

(** * Defined outcomes and termination *)
Lemma ibind_defined {A B} (m : io A) (k : A -> io B) t :
  defined (fst (m t)) ->
  (forall a t1, m t = (Ok a, t1) -> defined (fst (k a t1))) ->
  defined (fst (ibind m k t)).
Proof.
  unfold ibind. destruct (m t) as [[] t1]; simpl; intros H1 H2; auto.
Qed.

Lemma read_exact_defined rd off n t : defined (fst (read_exact rd off n t)).
Proof.
  destruct (read_exact_cases rd off n t) as [(l & -> & _)|[-> _]]; exact I.
Qed.

Lemma sector_read_offset_defined v d id :
  volume_ok v -> is_u32 id -> defined (sector_read_offset v d id).
Proof.
  intros HV Hid. unfold sector_read_offset. destruct (is_short v d); [|exact I].
  pose proof (volume_ss_pos v HV). pose proof (volume_sss_pos v HV).
  unfold is_u32 in Hid.
  assert (0 <= id * v_short_sector_size v) by nia.
  assert (0 <= id * v_short_sector_size v / v_sector_size v) by (apply Z.div_pos; lia).
  pose proof (container_walk_defined
    (Z.to_nat (id * v_short_sector_size v / v_sector_size v) + 1)
    (v_sat v) (v_sector_size v) (id * v_short_sector_size v) (v_container_start v)
    (vo_sat v HV) (vo_start v HV)) as Hd.
  destruct (container_walk _ _ _ _ _) as [(c, rest)| | |]; simpl; auto;
    apply Hd; lia.
Qed.

Lemma stream_loop_defined rd v d :
  volume_ok v -> dirent_ok d ->
  forall fuel id index so size cap acc t,
    is_u32 id -> 0 <= index -> 0 <= size <= cap ->
    (size = 0 \/ index * stream_sector_size v d <= so
                 < (index + 1) * stream_sector_size v d) ->
    (size > 0 -> (so + size - 1) / stream_sector_size v d < INT_MAX) ->
    size < Z.of_nat fuel ->
    defined (fst (stream_loop fuel rd v d id index so size cap acc t)).
Proof.
  intros HV HD. pose proof (stream_ss_pos v d HV) as Hss.
  set (ss := stream_sector_size v d) in *.
  induction fuel; intros id index so size cap acc t Hid Hi Hsz Hb Hmax Hf; [lia|].
  simpl. destruct (size <=? 0) eqn:E0; [exact I|].
  destruct Hb as [Hb|Hb]; [lia|].
  destruct (id =? END_OF_CHAIN); [exact I|].
  apply ibind_defined; [apply sector_read_offset_defined; auto|].
  intros base t1 H1. apply ilift_ok in H1 as [H1 ->]. fold ss.
  set (delta := if index * ss <? so then so - index * ss else 0) in *.
  assert (Hdelta : delta = so - index * ss) by (unfold delta; destruct (index * ss <? so) eqn:?; lia).
  rewrite u64_id by lia.
  set (rs := if size <? ss - delta then size else ss - delta) in *.
  assert (Hrs : 0 < rs /\ rs <= size /\ rs <= ss - delta /\ (rs < size -> rs = ss - delta))
    by (unfold rs; destruct (size <? ss - delta) eqn:?; lia).
  destruct (cap <? rs) eqn:Ecap; [lia|].
  apply ibind_defined; [apply read_exact_defined|].
  intros chunk t2 Hrd. apply read_exact_ok in Hrd as (_ & _ & ->).
  unfold is_u32 in Hid.
  apply ibind_defined; [apply table_next_defined; lia|].
  intros id' t3 Hnext. apply ilift_ok in Hnext as [Hnext ->].
  apply table_next_ok in Hnext as [Hnext _]; [|lia].
  assert (index <= (so + size - 1) / ss).
  { apply Z.div_le_lower_bound; lia. }
  destruct (index =? INT_MAX) eqn:Em; [lia|].
  apply IHfuel; auto; try lia.
  - eapply Forall_znth; [apply (stream_table_u32 v d HV)|eauto].
  - intros _. replace (so + rs + (size - rs) - 1) with (so + size - 1) by lia.
    apply Hmax; lia.
Qed.

(** The condition under which the counter of sectors cannot overflow. *)
Definition few_sectors (v : volume) (d : dirent) (size : Z) : Prop :=
  4 <= stream_sector_size v d \/ size <= 1073741824.

Lemma io_read_stream_defined rd v d offset size cap t :
  volume_ok v -> dirent_ok d -> 0 <= size <= cap ->
  offset + size <= de_size d -> few_sectors v d size ->
  defined (fst (io_read_stream rd v d offset size cap t)).
Proof.
  intros HV HD Hsz Ho Hfew. unfold io_read_stream.
  destruct (offset <? 0) eqn:E1; [exact I|].
  destruct (SSIZE_MAX <? size); [exact I|].
  set (index := s32 (offset / stream_sector_size v d)) in *.
  destruct ((index <? 0) || (zlen (stream_table v d) <=? index)) eqn:E2; [exact I|].
  apply ibind_defined.
  { apply skip_sectors_defined; [apply (stream_table_u32 v d HV)|apply (do_sector d HD)]. }
  intros id t1 Hid. apply ilift_ok in Hid as [Hid ->].
  apply skip_sectors_ok in Hid; [|apply stream_table_u32; auto|apply (do_sector d HD)].
  pose proof (stream_ss_pos v d HV) as Hss.
  pose proof (do_size d HD) as Hds. unfold is_u32 in Hds.
  pose proof (stream_table_len v d HV) as Htl.
  assert (Hix : index = offset / stream_sector_size v d)
    by (eapply index_small; eauto; lia).
  assert (Hw : index * stream_sector_size v d <= offset < (index + 1) * stream_sector_size v d).
  { rewrite Hix. pose proof (Z.div_mod offset (stream_sector_size v d)).
    pose proof (Z.mod_pos_bound offset (stream_sector_size v d)). nia. }
  apply stream_loop_defined; auto; try lia.
  - exact (nth_sector_u32 _ _ _ _ (stream_table_u32 v d HV) (do_sector d HD) Hid).
  - intros Hpos. assert (HIM : INT_MAX = 2147483647) by reflexivity.
    apply Z.div_lt_upper_bound; [lia|].
    destruct Hfew as [Hfew|Hfew]; nia.
Qed.

Lemma read_buffer_defined rd v d cursor size cap t :
  volume_ok v -> dirent_ok d -> 0 <= size <= cap -> few_sectors v d size ->
  defined (fst (stream_read_buffer rd v d cursor size cap t)).
Proof.
  intros HV HD Hsz Hfew. unfold stream_read_buffer.
  destruct (de_type d =? TYPE_STREAM) eqn:E0; [|exact I]. simpl.
  destruct (cursor <? 0) eqn:E1; [exact I|].
  destruct (SSIZE_MAX <? size) eqn:E2; [exact I|].
  pose proof (do_size d HD) as Hds. unfold is_u32 in Hds.
  destruct (de_size d <=? cursor) eqn:E3; [exact I|].
  rewrite clamp_eq by lia.
  apply ibind_defined.
  - apply io_read_stream_defined; auto; try lia.
    destruct Hfew; [left; auto|right; lia].
  - intros dat t1 _. destruct (zlen dat =? _); exact I.
Qed.

(** * Number of reads *)
Lemma stream_loop_reads rd v d :
  volume_ok v -> dirent_ok d ->
  forall fuel id index so size cap acc t,
    is_u32 id -> 0 <= index -> 0 <= size ->
    (size = 0 \/ index * stream_sector_size v d <= so
                 < (index + 1) * stream_sector_size v d) ->
    exists l, snd (stream_loop fuel rd v d id index so size cap acc t) = t ++ l /\
      (size = 0 -> l = []) /\
      (size > 0 -> zlen l <= (so + size - 1) / stream_sector_size v d - index + 1) /\
      Forall (fun r => 0 < snd r <= stream_sector_size v d) l.
Proof.
  intros HV HD. pose proof (stream_ss_pos v d HV) as Hss.
  set (ss := stream_sector_size v d) in *.
  assert (Hnil : forall (t : trace) index so size, 0 <= size ->
    (size = 0 \/ index * ss <= so < (index + 1) * ss) ->
    exists l, t = t ++ l /\ (size = 0 -> l = []) /\
      (size > 0 -> zlen l <= (so + size - 1) / ss - index + 1) /\
      Forall (fun r => 0 < snd r <= ss) l).
  { intros t index so size Hsz Hb. exists []. rewrite app_nil_r.
    repeat split; auto. intros Hp. rewrite zlen_nil.
    assert (index <= (so + size - 1) / ss) by (apply Z.div_le_lower_bound; lia). lia. }
  induction fuel; intros id index so size cap acc t Hid Hi Hsz Hb;
    [apply Hnil; auto|].
  simpl. destruct (size <=? 0) eqn:E0; [apply Hnil; auto|].
  destruct (id =? END_OF_CHAIN); [apply Hnil; auto|].
  unfold ibind at 1. unfold ilift at 1.
  destruct (sector_read_offset v d id) as [base| | |]; [|apply Hnil; auto|apply Hnil; auto|apply Hnil; auto].
  fold ss.
  set (delta := if index * ss <? so then so - index * ss else 0) in *.
  destruct Hb as [Hb|Hb]; [lia|].
  assert (Hdelta : delta = so - index * ss) by (unfold delta; destruct (index * ss <? so) eqn:?; lia).
  rewrite u64_id by lia.
  set (rs := if size <? ss - delta then size else ss - delta) in *.
  assert (Hrs : 0 < rs /\ rs <= size /\ rs <= ss - delta /\ (rs < size -> rs = ss - delta))
    by (unfold rs; destruct (size <? ss - delta) eqn:?; lia).
  assert (Hge : index <= (so + size - 1) / ss) by (apply Z.div_le_lower_bound; lia).
  destruct (cap <? rs) eqn:Ecap; [apply Hnil; auto|].
  assert (Hone : exists l, t ++ [(base + delta, rs)] = t ++ l /\ (size = 0 -> l = []) /\
      (size > 0 -> zlen l <= (so + size - 1) / ss - index + 1) /\
      Forall (fun r => 0 < snd r <= ss) l).
  { exists [(base + delta, rs)]. split; auto. split; [lia|].
    split; [unfold zlen; simpl; lia|]. constructor; simpl; [lia|constructor]. }
  unfold ibind at 1.
  destruct (read_exact_cases rd (base + delta) rs t) as [(chunk & -> & _)|[-> _]]; [|exact Hone].
  unfold ibind at 1. unfold ilift at 1.
  pose proof (table_next_defined (stream_table v d) id) as Hdef.
  unfold is_u32 in Hid.
  destruct (table_next (stream_table v d) id) as [id'| | |] eqn:Hnext;
    [|exact Hone|exact Hone|exact Hone].
  destruct (index =? INT_MAX); [exact Hone|].
  apply table_next_ok in Hnext as [Hnext _]; [|lia].
  destruct (IHfuel id' (index + 1) (so + rs) (size - rs) (cap - rs) (acc ++ chunk)
              (t ++ [(base + delta, rs)])) as (l & Hl & Hl0 & Hl1 & Hl2); try lia.
  { eapply Forall_znth; [apply (stream_table_u32 v d HV)|eauto]. }
  exists ((base + delta, rs) :: l). rewrite Hl, <- app_assoc. split; auto.
  split; [lia|]. split; [|constructor; simpl; [lia|auto]].
  intros _. rewrite zlen_cons.
  replace (so + rs + (size - rs) - 1) with (so + size - 1) in Hl1 by lia.
  destruct (Z.eq_dec (size - rs) 0) as [Hz|Hz].
  - rewrite (Hl0 Hz), zlen_nil. lia.
  - assert (size - rs > 0) by lia. specialize (Hl1 H). lia.
Qed.

Lemma read_buffer_reads rd v d cursor size cap t :
  volume_ok v -> dirent_ok d -> 0 <= size ->
  exists l, snd (stream_read_buffer rd v d cursor size cap t) = t ++ l /\
    zlen l <= size / stream_sector_size v d + 2 /\
    Forall (fun r => 0 < snd r <= stream_sector_size v d) l.
Proof.
  intros HV HD Hsz.
  pose proof (stream_ss_pos v d HV) as Hss.
  assert (0 <= size / stream_sector_size v d) by (apply Z.div_pos; lia).
  assert (Hnil : exists l, t = t ++ l /\ zlen l <= size / stream_sector_size v d + 2 /\
      Forall (fun r => 0 < snd r <= stream_sector_size v d) l).
  { exists []. rewrite app_nil_r, zlen_nil. repeat split; auto. lia. }
  unfold stream_read_buffer.
  destruct (de_type d =? TYPE_STREAM) eqn:E0; [|exact Hnil]. simpl.
  destruct (cursor <? 0) eqn:E1; [exact Hnil|].
  destruct (SSIZE_MAX <? size) eqn:E2; [exact Hnil|].
  pose proof (do_size d HD) as Hds. unfold is_u32 in Hds.
  destruct (de_size d <=? cursor) eqn:E3; [exact Hnil|].
  rewrite clamp_eq by lia. set (m := Z.min size (de_size d - cursor)).
  assert (G : exists l, snd (io_read_stream rd v d cursor m cap t) = t ++ l /\
    zlen l <= size / stream_sector_size v d + 2 /\
      Forall (fun r => 0 < snd r <= stream_sector_size v d) l).
  { unfold io_read_stream. rewrite E1. destruct (SSIZE_MAX <? m); [exact Hnil|].
    set (index := s32 (cursor / stream_sector_size v d)) in *.
    destruct ((index <? 0) || (zlen (stream_table v d) <=? index)) eqn:E4; [exact Hnil|].
    unfold ibind, ilift.
    destruct (skip_sectors _ _ _) as [id| | |] eqn:Hid; [|exact Hnil|exact Hnil|exact Hnil].
    apply skip_sectors_ok in Hid; [|apply stream_table_u32; auto|apply (do_sector d HD)].
    assert (Hix : index = cursor / stream_sector_size v d)
      by (eapply index_small; eauto; lia).
    assert (Hw : index * stream_sector_size v d <= cursor < (index + 1) * stream_sector_size v d).
    { rewrite Hix. pose proof (Z.div_mod cursor (stream_sector_size v d)).
      pose proof (Z.mod_pos_bound cursor (stream_sector_size v d)). nia. }
    destruct (stream_loop_reads rd v d HV HD (Z.to_nat m + 1) id index cursor m cap [] t)
      as (l & H1 & H2 & H3 & H4); auto; try lia.
    { exact (nth_sector_u32 _ _ _ _ (stream_table_u32 v d HV) (do_sector d HD) Hid). }
    exists l. split; auto. split; auto.
    destruct (Z.eq_dec m 0) as [Hm|Hm]; [rewrite (H2 Hm), zlen_nil; lia|].
    assert (Hm' : m > 0) by lia. specialize (H3 Hm').
    set (ss := stream_sector_size v d) in *. clearbody ss.
    assert (Hmm : m / ss <= size / ss) by (apply Z.div_le_mono; lia).
    assert ((cursor + m - 1) / ss < index + m / ss + 2); [|lia].
    apply Z.div_lt_upper_bound; [lia|].
    pose proof (Z.div_mod m ss ltac:(lia)). pose proof (Z.mod_pos_bound m ss ltac:(lia)).
    lia. }
  destruct G as (l & Hl & Hl2 & Hl3). exists l. split; auto.
  unfold ibind. destruct (io_read_stream rd v d cursor m cap t) as [[dat| | |] t1] eqn:Er;
    simpl in *; auto. destruct (zlen dat =? m); auto.
Qed.
