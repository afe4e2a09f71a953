(** Lemmas on what a read of a stream asks the I/O layer for. *)
From Coq Require Import ZArith List Bool Lia.
From Verif Require Import Base Spec_IO M_Table M_Load M_Stream Spec_Stream Spec_Content
  L_Base L_Stream L_Stream2 L_Stream3 L_Fuse Spec_Fault L_Fault L_Fault2 Spec_Requests.
Import ListNotations.
Open Scope Z_scope.

Lemma asked_app a b : bytes_asked (a ++ b) = bytes_asked a ++ bytes_asked b.
Proof. unfold bytes_asked. now rewrite map_app, concat_app. Qed.

Lemma asked_one off m : 0 <= m ->
  zlen (bytes_asked [(off, m)]) = m /\
  forall k p, znth (bytes_asked [(off, m)]) k = Some p -> p = off + k.
Proof.
  intros Hm. unfold bytes_asked. cbn [map concat fst snd]. rewrite app_nil_r. split.
  - unfold zlen. rewrite map_length, seq_length. lia.
  - intros k p H. unfold znth in H. destruct (k <? 0) eqn:E; [discriminate|]. rewrite nth_error_map in H.
    destruct (nth_error (seq 0 (Z.to_nat m)) (Z.to_nat k)) as [x|] eqn:Ex; [|discriminate]. cbn [option_map] in H.
    assert (Hl : (Z.to_nat k < Z.to_nat m)%nat) by (rewrite <- (seq_length (Z.to_nat m) 0); apply nth_error_Some; congruence).
    apply nth_error_nth with (d := 0%nat) in Ex. rewrite seq_nth in Ex by exact Hl. assert (Hp : off + Z.of_nat x = p) by congruence. lia.
Qed.

(** The requests [q], for bytes of the stream from [so] on, at most [size]. *)
Definition raw_part (v : volume) (d : dirent) (so size off m : Z) : Prop :=
  0 < m /\ exists i, so <= i /\ i + m <= so + size /\ forall k, 0 <= k < m -> raw_position v d (i + k) (off + k).

Definition answered (rd : reader) (off m : Z) : Prop := exists t l, rd t off m = Some l /\ zlen l = m.

Definition raw_asks (rd : reader) (v : volume) (d : dirent) (so size : Z) (q : trace) (all : Prop) : Prop :=
  zlen (bytes_asked q) <= size /\ (all -> zlen (bytes_asked q) = size) /\
  (forall k p, znth (bytes_asked q) k = Some p -> raw_position v d (so + k) p) /\
  forall off m, In (off, m) q -> raw_part v d so size off m /\ (all -> answered rd off m).

Definition is_ok {A} (r : res A) : Prop := match r with Ok _ => True | _ => False end.

Lemma raw_none rd v d so size (all : Prop) : 0 <= size -> (all -> size = 0) -> raw_asks rd v d so size [] all.
Proof.
  intros H H0. split; [exact H|]. split; [intros Ha; symmetry; auto|]. split.
  - intros k p Hk. apply znth_range in Hk. unfold zlen in Hk. cbn in Hk. lia.
  - intros off m [].
Qed.

Lemma stream_loop_asks rd v d : volume_ok v -> dirent_ok d ->
  forall fuel id index so size cap acc t r t',
    nth_sector (stream_table v d) (de_sector d) (Z.to_nat index) id ->
    0 <= index -> 0 <= size ->
    (size = 0 \/ index * stream_sector_size v d <= so < (index + 1) * stream_sector_size v d) ->
    stream_loop fuel rd v d id index so size cap acc t = (r, t') ->
    exists q, t' = t ++ q /\ raw_asks rd v d so size q (is_ok r).
Proof.
  intros HV HD. pose proof (stream_ss_pos v d HV) as Hss. set (ss := stream_sector_size v d) in *.
  induction fuel as [|fuel IH]; intros id index so size cap acc t r t' Hns Hi Hsz Hb H.
  { cbn [stream_loop] in H. unfold ilift in H. apply pair_equal_spec in H as [<- <-]. exists []. rewrite app_nil_r.
    split; [reflexivity|]. apply raw_none; [exact Hsz|]. intros []. }
  assert (Hnone : t' = t -> ~ is_ok r -> exists q, t' = t ++ q /\ raw_asks rd v d so size q (is_ok r)).
  { intros -> Hr. exists []. rewrite app_nil_r. split; [reflexivity|]. apply raw_none; [exact Hsz|]. intros Hr'. contradiction. }
  cbn [stream_loop] in H. destruct (size <=? 0) eqn:E0.
  { unfold iret in H. apply pair_equal_spec in H as [<- <-]. exists []. rewrite app_nil_r. split; [reflexivity|].
    apply raw_none; [exact Hsz|]. intros _. lia. }
  destruct Hb as [Hb|Hb]; [lia|].
  destruct (id =? END_OF_CHAIN).
  { unfold ierr, ilift in H. apply pair_equal_spec in H as [<- <-]. apply Hnone; auto. }
  fold ss in H. cbn zeta in H.
  destruct (sector_read_offset v d id) as [base| | |] eqn:Hbase;
    [|unfold ibind, ilift in H; apply pair_equal_spec in H as [<- <-]; apply Hnone; auto..].
  unfold ibind at 1 in H. unfold ilift at 1 in H.
  set (delta := if index * ss <? so then so - index * ss else 0) in *.
  assert (Hdelta : delta = so - index * ss) by (unfold delta; destruct (index * ss <? so) eqn:?; lia).
  rewrite u64_id in H by lia.
  set (rs := if size <? ss - delta then size else ss - delta) in *.
  assert (Hrs : 0 < rs /\ rs <= size /\ rs <= ss - delta /\ (rs < size -> rs = ss - delta))
    by (unfold rs; destruct (size <? ss - delta) eqn:?; lia).
  destruct (cap <? rs). { unfold ilift in H. apply pair_equal_spec in H as [<- <-]. apply Hnone; auto. }
  assert (Hraw : forall k, 0 <= k < rs -> raw_position v d (so + k) (base + delta + k)).
  { intros k Hk. exists id, base. fold ss.
    assert (Hdiv : (so + k) / ss = index) by (symmetry; apply Z.div_unique with (r := delta + k); lia).
    assert (Hmod : (so + k) mod ss = delta + k) by (symmetry; apply Z.mod_unique with (q := index); lia).
    rewrite Hdiv, Hmod. split; [exact Hns|]. split; [exact Hbase|]. lia. }
  assert (Hpart : raw_part v d so size (base + delta) rs).
  { split; [lia|]. exists so. split; [lia|]. split; [lia|]. exact Hraw. }
  destruct (asked_one (base + delta) rs ltac:(lia)) as (A1 & A2).
  assert (Hfirst : forall (all : Prop), ~ all -> raw_asks rd v d so size [(base + delta, rs)] all).
  { intros all Ha. split; [lia|]. split; [intros Hal; contradiction|]. split.
    - intros k p Hk. pose proof (znth_range _ _ _ Hk) as Hr. rewrite A1 in Hr. rewrite (A2 k p Hk). now apply Hraw.
    - intros off m [E|[]]. apply pair_equal_spec in E as [<- <-]. split; [exact Hpart|contradiction]. }
  destruct (read_exact_cases rd (base + delta) rs t) as [(l & Hrd & Hans)|Hrd].
  2:{ unfold ibind at 1 in H. first [rewrite Hrd in H|rewrite (proj1 Hrd) in H]. apply pair_equal_spec in H as [<- <-]. exists [(base + delta, rs)].
      split; [reflexivity|]. apply Hfirst. intros []. }
  unfold ibind at 1 in H. rewrite Hrd in H.
  destruct (table_next (stream_table v d) id) as [id'| | |] eqn:Hnext;
    [|unfold ibind, ilift in H; apply pair_equal_spec in H as [<- <-]; exists [(base + delta, rs)]; (split; [reflexivity|]);
      apply Hfirst; intros []..].
  unfold ibind at 1 in H. unfold ilift at 1 in H.
  destruct (index =? INT_MAX).
  { unfold ilift in H. apply pair_equal_spec in H as [<- <-]. exists [(base + delta, rs)]. split; [reflexivity|]. apply Hfirst. intros []. }
  assert (Hu : is_u32 id) by exact (nth_sector_u32 _ _ _ _ (stream_table_u32 v d HV) (do_sector d HD) Hns).
  unfold is_u32 in Hu. apply table_next_ok in Hnext as [Hnext _]; [|lia].
  assert (Hns' : nth_sector (stream_table v d) (de_sector d) (Z.to_nat (index + 1)) id').
  { replace (Z.to_nat (index + 1)) with (S (Z.to_nat index)) by lia. econstructor; eauto. }
  destruct (IH id' (index + 1) (so + rs) (size - rs) (cap - rs) (acc ++ l) (t ++ [(base + delta, rs)]) r t' Hns'
              ltac:(lia) ltac:(lia) ltac:(lia) H) as (q & -> & Q1 & Q2 & Q3 & Q4).
  exists ((base + delta, rs) :: q). split; [now rewrite <- app_assoc|].
  change ((base + delta, rs) :: q) with ([(base + delta, rs)] ++ q). unfold raw_asks. rewrite asked_app, zlen_app, A1.
  split; [lia|]. split; [intros Ho; specialize (Q2 Ho); lia|]. split.
  - intros k p Hk. pose proof (znth_range _ _ _ Hk) as Hr. destruct (Z_lt_ge_dec k rs) as [Hl|Hg].
    + rewrite znth_app_l in Hk by lia. rewrite (A2 k p Hk). apply Hraw. lia.
    + rewrite znth_app_r in Hk by lia. rewrite A1 in Hk. apply Q3 in Hk. now replace (so + rs + (k - rs)) with (so + k) in Hk by lia.
  - intros off m [E|Hin].
    + apply pair_equal_spec in E as [<- <-]. split; [exact Hpart|]. intros _. exists t, l. tauto.
    + destruct (Q4 off m Hin) as ((M1 & i & M2 & M3 & M4) & M5). split; [|exact M5]. split; [exact M1|]. exists i. split; [lia|]. split; [lia|exact M4].
Qed.

Lemma io_read_asks rd v d offset size cap t r t' :
  volume_ok v -> dirent_ok d -> 0 <= size -> offset < 4294967296 ->
  io_read_stream rd v d offset size cap t = (r, t') ->
  exists q, t' = t ++ q /\ raw_asks rd v d offset size q (is_ok r).
Proof.
  intros HV HD Hsz Ho H.
  assert (Hnone : t' = t -> ~ is_ok r -> exists q, t' = t ++ q /\ raw_asks rd v d offset size q (is_ok r)).
  { intros -> Hr. exists []. rewrite app_nil_r. split; [reflexivity|]. apply raw_none; [exact Hsz|]. intros Hr'. contradiction. }
  unfold io_read_stream in H.
  destruct (offset <? 0) eqn:E1. { unfold ierr, ilift in H. apply pair_equal_spec in H as [<- <-]. apply Hnone; auto. }
  destruct (SSIZE_MAX <? size). { unfold ierr, ilift in H. apply pair_equal_spec in H as [<- <-]. apply Hnone; auto. }
  cbn zeta in H. set (index := s32 (offset / stream_sector_size v d)) in *.
  destruct ((index <? 0) || (zlen (stream_table v d) <=? index)) eqn:E2.
  { unfold ierr, ilift in H. apply pair_equal_spec in H as [<- <-]. apply Hnone; auto. }
  destruct (skip_sectors (Z.to_nat index) (stream_table v d) (de_sector d)) as [id| | |] eqn:Hid;
    [|unfold ibind, ilift in H; apply pair_equal_spec in H as [<- <-]; apply Hnone; auto..].
  unfold ibind at 1 in H. unfold ilift at 1 in H.
  apply skip_sectors_ok in Hid; [|apply stream_table_u32; auto|apply (do_sector d HD)].
  pose proof (stream_ss_pos v d HV) as Hss.
  assert (Hix : index = offset / stream_sector_size v d) by (eapply index_small; eauto; lia).
  assert (Hw : index * stream_sector_size v d <= offset < (index + 1) * stream_sector_size v d).
  { rewrite Hix. pose proof (Z.div_mod offset (stream_sector_size v d)).
    pose proof (Z.mod_pos_bound offset (stream_sector_size v d)). nia. }
  eapply stream_loop_asks in H; eauto; lia.
Qed.

Lemma read_buffer_asks rd v d c n cap t r t' :
  volume_ok v -> dirent_ok d -> 0 <= n ->
  stream_read_buffer rd v d c n cap t = (r, t') ->
  exists q, t' = t ++ q /\ (0 <= c \/ q = []) /\ raw_asks rd v d c (Z.max 0 (Z.min n (de_size d - c))) q (is_ok r).
Proof.
  intros HV HD Hsz H. pose proof (do_size d HD) as Hds. unfold is_u32 in Hds.
  set (m := Z.max 0 (Z.min n (de_size d - c))).
  assert (Hnone : t' = t -> (is_ok r -> m = 0) -> exists q, t' = t ++ q /\ (0 <= c \/ q = []) /\ raw_asks rd v d c m q (is_ok r)).
  { intros -> Hr. exists []. rewrite app_nil_r. split; [reflexivity|]. split; [now right|]. apply raw_none; [unfold m; lia|exact Hr]. }
  unfold stream_read_buffer in H.
  destruct (negb _). { unfold ierr, ilift in H. apply pair_equal_spec in H as [<- <-]. apply Hnone; [reflexivity|intros []]. }
  destruct (c <? 0) eqn:E1. { unfold ierr, ilift in H. apply pair_equal_spec in H as [<- <-]. apply Hnone; [reflexivity|intros []]. }
  destruct (SSIZE_MAX <? n). { unfold ierr, ilift in H. apply pair_equal_spec in H as [<- <-]. apply Hnone; [reflexivity|intros []]. }
  destruct (de_size d <=? c) eqn:E3.
  { unfold iret in H. apply pair_equal_spec in H as [<- <-]. apply Hnone; [reflexivity|]. intros _. unfold m. lia. }
  cbn zeta in H. rewrite clamp_eq in H by lia. replace (Z.min n (de_size d - c)) with m in H by (unfold m; lia).
  destruct (io_read_stream rd v d c m cap t) as [r1 t1] eqn:E.
  destruct (io_read_asks rd v d c m cap t r1 t1 HV HD ltac:(unfold m; lia) ltac:(lia) E) as (q & -> & Q1 & Q2 & Q3).
  unfold ibind in H. rewrite E in H.
  assert (G : t' = t ++ q /\ (is_ok r -> is_ok r1)).
  { destruct r1 as [l| | |].
    - destruct (_ =? _); unfold iret, ierr, ilift in H; apply pair_equal_spec in H as [<- <-]; cbn; auto.
    - apply pair_equal_spec in H as [<- <-]. auto.
    - apply pair_equal_spec in H as [<- <-]. auto.
    - apply pair_equal_spec in H as [<- <-]. auto. }
  destruct G as (-> & G). destruct Q3 as (Q3 & Q4). exists q. split; [reflexivity|]. split; [left; lia|]. split; [exact Q1|]. split; [auto|].
  split; [exact Q3|]. intros off k Hin. destruct (Q4 off k Hin) as (K1 & K2). split; [exact K1|]. auto.
Qed.

(** * The positions of the format *)
Section Positions.
Variables (v : volume) (d : dirent).
Hypothesis HV : volume_ok v.
Hypothesis HD : dirent_ok d.
Hypothesis HSh : short_ok v d.
Hypothesis HI : intact v d.

Lemma raw_stream i p : 0 <= i < de_size d -> raw_position v d i p -> stream_position v d i p.
Proof.
  intros Hi. apply raw_to_stream; auto; [lia|]. intros k id Hn ->.
  destruct (HI i Hi) as (_ & id' & N1 & N2).
  pose proof (stream_table_len v d HV) as HT. unfold stream_table, stream_sector_size in *. unfold is_short in *.
  destruct (de_size d <? v_minimum_size v); (assert (id' = id) by (eapply nth_sector_fun; eauto)); lia.
Qed.

Lemma asks_stream rd c n cap t r t' : 0 <= n -> stream_read_buffer rd v d c n cap t = (r, t') ->
  exists q, t' = t ++ q /\
    (let l := bytes_asked q in
     zlen l <= Z.max 0 (Z.min n (de_size d - c)) /\ (is_ok r -> zlen l = Z.max 0 (Z.min n (de_size d - c))) /\
     forall k p, znth l k = Some p -> stream_position v d (c + k) p) /\
    forall off m, In (off, m) q -> part_of v d c n off m /\ (is_ok r -> answered rd off m).
Proof.
  intros Hn H. destruct (read_buffer_asks rd v d c n cap t r t' HV HD Hn H) as (q & -> & Hc & Q1 & Q2 & Q3 & Q4).
  exists q. split; [reflexivity|].
  destruct Hc as [Hc| ->].
  2:{ split; [split; [exact Q1|split; [exact Q2|]]|intros off m []]. intros k p Hk. apply znth_range in Hk. unfold zlen in Hk. cbn in Hk. lia. }
  split; [split; [exact Q1|split; [exact Q2|]]|].
  - intros k p Hk. pose proof (znth_range _ _ _ Hk) as Hr. apply raw_stream; [lia|auto].
  - intros off m Hin. destruct (Q4 off m Hin) as ((M1 & i & M2 & M3 & M4) & M5). split; [|exact M5]. split; [exact M1|]. exists i. split; [exact M2|].
    split; [lia|]. intros k Hk. apply raw_stream; [lia|auto].
Qed.

(** Two I/O layers that answer alike. *)
Lemma read_alike rd rd' c n cap t : 0 <= n ->
  (forall t off m, part_of v d c n off m -> rd t off m = rd' t off m) ->
  stream_read_buffer rd v d c n cap t = stream_read_buffer rd' v d c n cap t.
Proof.
  intros Hn HA. destruct (stream_read_buffer rd' v d c n cap t) as [r t'] eqn:E.
  destruct (asks_stream rd' c n cap t r t' Hn E) as (q & -> & _ & Q).
  destruct (local_stream_read v d c n cap rd' t r (t ++ q) E) as (q' & E' & HL). apply app_inv_head in E'. subst q'.
  apply HL. intros [off m] Hin t0. cbn [fst snd]. unfold got. now rewrite (HA t0 off m (proj1 (Q off m Hin))).
Qed.

Lemma position_nonneg i p : stream_position v d i p -> 0 <= p.
Proof.
  pose proof (volume_ss_pos v HV) as Hss. pose proof (volume_sss_pos v HV) as Hsss.
  assert (G : forall first i p, is_u32 first -> chain_position (v_sat v) (v_sector_size v) first i p -> 0 <= p).
  { intros first j p' Hf (id & Hid & ->). pose proof (nth_sector_u32 _ _ _ _ (vo_sat v HV) Hf Hid) as Hu. unfold is_u32 in Hu.
    pose proof (Z.mod_pos_bound j (v_sector_size v) ltac:(lia)). nia. }
  unfold stream_position. destruct (_ <? _).
  - intros (id & _ & H). exact (G _ _ _ (vo_start v HV) H).
  - intros H. exact (G _ _ _ (do_sector d HD) H).
Qed.

Lemma part_nonneg c n off m : part_of v d c n off m -> 0 <= off.
Proof.
  intros (Hm & i & _ & _ & H). specialize (H 0 ltac:(lia)). apply position_nonneg in H. lia.
Qed.

Lemma read_delivered rd rd0 f c n cap t : io_sound rd f -> io_sound rd0 f -> io_total rd0 f -> 0 <= n ->
  delivers rd v d c n ->
  stream_read_buffer rd v d c n cap t = stream_read_buffer rd0 v d c n cap t.
Proof.
  intros HS HS0 HT0 Hn HA. destruct (stream_read_buffer rd0 v d c n cap t) as [r t'] eqn:E.
  destruct (asks_stream rd0 c n cap t r t' Hn E) as (q & -> & _ & Q).
  destruct (local_stream_read v d c n cap rd0 t r (t ++ q) E) as (q' & E' & HL). apply app_inv_head in E'. subst q'.
  apply HL. intros [off m] Hin. cbn [fst snd]. pose proof (proj1 (Q off m Hin)) as HP.
  intros t0. destruct (HA t0 off m HP) as (l & G1 & G2).
  assert (Hg : got rd t0 off m = Some l) by (apply got_full; auto). rewrite Hg. symmetry. apply (sound_weaker rd rd0 f HS HS0 HT0); [exact (part_nonneg _ _ _ _ HP)|exact (proj1 HP)|exact Hg].
Qed.

Lemma read_never rd c n cap t i p : 0 <= n -> c <= i < Z.min (c + n) (de_size d) -> stream_position v d i p -> never_read rd p ->
  ~ is_ok (fst (stream_read_buffer rd v d c n cap t)).
Proof.
  intros Hn Hi Hp HN Ho. destruct (stream_read_buffer rd v d c n cap t) as [r t'] eqn:E. cbn [fst] in Ho.
  destruct (asks_stream rd c n cap t r t' Hn E) as (q & -> & (_ & Q2 & Q3) & Q). specialize (Q2 Ho).
  destruct (znth_some (bytes_asked q) (i - c)) as (p' & Hp'); [lia|].
  pose proof (Q3 _ _ Hp') as HP. replace (c + (i - c)) with i in HP by lia.
  rewrite (stream_position_fun v d i p' p HP Hp) in Hp'.
  apply znth_In in Hp'. unfold bytes_asked in Hp'. apply in_concat in Hp' as (x & Hx & Hp').
  apply in_map_iff in Hx as ([off m] & <- & Hin). apply in_map_iff in Hp' as (k & <- & Hk). apply in_seq in Hk. cbn [fst snd] in *.
  destruct (proj2 (Q off m Hin) Ho) as (t0 & l & G1 & G2). apply (HN t0 off m l); auto. lia.
Qed.
End Positions.

(** What is delivered of a stream, is delivered of each part. *)
Lemma delivers_part rd v d c n : delivers rd v d 0 (de_size d) -> 0 <= c -> delivers rd v d c n.
Proof.
  intros H Hc t off m (Hm & i & I1 & I2 & I3). apply H. split; [exact Hm|]. exists i. split; [lia|]. split; [lia|exact I3].
Qed.

(** A part of a stream that can be read is in the file. *)
Lemma part_inside rd f v d s c n off m : io_sound rd f -> io_total rd f -> is_readable_stream rd v d s -> 0 <= c -> part_of v d c n off m ->
  0 <= off /\ off + m <= zlen f.
Proof.
  intros HS HT (R1 & R2 & _ & _ & _ & f' & S1 & T1 & (_ & C2 & C3)) Hc HP.
  rewrite <- (file_unique rd f f' HS HT S1 T1) in C3.
  split; [exact (part_nonneg v d R1 R2 _ _ _ _ HP)|]. destruct HP as (Hm & i & I1 & I2 & I3).
  destruct (znth_some s (i + (m - 1))) as (b & Eb); [lia|]. destruct (C3 _ _ Eb) as (p & P1 & P2).
  rewrite (stream_position_fun v d _ _ _ P1 (I3 (m - 1) ltac:(lia))) in P2. apply znth_range in P2. lia.
Qed.

Lemma readable_delivers rd v d s c n : is_readable_stream rd v d s -> 0 <= c -> delivers rd v d c n.
Proof.
  intros HR Hc t off m HP. pose proof HR as (_ & _ & _ & _ & _ & f & S1 & T1 & _).
  destruct (part_inside rd f v d s c n off m S1 T1 HR Hc HP). apply T1; auto. exact (proj1 HP).
Qed.
