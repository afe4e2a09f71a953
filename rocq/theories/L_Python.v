(** Lemmas on the Python bindings. *)
From Coq Require Import ZArith List Bool Lia.
From Verif Require Import Base Spec_IO M_Table M_Load M_Stream M_Tree M_Open M_Item M_Mount M_Fuse M_Python
  Spec_Stream Spec_Content Spec_Python L_Base L_Stream L_Stream2 L_Stream3 X_Linear L_Fuse.
Import ListNotations.
Open Scope Z_scope.

(** * Integers *)
Lemma integer_signed_iff v z :
  integer_signed v = Ok z <-> v = PInt z /\ - 9223372036854775808 <= z < 9223372036854775808.
Proof.
  unfold integer_signed. split.
  - destruct v as [x|l| |]; try discriminate.
    destruct ((x <? - 9223372036854775808) || (9223372036854775807 <? x)) eqn:E; [discriminate|].
    intros H. injection H as <-. apply orb_false_iff in E. split; [reflexivity|lia].
  - intros [-> H]. replace ((z <? - 9223372036854775808) || (9223372036854775807 <? z)) with false; [reflexivity|].
    symmetry. apply orb_false_iff. lia.
Qed.

Lemma s64_small x : 0 <= x < 9223372036854775808 -> s64 x = x.
Proof.
  intros H. unfold s64, INT64_MAX. rewrite Z.mod_small by lia.
  replace (x <=? 9223372036854775807) with true by (symmetry; apply Z.leb_le; lia). reflexivity.
Qed.

Lemma s64_large x : 9223372036854775808 <= x < 18446744073709551616 -> s64 x = x - 18446744073709551616.
Proof.
  intros H. unfold s64, INT64_MAX. rewrite Z.mod_small by lia.
  replace (x <=? 9223372036854775807) with false by (symmetry; apply Z.leb_gt; lia). reflexivity.
Qed.

Lemma u64_small x : 0 <= x < 18446744073709551616 -> u64 x = x.
Proof. intros H. unfold u64. now apply Z.mod_small. Qed.

Lemma integer_unsigned_iff v z :
  integer_unsigned v = Ok z <-> v = PInt z /\ 0 <= z < 9223372036854775808.
Proof.
  unfold integer_unsigned. split.
  - destruct v as [x|l| |]; try discriminate.
    destruct ((x <? 0) || (18446744073709551615 <? x)) eqn:E; [discriminate|]. apply orb_false_iff in E. cbv zeta.
    destruct (Z_lt_le_dec x 9223372036854775808) as [L|L].
    + rewrite s64_small by lia. rewrite (proj1 E). rewrite u64_small by lia. intros H. injection H as <-. split; [reflexivity|lia].
    + rewrite s64_large by lia. replace (x - 18446744073709551616 <? 0) with true by (symmetry; apply Z.ltb_lt; lia). discriminate.
  - intros [-> H]. replace ((z <? 0) || (18446744073709551615 <? z)) with false by (symmetry; apply orb_false_iff; lia).
    cbv zeta. rewrite s64_small by lia. replace (z <? 0) with false by (symmetry; apply Z.ltb_ge; lia). now rewrite u64_small by lia.
Qed.

Lemma integer_signed_cases v : (exists z, integer_signed v = Ok z) \/ integer_signed v = Err.
Proof. unfold integer_signed. destruct v; auto. destruct (_ || _); eauto. Qed.

Lemma integer_unsigned_cases v : (exists z, integer_unsigned v = Ok z) \/ integer_unsigned v = Err.
Proof. unfold integer_unsigned. destruct v; auto. destruct (_ || _); auto. cbv zeta. destruct (_ <? _); eauto. Qed.

Lemma unsigned_new_eq x : 0 <= x < 18446744073709551616 -> unsigned_new x = PInt x.
Proof.
  intros H. unfold unsigned_new. f_equal. destruct (Z_lt_le_dec x 9223372036854775808) as [L|L].
  - rewrite s64_small by lia. apply u64_small. lia.
  - rewrite s64_large by lia. unfold u64. rewrite <- (Z.mod_small x 18446744073709551616) at 2 by lia.
    replace x with (x - 18446744073709551616 + 1 * 18446744073709551616) at 2 by lia. now rewrite Z_mod_plus_full.
Qed.

(** * File objects *)
Section Object.
Variable S : Type.
Variable ob : pyobject S.
Variable f : list Z.
Variable pos : S -> Z.

Lemma object_read_at_undef offset size s : fst (object_read_at ob offset size s) = Undef <->
  exists o s1 l s2, handle_seek ob offset SEEK_SET s = (Ok o, s1) /\ 0 <= o /\ 0 < size <= SSIZE_MAX /\
    po_read ob size s1 = (Some (PBytes l), s2) /\ size < zlen l.
Proof.
  unfold object_read_at. split.
  - destruct (handle_seek ob offset SEEK_SET s) as [[o| | |] s1]; try discriminate.
    destruct (o <? 0) eqn:E; [discriminate|]. unfold object_read.
    destruct (SSIZE_MAX <? size) eqn:E2; [discriminate|]. destruct (0 <? size) eqn:E3; [|discriminate].
    destruct (po_read ob size s1) as [[[z|l| |]|] s2] eqn:Er; try discriminate.
    destruct (size <? zlen l) eqn:E4; [|discriminate]. intros _. exists o, s1, l, s2.
    split; [reflexivity|]. split; [lia|]. split; [lia|]. split; [exact Er|lia].
  - intros (o & s1 & l & s2 & -> & Ho & Hs & Hr & Hl).
    replace (o <? 0) with false by (symmetry; apply Z.ltb_ge; lia). unfold object_read.
    replace (SSIZE_MAX <? size) with false by (symmetry; apply Z.ltb_ge; lia).
    replace (0 <? size) with true by (symmetry; apply Z.ltb_lt; lia). rewrite Hr.
    replace (size <? zlen l) with true by (symmetry; apply Z.ltb_lt; lia). reflexivity.
Qed.

Section Like.
Hypothesis HL : file_like ob f pos.

Lemma like_get_offset s o s' : object_get_offset ob s = (Ok o, s') -> o = pos s /\ pos s' = pos s.
Proof.
  unfold object_get_offset. destruct (po_has_get_offset ob s) eqn:E.
  - destruct (po_get_offset ob s) as [[v|] s1] eqn:Eg; [|discriminate]. intros H. injection H as H <-.
    destruct (fl_get_offset _ _ _ HL s v s1 E Eg) as [-> Hp]. apply integer_signed_iff in H as [H _]. injection H as <-. auto.
  - destruct (po_tell ob s) as [[v|] s1] eqn:Eg; [|discriminate]. intros H. injection H as H <-.
    destruct (fl_tell _ _ _ HL s v s1 Eg) as [-> Hp]. apply integer_signed_iff in H as [H _]. injection H as <-. auto.
Qed.

Lemma like_seek offset s o s' : 0 <= offset -> handle_seek ob offset SEEK_SET s = (Ok o, s') -> o = offset /\ pos s' = offset.
Proof.
  intros Ho. unfold handle_seek, object_seek. change (negb (SEEK_SET =? SEEK_CUR) && negb (SEEK_SET =? SEEK_END) && negb (SEEK_SET =? SEEK_SET)) with false. cbv iota.
  change SEEK_SET with 0. destruct (po_seek ob offset 0 s) as [[v|] s1] eqn:E; [|discriminate].
  intros H. destruct (like_get_offset _ _ _ H) as [-> Hp]. pose proof (fl_seek _ _ _ HL offset s v s1 E Ho). lia.
Qed.

Lemma like_read_at offset size s : 0 <= offset ->
  match fst (object_read_at ob offset size s) with
  | Ok l => zlen l <= Z.max 0 size /\ l = slice f offset (zlen l)
  | Err => True
  | _ => False
  end.
Proof.
  intros Ho. unfold object_read_at.
  destruct (handle_seek ob offset SEEK_SET s) as [[o| | |] s1] eqn:E; try exact I.
  destruct (like_seek _ _ _ _ Ho E) as [-> Hp].
  destruct (offset <? 0) eqn:E1; [exact I|]. unfold object_read.
  destruct (SSIZE_MAX <? size); [exact I|]. destruct (0 <? size) eqn:E3.
  - destruct (po_read ob size s1) as [[[z|l| |]|] s2] eqn:Er; try exact I.
    destruct (fl_read _ _ _ HL size s1 l s2 Er) as [H1 H2]; [lia|lia|]. rewrite Hp in H2.
    replace (size <? zlen l) with false by (symmetry; apply Z.ltb_ge; lia). cbn. split; [lia|exact H2].
  - cbn [fst]. rewrite zlen_nil. split; [lia|]. reflexivity.
Qed.

Lemma object_reader_sound s : io_sound (object_reader ob s) f.
Proof.
  intros t off n l Hoff Hn Hr Hl. unfold object_reader in Hr.
  pose proof (like_read_at off n (object_after ob t s) Hoff) as H.
  destruct (fst (object_read_at ob off n (object_after ob t s))); try discriminate. injection Hr as ->.
  destruct H as [H1 H2]. rewrite Hl in H2. split; [|exact H2].
  destruct (Z_le_gt_dec (off + n) (zlen f)); [assumption|exfalso].
  rewrite H2 in Hl. destruct (Z_le_gt_dec (zlen f) off).
  - rewrite slice_beyond in Hl by lia. rewrite zlen_nil in Hl. lia.
  - rewrite (slice_clip f off n) in Hl by lia. rewrite zlen_slice in Hl by lia. lia.
Qed.
End Like.

Lemma object_reader_bytes s : gives_bytes ob -> io_bytes (object_reader ob s).
Proof.
  intros HB t off n l H. unfold object_reader, object_read_at in H.
  destruct (handle_seek ob off SEEK_SET (object_after ob t s)) as [[o| | |] s1]; try discriminate.
  destruct (o <? 0); [discriminate|]. unfold object_read in H.
  destruct (SSIZE_MAX <? n); [discriminate|]. destruct (0 <? n).
  - destruct (po_read ob n s1) as [[[z|l1| |]|] s2] eqn:Er; try discriminate. cbn [fst] in H.
    destruct (n <? zlen l1); [discriminate|]. injection H as <-. eapply HB; eauto.
  - injection H as <-. constructor.
Qed.

Section Reliable.
Hypothesis HR : reliable ob f pos.

Lemma reliable_get_offset s : - 9223372036854775808 <= pos s < 9223372036854775808 ->
  exists s', object_get_offset ob s = (Ok (pos s), s') /\ pos s' = pos s.
Proof.
  intros Hp. unfold object_get_offset.
  assert (Hi : integer_signed (PInt (pos s)) = Ok (pos s)) by (apply integer_signed_iff; auto).
  destruct (po_has_get_offset ob s) eqn:E.
  - destruct (rl_get_offset _ _ _ HR s E) as (s' & -> & H). rewrite Hi. eauto.
  - destruct (rl_tell _ _ _ HR s) as (s' & -> & H). rewrite Hi. eauto.
Qed.

Lemma reliable_seek o s : 0 <= o -> exists s', object_seek ob o SEEK_SET s = (Ok tt, s') /\ pos s' = o.
Proof.
  intros Ho. unfold object_seek.
  change (negb (SEEK_SET =? SEEK_CUR) && negb (SEEK_SET =? SEEK_END) && negb (SEEK_SET =? SEEK_SET)) with false. cbv iota.
  change SEEK_SET with 0. destruct (rl_seek _ _ _ HR o s Ho) as (v & s' & -> & H). eauto.
Qed.

Lemma reliable_handle_seek o s : 0 <= o < 9223372036854775808 ->
  exists s', handle_seek ob o SEEK_SET s = (Ok o, s') /\ pos s' = o.
Proof.
  intros Ho. unfold handle_seek. destruct (reliable_seek o s ltac:(lia)) as (s1 & -> & H1).
  destruct (reliable_get_offset s1 ltac:(lia)) as (s2 & -> & H2). exists s2. split; [now rewrite H1|lia].
Qed.

Lemma reliable_read_at o n s : 0 <= o < 9223372036854775808 -> 0 < n <= SSIZE_MAX ->
  fst (object_read_at ob o n s) = Ok (slice f o n).
Proof.
  intros Ho Hn. unfold object_read_at. destruct (reliable_handle_seek o s Ho) as (s1 & -> & H1).
  replace (o <? 0) with false by (symmetry; apply Z.ltb_ge; lia). unfold object_read.
  replace (SSIZE_MAX <? n) with false by (symmetry; apply Z.ltb_ge; lia).
  replace (0 <? n) with true by (symmetry; apply Z.ltb_lt; lia).
  destruct (rl_read _ _ _ HR n s1 ltac:(lia) ltac:(lia)) as (s2 & ->). rewrite H1.
  replace (n <? zlen (slice f o n)) with false; [reflexivity|]. symmetry. apply Z.ltb_ge.
  unfold slice, zlen. rewrite firstn_length. lia.
Qed.

Lemma object_reader_total s : zlen f <= SSIZE_MAX -> io_total (object_reader ob s) f.
Proof.
  intros Hf t off n Hoff Hn Hin. unfold object_reader.
  rewrite reliable_read_at; [|unfold SSIZE_MAX in Hf; lia|lia]. eexists. split; [reflexivity|]. apply zlen_slice; lia.
Qed.

Lemma reliable_get_size s : po_has_get_size ob s = false -> zlen f <= SSIZE_MAX -> 0 <= pos s <= SSIZE_MAX ->
  exists s', handle_get_size ob s = (Ok (Some (zlen f)), s') /\ pos s' = pos s.
Proof.
  intros E Hf Hp. unfold SSIZE_MAX in *. unfold handle_get_size. rewrite E.
  destruct (reliable_get_offset s ltac:(lia)) as (s1 & -> & H1).
  unfold object_seek at 1. change (negb (SEEK_END =? SEEK_CUR) && negb (SEEK_END =? SEEK_END) && negb (SEEK_END =? SEEK_SET)) with false. cbv iota.
  change SEEK_END with 2. destruct (rl_end _ _ _ HR s1) as (v & s2 & -> & H2). pose proof (zlen_nonneg f).
  destruct (reliable_get_offset s2 ltac:(lia)) as (s3 & -> & H3).
  destruct (reliable_seek (pos s) s3 ltac:(lia)) as (s4 & -> & H4). exists s4. split; [|exact H4].
  unfold u64. rewrite H2, Z.mod_small by lia. reflexivity.
Qed.
End Reliable.
End Object.

(** * Streams *)
Lemma slice_0 (l : list Z) o : slice l o 0 = [].
Proof. unfold slice. apply firstn_O. Qed.

Lemma parse_integer_eq v bits : 0 < bits ->
  parse_integer v (- 2 ^ (bits - 1)) (2 ^ (bits - 1) - 1) = int_argument v bits.
Proof.
  intros Hb. unfold parse_integer, int_argument. destruct v; auto.
  replace (z <=? 2 ^ (bits - 1) - 1) with (z <? 2 ^ (bits - 1)); [reflexivity|].
  destruct (z <? 2 ^ (bits - 1)) eqn:E; symmetry; [apply Z.leb_le|apply Z.leb_gt]; lia.
Qed.

Lemma asked_int s z : asked s (Some (PInt z)) =
  match integer_unsigned (PInt z) with Ok n => inr n | _ => inl IOError end.
Proof.
  cbn [asked]. destruct (integer_unsigned_cases (PInt z)) as [[n Hn]|Hn].
  - rewrite Hn. apply integer_unsigned_iff in Hn as [Hn H]. injection Hn as ->.
    replace ((0 <=? n) && (n <? 9223372036854775808)) with true; [reflexivity|]. symmetry. apply andb_true_iff. lia.
  - rewrite Hn. destruct ((0 <=? z) && (z <? 9223372036854775808)) eqn:E; [|reflexivity].
    apply andb_true_iff in E. assert (integer_unsigned (PInt z) = Ok z) by (apply integer_unsigned_iff; split; [reflexivity|lia]). congruence.
Qed.

Lemma integer_unsigned_range v n : integer_unsigned v = Ok n -> 0 <= n < 9223372036854775808.
Proof. intros H. apply integer_unsigned_iff in H. tauto. Qed.

Lemma few_few v d n : few v n -> few_sectors v d n.
Proof.
  unfold few, few_sectors. intros [H|H]; [|right; exact H]. left. unfold stream_sector_size; destruct (is_short v d); lia.
Qed.

Section Stream.
Variable v : volume.
Variable d : dirent.
Variable s : list Z.

Lemma read_bytes_full rd n c : is_readable_stream rd v d s -> 0 <= c -> 0 <= n -> few_sectors v d n ->
  read_bytes rd v d n c = deliver s c n c.
Proof.
  intros Hs Hc Hn Hfew. unfold read_bytes, deliver. destruct (n =? 0) eqn:E.
  - apply Z.eqb_eq in E. subst n. change (2147483647 <? 0) with false. cbv iota. rewrite slice_0, zlen_nil. now rewrite Z.add_0_r.
  - change INT_MAX with 2147483647. destruct (2147483647 <? n) eqn:E2; [reflexivity|].
    destruct (read_buffer_full rd v d s c n [] Hs Hc) as (t' & ->); auto. unfold SSIZE_MAX. lia.
Qed.

Lemma read_bytes_sound rd n c w c' : is_stream rd v d s -> 0 <= n ->
  read_bytes rd v d n c = (Returns w, c') -> deliver s c n c = (Returns w, c').
Proof.
  intros Hs Hn. unfold read_bytes, deliver. destruct (n =? 0) eqn:E.
  - apply Z.eqb_eq in E. subst n. intros H. injection H as <- <-. change (2147483647 <? 0) with false. cbv iota. rewrite slice_0, zlen_nil. now rewrite Z.add_0_r.
  - change INT_MAX with 2147483647. destruct (2147483647 <? n) eqn:E2; [discriminate|].
    destruct (stream_read_buffer rd v d c n n []) as [[[l c1]| | |] t'] eqn:Er; try discriminate.
    intros H. injection H as <- <-. destruct (read_buffer_slice rd v d s c n n [] l c1 t' Hs Hn Er) as [-> ->]. reflexivity.
Qed.

Lemma read_bytes_defined rd n c : volume_ok v -> dirent_ok d -> 0 <= n -> few_sectors v d n ->
  fst (read_bytes rd v d n c) <> PyUndefined.
Proof.
  intros HV HD Hn Hf. unfold read_bytes. destruct (n =? 0); [discriminate|]. destruct (INT_MAX <? n); [discriminate|].
  pose proof (read_buffer_defined rd v d c n n [] HV HD ltac:(lia) Hf) as Hdef.
  destruct (stream_read_buffer rd v d c n n []) as [[[l c1]| | |] t']; cbn in *; try discriminate; destruct Hdef.
Qed.

Hypothesis Hty : de_type d = 2.
Hypothesis Hlen : zlen s = de_size d.
Hypothesis HD : dirent_ok d.

Lemma py_seek_eq offset whence c : 0 <= c -> py_stream_seek d offset whence c = stream_does s (PySeek offset whence) c.
Proof.
  intros Hc. unfold py_stream_seek. cbn [stream_does].
  change (- 9223372036854775808) with (- 2 ^ (64 - 1)). change 9223372036854775807 with (2 ^ (64 - 1) - 1).
  rewrite parse_integer_eq by lia. destruct (int_argument offset 64) as [e|o] eqn:Eo; [reflexivity|].
  assert (Ho : int64 o).
  { unfold int_argument in Eo. destruct offset; try discriminate. destruct ((- 2 ^ (64 - 1) <=? z) && (z <? 2 ^ (64 - 1))) eqn:E; [|discriminate].
    injection Eo as <-. apply andb_true_iff in E. change (2 ^ (64 - 1)) with 9223372036854775808 in E. unfold int64, INT64_MIN, INT64_MAX. lia. }
  assert (Hw : (match whence with None => inr 0 | Some w => parse_integer w (- 2147483648) 2147483647 end)
             = int_argument (match whence with Some w => w | None => PInt 0 end) 32).
  { destruct whence as [w|]; [|reflexivity]. apply (parse_integer_eq w 32). lia. }
  rewrite Hw. clear Hw. destruct (int_argument _ 32) as [e|w]; [reflexivity|].
  rewrite (seek_exact d c o w HD Hty Hc Ho). unfold seek_base. rewrite Hlen. unfold INT64_MAX in *.
  destruct (Z.eq_dec w 0) as [->|W0]; [|destruct (Z.eq_dec w 1) as [->|W1]; [|destruct (Z.eq_dec w 2) as [->|W2]]].
  - cbn [Z.eqb Z.ltb Z.compare orb]. cbv zeta. rewrite (Z.add_comm o).
    replace (9223372036854775808 <=? 0 + o) with (9223372036854775807 <? 0 + o).
    2:{ destruct (9223372036854775807 <? 0 + o) eqn:E; symmetry; [apply Z.leb_le|apply Z.leb_gt]; lia. }
    destruct (_ <? 0 + o); [reflexivity|]. destruct (0 + o <? 0); reflexivity.
  - change (1 =? 0) with false. change (1 =? 1) with true. change ((1 <? 0) || (2 <? 1)) with false. cbv iota zeta. rewrite (Z.add_comm o).
    replace (9223372036854775808 <=? c + o) with (9223372036854775807 <? c + o).
    2:{ destruct (9223372036854775807 <? c + o) eqn:E; symmetry; [apply Z.leb_le|apply Z.leb_gt]; lia. }
    destruct (_ <? c + o); [reflexivity|]. destruct (c + o <? 0); reflexivity.
  - change (2 =? 0) with false. change (2 =? 1) with false. change (2 =? 2) with true. change ((2 <? 0) || (2 <? 2)) with false. cbv iota zeta. rewrite (Z.add_comm o).
    replace (9223372036854775808 <=? de_size d + o) with (9223372036854775807 <? de_size d + o).
    2:{ destruct (9223372036854775807 <? de_size d + o) eqn:E; symmetry; [apply Z.leb_le|apply Z.leb_gt]; lia. }
    destruct (_ <? de_size d + o); [reflexivity|]. destruct (de_size d + o <? 0); reflexivity.
  - replace ((w <? 0) || (2 <? w)) with true by (symmetry; apply orb_true_iff; lia).
    replace (w =? 0) with false by lia. replace (w =? 1) with false by lia. replace (w =? 2) with false by lia. reflexivity.
Qed.

Lemma py_tell_eq c : py_stream_tell d c = stream_does s PyTell c.
Proof. unfold py_stream_tell, stream_get_offset. rewrite Hty. reflexivity. Qed.

Lemma py_read_eq rd size c : is_readable_stream rd v d s -> 0 <= c -> sizes_few v s (PyRead size) ->
  py_stream_read Little rd v d size c = stream_does s (PyRead size) c.
Proof.
  intros Hs Hc Hf. unfold py_stream_read. cbn [stream_does].
  assert (Hd : 0 <= zlen s) by apply zlen_nonneg.
  destruct size as [[z|l| |]|]; try reflexivity.
  - cbn [sizes_few] in Hf. rewrite asked_int in *. destruct (integer_unsigned (PInt z)) as [n| | |] eqn:E; try reflexivity.
    pose proof (integer_unsigned_range _ _ E). apply read_bytes_full; auto; try lia. now apply few_few.
  - cbn [item_size_as_64bit asked] in *. rewrite <- Hlen. apply read_bytes_full; auto. apply few_few. exact Hf.
  - cbn [item_size_as_64bit asked] in *. rewrite <- Hlen. apply read_bytes_full; auto. apply few_few. exact Hf.
Qed.

Lemma py_read_at_eq rd size offset c : is_readable_stream rd v d s -> 0 <= c -> sizes_few v s (PyReadAt size offset) ->
  py_stream_read_at rd v d size offset c = stream_does s (PyReadAt size offset) c.
Proof.
  intros Hs Hc Hf. unfold py_stream_read_at. cbn [stream_does].
  change (- 9223372036854775808) with (- 2 ^ (64 - 1)). change 9223372036854775807 with (2 ^ (64 - 1) - 1).
  rewrite parse_integer_eq by lia. destruct (int_argument offset 64) as [e|o]; [reflexivity|].
  destruct size as [z|l| |]; try reflexivity.
  cbn [sizes_few] in Hf. rewrite asked_int in *. destruct (integer_unsigned (PInt z)) as [n| | |] eqn:E; try reflexivity.
  pose proof (integer_unsigned_range _ _ E) as Hr. apply integer_unsigned_iff in E as [E _]. injection E as ->.
  destruct (n =? 0) eqn:E0; [apply Z.eqb_eq in E0; subst n; reflexivity|].
  change INT_MAX with 2147483647.
  assert (Hn : n <> 0) by lia. destruct n as [|p|p] eqn:En; [congruence| |lia]. rewrite <- En in *.
  destruct (2147483647 <? n) eqn:E1; [reflexivity|].
  unfold stream_read_at. rewrite seek_set, Hty. change (negb (2 =? TYPE_STREAM)) with false. cbv iota.
  replace (c <? 0) with false by lia. destruct (o <? 0) eqn:Eo; [reflexivity|].
  unfold deliver. rewrite E1.
  destruct (read_buffer_full rd v d s o n [] Hs) as (t' & ->); auto; try (unfold SSIZE_MAX; lia). now apply few_few.
Qed.

Lemma py_step_eq rd op c : is_readable_stream rd v d s -> 0 <= c -> sizes_few v s op ->
  py_stream_step Little rd v d op c = stream_does s op c.
Proof.
  intros Hs Hc Hf. destruct op; cbn [py_stream_step].
  - now apply py_read_eq.
  - now apply py_read_at_eq.
  - now apply py_seek_eq.
  - apply py_tell_eq.
Qed.

Lemma stream_does_pos op c : 0 <= c -> 0 <= snd (stream_does s op c).
Proof.
  intros Hc. pose proof (zlen_nonneg s).
  assert (Hdel : forall o n, 0 <= o -> 0 <= snd (deliver s o n c)).
  { intros o n Ho. unfold deliver. destruct (_ <? n); cbn; [lia|]. pose proof (zlen_nonneg (slice s o n)). lia. }
  destruct op as [size|size o|o w|]; cbn [stream_does].
  - destruct (asked s size); [exact Hc|now apply Hdel].
  - destruct (int_argument o 64) as [e|o']; [exact Hc|]. destruct (asked s (Some size)) as [e|n]; [exact Hc|].
    destruct size as [[|p|p]| | |]; try exact Hc; (destruct (_ <? n); [exact Hc|]; destruct (o' <? 0) eqn:E; [exact Hc|]; apply Hdel; lia).
  - destruct (int_argument o 64) as [e|o']; [exact Hc|]. destruct (int_argument _ 32) as [e|w']; [exact Hc|].
    destruct (_ || _); [exact Hc|]. cbv zeta. destruct (_ <=? _); [exact Hc|]. destruct (_ <? 0) eqn:E; [exact Hc|]. cbn [snd]. lia.
  - exact Hc.
Qed.

Lemma py_run_eq h : Forall (fun x => is_readable_stream (fst x) v d s /\ sizes_few v s (snd x)) h -> forall c, 0 <= c ->
  py_stream_run Little v d h c = stream_does_all s (map snd h) c.
Proof.
  induction h as [|[rd op] h IH]; intros HF c Hc; [reflexivity|]. apply Forall_cons_iff in HF as [[H1 H2] HF]. cbn [fst snd] in *.
  cbn [py_stream_run map snd stream_does_all]. rewrite py_step_eq by auto.
  pose proof (stream_does_pos op c Hc) as Hp. destruct (stream_does s op c) as [r c1]. cbn [snd] in Hp.
  rewrite IH by auto. reflexivity.
Qed.

(** Whatever is returned is right, also if the I/O layer fails. *)
Lemma py_step_sound rd op c w c' : is_stream rd v d s -> 0 <= c ->
  py_stream_step Little rd v d op c = (Returns w, c') -> stream_does s op c = (Returns w, c').
Proof.
  intros Hs Hc. destruct op as [size|size offset|offset whence|]; cbn [py_stream_step].
  - unfold py_stream_read. cbn [stream_does]. pose proof (zlen_nonneg s).
    destruct size as [[z|l| |]|]; try discriminate.
    + rewrite asked_int. destruct (integer_unsigned (PInt z)) as [n| | |] eqn:E; try discriminate.
      pose proof (integer_unsigned_range _ _ E). apply read_bytes_sound; auto; lia.
    + cbn [item_size_as_64bit asked] in *. rewrite <- Hlen. now apply read_bytes_sound.
    + cbn [item_size_as_64bit asked] in *. rewrite <- Hlen. now apply read_bytes_sound.
  - unfold py_stream_read_at. cbn [stream_does].
    change (- 9223372036854775808) with (- 2 ^ (64 - 1)). change 9223372036854775807 with (2 ^ (64 - 1) - 1).
    rewrite parse_integer_eq by lia. destruct (int_argument offset 64) as [e|o]; [discriminate|].
    destruct size as [z|l| |]; try discriminate.
    rewrite asked_int in *. destruct (integer_unsigned (PInt z)) as [n| | |] eqn:E; try discriminate.
    pose proof (integer_unsigned_range _ _ E) as Hr. apply integer_unsigned_iff in E as [E _]. injection E as ->.
    destruct (n =? 0) eqn:E0; [apply Z.eqb_eq in E0; subst n; auto|].
    change INT_MAX with 2147483647.
    assert (Hn : n <> 0) by lia. destruct n as [|p|p] eqn:En; [congruence| |lia]. rewrite <- En in *.
    destruct (2147483647 <? n) eqn:E1; [discriminate|].
    unfold stream_read_at. rewrite seek_set, Hty. change (negb (2 =? TYPE_STREAM)) with false. cbv iota.
    replace (c <? 0) with false by lia. destruct (o <? 0) eqn:Eo; [discriminate|].
    unfold deliver. rewrite E1.
    destruct (stream_read_buffer rd v d o n n []) as [[[l c1]| | |] t'] eqn:Er; try discriminate.
    intros H. injection H as <- <-. destruct (read_buffer_slice rd v d s o n n [] l c1 t' Hs ltac:(lia) Er) as [-> ->]. reflexivity.
  - rewrite py_seek_eq by auto. auto.
  - rewrite py_tell_eq. auto.
Qed.

Lemma read_loop_from rd n : is_readable_stream rd v d s -> 0 < n <= INT_MAX -> few v n ->
  forall fuel c, 0 <= c -> (length (skipn (Z.to_nat c) s) < fuel)%nat ->
    read_loop fuel (py_stream_read Little rd v d (Some (PInt n))) c = Some (skipn (Z.to_nat c) s).
Proof.
  intros Hs Hn Hf. unfold INT_MAX in Hn.
  assert (Hstep : forall c, 0 <= c -> py_stream_read Little rd v d (Some (PInt n)) c
                   = (Returns (PBytes (slice s c n)), c + zlen (slice s c n))).
  { intros c Hc. assert (Hasked : asked s (Some (PInt n)) = inr n).
    { cbn [asked]. replace ((0 <=? n) && (n <? 9223372036854775808)) with true by (symmetry; apply andb_true_iff; lia). reflexivity. }
    rewrite py_read_eq; auto.
    - cbn [stream_does]. rewrite Hasked. unfold deliver. replace (2147483647 <? n) with false by lia. reflexivity.
    - cbn [sizes_few]. rewrite Hasked. exact Hf. }
  induction fuel as [|fuel IH]; intros c Hc Hfu; [lia|].
  cbn [read_loop]. rewrite Hstep by exact Hc. remember (skipn (Z.to_nat c) s) as r eqn:Er. unfold slice. rewrite <- Er.
  destruct r as [|x r].
  - rewrite firstn_nil. reflexivity.
  - destruct (Z.to_nat n) as [|k] eqn:Ek; [lia|]. cbn [firstn]. set (l := x :: firstn k r).
    pose proof (zlen_nonneg l).
    assert (Hsk : skipn (Z.to_nat (c + zlen l)) s = skipn (length l) (x :: r)).
    { rewrite Er. rewrite <- (firstn_skipn (Z.to_nat c) s) at 1. rewrite skipn_app.
      assert (Ho' : (Z.to_nat c < length s)%nat).
      { destruct (Nat.le_gt_cases (length s) (Z.to_nat c)) as [C|C]; [|exact C]. rewrite skipn_all2 in Er by exact C. discriminate. }
      rewrite skipn_all2 by (rewrite firstn_length; unfold zlen; lia). cbn [app]. rewrite firstn_length. f_equal. unfold zlen. lia. }
    rewrite IH; [| lia |].
    + rewrite Hsk. cbn [option_map]. f_equal. unfold l. cbn [app length skipn]. f_equal.
      rewrite firstn_length. destruct (Nat.le_gt_cases k (length r)) as [L|L].
      * rewrite Nat.min_l by exact L. apply firstn_skipn.
      * rewrite Nat.min_r by lia. rewrite firstn_all2 by lia. rewrite skipn_all, app_nil_r. reflexivity.
    + rewrite Hsk, skipn_length. unfold l in *. cbn [length] in *. lia.
Qed.
End Stream.
