(** Properties of the Python bindings: C58-C60. *)
From Coq Require Import ZArith List Bool Lia.
From Verif Require Import Base Spec_IO M_Table M_Load M_Stream M_Header M_Tree M_Open M_Item M_Mount M_Fuse M_Python
  Spec_Stream Spec_Open Spec_Content Spec_Tree Spec_Python L_Base L_Stream L_Stream2 L_Stream3 L_Open L_Open2 L_Exact X_Linear X_Content X_Stream X_File X_Fuse L_Fuse L_Python P_Open.
Import ListNotations.
Open Scope Z_scope.

(** C58: a Python file object as the I/O layer.  Whatever the object does, as
    long as it behaves like a file with failures and short reads. *)
Theorem C58_reader :
  forall (S : Type) (ob : pyobject S) f pos s,
    file_like ob f pos -> gives_bytes ob ->
    io_sound (object_reader ob s) f /\ io_bytes (object_reader ob s) /\
    forall offset size s', 0 <= offset -> fst (object_read_at ob offset size s') <> Undef.
Proof.
  intros S ob f pos s HL HB. split; [exact (object_reader_sound S ob f pos HL s)|].
  split; [exact (object_reader_bytes S ob s HB)|].
  intros offset size s' Ho E. pose proof (like_read_at S ob f pos HL offset size s' Ho) as H. rewrite E in H. exact H.
Qed.
Print Assumptions C58_reader.

(** An object that never fails gives the same as the file. *)
Theorem C58_reliable :
  forall (S : Type) (ob : pyobject S) f pos s,
    reliable ob f pos -> zlen f <= SSIZE_MAX -> io_total (object_reader ob s) f.
Proof. intros S ob f pos s HR Hf. exact (object_reader_total S ob f pos HR s Hf). Qed.
Print Assumptions C58_reliable.

Theorem C58_open :
  forall (S : Type) (ob : pyobject S) u f pos s o,
    una_ok u -> Forall is_byte f -> file_like ob f pos -> gives_bytes ob -> reliable ob f pos ->
    zlen f <= SSIZE_MAX -> moderate (o_header o) ->
    ((exists t, open_read u (object_reader ob s) [] = (Ok o, t)) <->
     (exists t, open_read u (file_reader f) [] = (Ok o, t))).
Proof.
  intros S ob u f pos s o Hu HF HL HB HR Hf Hm.
  destruct (C58_reader S ob f pos s HL HB) as (H1 & H2 & _). pose proof (C58_reliable S ob f pos s HR Hf) as H3.
  split; intros (t & Ht).
  - eapply C50_open_deterministic; [exact Hu|exact H2|exact H1|exact H3|apply file_reader_bytes, HF|apply file_reader_sound|apply file_reader_total|exact Ht|exact Hm].
  - eapply C50_open_deterministic; [exact Hu|apply file_reader_bytes, HF|apply file_reader_sound|apply file_reader_total|exact H2|exact H1|exact H3|exact Ht|exact Hm].
Qed.
Print Assumptions C58_open.

(** The streams of a file that was opened with an object can be read, whatever
    was done with the object before. *)
Theorem C58_streams :
  forall (S : Type) (ob : pyobject S) u f pos s o t d c s',
    una_ok u -> Forall is_byte f -> file_like ob f pos -> gives_bytes ob -> reliable ob f pos ->
    zlen f <= SSIZE_MAX -> open_read u (object_reader ob s) [] = (Ok o, t) ->
    In d (o_entries o) -> contents f (opened_volume o) d c ->
    intact (opened_volume o) d -> short_ok (opened_volume o) d ->
    is_readable_stream (object_reader ob s') (opened_volume o) d c.
Proof.
  intros S ob u f pos s o t d c s' Hu HF HL HB HR Hf HO Hd HC HI HS.
  destruct (C58_reader S ob f pos s HL HB) as (_ & H2 & _).
  destruct (C58_reader S ob f pos s' HL HB) as (H1 & _ & _).
  split; [exact (opened_volume_ok u _ Hu H2 o t HO)|].
  split; [exact (proj1 (Forall_forall _ _) (proj1 (proj2 (opened_entries u _ Hu H2 o t HO))) d Hd)|].
  split; [exact HS|].
  split.
  { apply Forall_forall. intros b Hb. apply In_nth_error in Hb as (j & Hj). destruct HC as (_ & _ & HC).
    destruct (HC (Z.of_nat j) b) as (p & _ & Hp).
    { unfold znth. rewrite (proj2 (Z.ltb_ge (Z.of_nat j) 0)) by lia. now rewrite Nat2Z.id. }
    unfold znth in Hp. destruct (p <? 0); [discriminate|]. eapply Forall_forall; [exact HF|]. eapply nth_error_In; eauto. }
  split; [exact HI|]. exists f. split; [exact H1|]. split; [exact (C58_reliable S ob f pos s' HR Hf)|exact HC].
Qed.
Print Assumptions C58_streams.

(** The size of an object without a method for it is found by seeking, and the
    position is restored. *)
Theorem C58_get_size :
  forall (S : Type) (ob : pyobject S) f pos s,
    reliable ob f pos -> po_has_get_size ob s = false -> zlen f <= SSIZE_MAX -> 0 <= pos s <= SSIZE_MAX ->
    exists s', handle_get_size ob s = (Ok (Some (zlen f)), s') /\ pos s' = pos s.
Proof. intros S ob f pos s HR. exact (reliable_get_size S ob f pos HR s). Qed.
Print Assumptions C58_get_size.

(** Whatever the object does: when its size is taken by seeking to the end,
    the last call on the object is a seek back to where it was. *)
Theorem C58_get_size_restores :
  forall (S : Type) (ob : pyobject S) s c s1 s2,
    po_has_get_size ob s = false -> object_get_offset ob s = (Ok c, s1) -> po_seek ob 0 2 s1 = (Some PNone, s2) ->
    exists s3, snd (handle_get_size ob s) = snd (po_seek ob c 0 s3).
Proof.
  intros S ob s c s1 s2 H1 H2 H3. unfold handle_get_size. rewrite H1, H2.
  assert (E0 : object_seek ob 0 SEEK_END s1 = (Ok tt, s2)) by (unfold object_seek, SEEK_END; cbn [Z.eqb SEEK_CUR SEEK_SET]; rewrite H3; reflexivity).
  rewrite E0.
  assert (E : forall s3, snd (object_seek ob c SEEK_SET s3) = snd (po_seek ob c 0 s3)).
  { intros s3. unfold object_seek, SEEK_SET. cbn [Z.eqb SEEK_CUR SEEK_END negb andb]. destruct (po_seek ob c 0 s3) as [[w|] s4]; reflexivity. }
  destruct (object_get_offset ob s2) as [[n| | |] s3]; exists s3; rewrite <- E;
    destruct (object_seek ob c SEEK_SET s3) as [x s4]; reflexivity.
Qed.
Print Assumptions C58_get_size_restores.

Lemma plain_like f : file_like (plain_object f) f (fun c => c).
Proof.
  constructor; cbn.
  - intros n s l s' H Hn Hs. injection H as <- <-. unfold zlen at 1. unfold slice at 1. rewrite firstn_length.
    split; [lia|]. destruct (Z_le_gt_dec (s + n) (zlen f)) as [L|L].
    + now rewrite zlen_slice by lia.
    + destruct (Z_le_gt_dec (zlen f) s).
      * rewrite !slice_beyond by lia. reflexivity.
      * rewrite (slice_clip f s n) by lia. rewrite zlen_slice by lia. reflexivity.
  - intros o s v s' H Ho. injection H as _ <-. reflexivity.
  - intros s v s' H. injection H as <- <-. auto.
  - discriminate.
Qed.

Lemma plain_reliable f : reliable (plain_object f) f (fun c => c).
Proof.
  constructor; cbn; intros; eauto.
  - do 2 eexists. split; [reflexivity|lia].
  - discriminate.
Qed.

Lemma plain_bytes f : Forall is_byte f -> gives_bytes (plain_object f).
Proof. intros HF n s l s' H. cbn in H. injection H as <- _. now apply Forall_slice. Qed.

Lemma weak_like f k bad : 0 < k -> file_like (weak_object f k bad) f (fun c => c).
Proof.
  intros Hk. pose proof (plain_like f) as HP. constructor; cbn.
  - intros n s l s' H Hn Hs. destruct (s =? bad); [discriminate|]. injection H as <- <-.
    destruct (fl_read _ _ _ HP (Z.min n k) s (slice f s (Z.min n k)) _ eq_refl ltac:(lia) Hs). split; [lia|assumption].
  - intros o s v s' H Ho. injection H as _ <-. reflexivity.
  - intros s v s' H. injection H as <- <-. auto.
  - intros s v s' _ H. injection H as <- <-. auto.
Qed.

Definition xp_file : list Z := xm_file [120; 121] 125911584000000000.

(** The file of the mount tool's cases, opened from an object; and an object
    that gives few bytes or fails: opening it is an error. *)
Example C58_case :
  file_like (plain_object xp_file) xp_file (fun c => c) /\ reliable (plain_object xp_file) xp_file (fun c => c) /\
  (forall k bad, 0 < k -> file_like (weak_object xp_file k bad) xp_file (fun c => c)) /\
  (exists o t, open_read xm_una (object_reader (plain_object xp_file) 7) [] = (Ok o, t) /\ zlen (o_entries o) = 5) /\
  fst (open_read xm_una (object_reader (weak_object xp_file 500 (-1)) 0) []) = Err /\
  fst (open_read xm_una (object_reader (weak_object xp_file 512 512) 0) []) = Err /\
  handle_get_size (plain_object [1; 2; 3]) 2 = (Ok (Some 3), 2) /\
  handle_get_size (weak_object [1; 2; 3] 1 0) 2 = (Ok (Some 3), 2).
Proof.
  split; [apply plain_like|]. split; [apply plain_reliable|]. split; [intros k bad; apply weak_like|].
  split.
  { destruct (open_read xm_una (object_reader (plain_object xp_file) 7) []) as [r t] eqn:E.
    assert (HC : match r with Ok o => zlen (o_entries o) =? 5 | _ => false end = true).
    { replace r with (fst (open_read xm_una (object_reader (plain_object xp_file) 7) [])) by (rewrite E; reflexivity).
      clear E. vm_compute. reflexivity. }
    destruct r as [o| | |]; [|discriminate HC|discriminate HC|discriminate HC]. exists o, t.
    split; [reflexivity|]. apply Z.eqb_eq. exact HC. }
  split; [vm_compute; reflexivity|]. split; [vm_compute; reflexivity|]. split; reflexivity.
Qed.

(** A read of the object that gives more than was asked for is copied to the
    buffer nevertheless. *)
Theorem C58_overflow :
  forall (S : Type) (ob : pyobject S) offset size s,
    fst (object_read_at ob offset size s) = Undef <->
    exists o s1 l s2, handle_seek ob offset 0 s = (Ok o, s1) /\ 0 <= o /\ 0 < size <= SSIZE_MAX /\
      po_read ob size s1 = (Some (PBytes l), s2) /\ size < zlen l.
Proof. exact (fun S ob => object_read_at_undef S ob (fun _ => 0)). Qed.
Print Assumptions C58_overflow.

(** Opening a file with an object whose read ignores its argument writes
    behind a buffer, even though all its bytes are those of the file. *)
Theorem C58_overflow_refuted :
  exists (ob : pyobject Z) f offset size t,
    snd (open_read xm_una (object_reader ob 0) []) = (offset, size) :: t /\
    (forall n s l s', po_read ob n s = (Some (PBytes l), s') -> l = slice f s (zlen l) /\ s' = s + zlen l) /\
    (forall o s, po_seek ob o 0 s = (Some PNone, o)) /\ (forall s, po_tell ob s = (Some (PInt s), s)) /\
    fst (object_read_at ob offset size 0) = Undef.
Proof.
  exists {| po_read := fun n c => (Some (PBytes (slice (zeros 600) c 600)), c + zlen (slice (zeros 600) c 600));
            po_seek := fun o w c => (Some PNone, o); po_tell := fun c => (Some (PInt c), c);
            po_has_get_offset := fun _ => false; po_get_offset := fun c => (None, c);
            po_has_get_size := fun _ => false; po_get_size := fun c => (None, c) |}.
  exists (zeros 600), 0, 512, []. split; [vm_compute; reflexivity|]. split; [|split; [reflexivity|split; [reflexivity|vm_compute; reflexivity]]].
  cbn [po_read]. intros n s l s' H. injection H as <- <-. split; [|reflexivity].
  unfold slice, zlen. rewrite firstn_length, skipn_length, Nat2Z.id.
  replace (Z.to_nat 600) with (length (zeros 600)) by reflexivity.
  rewrite (firstn_all2 (skipn (Z.to_nat s) (zeros 600))) by (rewrite skipn_length; lia).
  rewrite firstn_all2; [reflexivity|rewrite skipn_length; lia].
Qed.
Print Assumptions C58_overflow_refuted.

(** get_size reports success when the object raises an exception: the size is
    not set. *)
Theorem C58_get_size_refuted :
  exists (ob : pyobject Z) s, po_has_get_size ob s = true /\ po_get_size ob s = (None, s) /\
    handle_get_size ob s = (Ok None, s).
Proof.
  exists {| po_read := fun n c => (None, c); po_seek := fun o w c => (None, o); po_tell := fun c => (None, c);
            po_has_get_offset := fun _ => false; po_get_offset := fun c => (None, c);
            po_has_get_size := fun _ => true; po_get_size := fun c => (None, c) |}, 0.
  repeat split.
Qed.
Print Assumptions C58_get_size_refuted.

(** C59: conversion of integers. *)
Theorem C59_signed :
  forall v z, integer_signed v = Ok z <-> v = PInt z /\ - 9223372036854775808 <= z < 9223372036854775808.
Proof. exact integer_signed_iff. Qed.
Print Assumptions C59_signed.

Theorem C59_unsigned :
  forall v z, integer_unsigned v = Ok z <-> v = PInt z /\ 0 <= z < 9223372036854775808.
Proof. exact integer_unsigned_iff. Qed.
Print Assumptions C59_unsigned.

Theorem C59_defined :
  forall v, defined (integer_signed v) /\ defined (integer_unsigned v).
Proof.
  intros v. destruct (integer_signed_cases v) as [(z & ->)| ->], (integer_unsigned_cases v) as [(z' & ->)| ->]; cbn; auto.
Qed.
Print Assumptions C59_defined.

(** To Python: no value is changed. *)
Theorem C59_new :
  (forall x, - 9223372036854775808 <= x < 9223372036854775808 -> integer_signed (signed_new x) = Ok x) /\
  (forall x, 0 <= x < 18446744073709551616 -> unsigned_new x = PInt x).
Proof. split; [intros x H; apply integer_signed_iff; auto|exact unsigned_new_eq]. Qed.
Print Assumptions C59_new.

(** The values from 2^63 on can be made but not taken back. *)
Theorem C59_round_trip_refuted :
  exists x, 0 <= x < 18446744073709551616 /\ integer_unsigned (unsigned_new x) = Err.
Proof. exists 9223372036854775808. split; [lia|vm_compute; reflexivity]. Qed.
Print Assumptions C59_round_trip_refuted.

Example C59_case :
  integer_signed (PInt (-5)) = Ok (-5) /\ integer_unsigned (PInt (-5)) = Err /\
  integer_signed (PInt 9223372036854775808) = Err /\ integer_unsigned (PInt 9223372036854775807) = Ok 9223372036854775807 /\
  integer_unsigned (PBytes [1]) = Err /\ unsigned_new 18446744073709551615 = PInt 18446744073709551615.
Proof. vm_compute. repeat split. Qed.

(** C60: a call that raises an exception leaves the cursor where it was, except
    that of read_buffer_at_offset behind its seek. *)
Theorem C60_failed :
  forall host rd v d op c e c',
    de_type d = 2 -> 0 <= c -> py_stream_step host rd v d op c = (Raises e, c') ->
    c' = match op with
         | PyReadAt (PInt n) (PInt o) =>
             if (1 <=? n) && (n <=? 2147483647) && (0 <=? o) && (o <? 2 ^ 63) then o else c
         | _ => c
         end.
Proof.
  intros host rd v d op c e c' Hty Hc.
  assert (HR : forall n, read_bytes rd v d n c = (Raises e, c') -> c' = c).
  { intros n. unfold read_bytes. destruct (n =? 0); [intros H; discriminate H|]. destruct (INT_MAX <? n); [intros H; now injection H|].
    destruct (stream_read_buffer rd v d c n n []) as [[[x y]| | |] t]; intros H; try discriminate H; now injection H. }
  destruct op as [size|size offset|offset whence|]; cbn [py_stream_step].
  - unfold py_stream_read. destruct size as [[z| | |]|]; try (intros H; now injection H); try (intros H; exact (HR _ H)).
    destruct (integer_unsigned (PInt z)) as [n| | |]; try (intros H; now injection H). intros H; exact (HR _ H).
  - unfold py_stream_read_at, parse_integer. destruct offset as [o| | |]; try (destruct size; intros H; now injection H).
    destruct ((-9223372036854775808 <=? o) && (o <=? 9223372036854775807)) eqn:Eo.
    2:{ destruct size as [n| | |]; intros H; injection H as _ <-; try reflexivity. change (2 ^ 63) with 9223372036854775808.
        replace ((1 <=? n) && (n <=? 2147483647) && (0 <=? o) && (o <? 9223372036854775808)) with false by lia. reflexivity. }
    destruct size as [n| | |]; try (intros H; now injection H). change (2 ^ 63) with 9223372036854775808.
    destruct (integer_unsigned_cases (PInt n)) as [(z & E)|E]; rewrite E.
    2:{ intros H. injection H as _ <-.
        assert (~ (0 <= n < 9223372036854775808)) by (intros Hn; rewrite (proj2 (integer_unsigned_iff _ n)) in E by auto; discriminate E).
        replace ((1 <=? n) && (n <=? 2147483647) && (0 <=? o) && (o <? 9223372036854775808)) with false by lia. reflexivity. }
    apply integer_unsigned_iff in E as [E Hz]. injection E as ->.
    destruct (z =? 0) eqn:E0; [intros H; discriminate H|]. unfold INT_MAX. destruct (2147483647 <? z) eqn:E1.
    { intros H. injection H as _ <-. replace ((1 <=? z) && (z <=? 2147483647) && (0 <=? o) && (o <? 9223372036854775808)) with false by lia. reflexivity. }
    unfold stream_read_at, stream_seek_offset. rewrite Hty. change (2 =? TYPE_STREAM) with true. cbn [negb].
    replace (c <? 0) with false by lia. cbn [SEEK_CUR SEEK_END SEEK_SET Z.eqb negb andb rbind].
    change (SEEK_SET =? SEEK_CUR) with false. change (SEEK_SET =? SEEK_END) with false. change (SEEK_SET =? SEEK_SET) with true. cbn [negb andb rbind].
    destruct (o <? 0) eqn:E2.
    + intros H. injection H as _ <-. replace ((1 <=? z) && (z <=? 2147483647) && (0 <=? o) && (o <? 9223372036854775808)) with false by lia. reflexivity.
    + replace ((1 <=? z) && (z <=? 2147483647) && (0 <=? o) && (o <? 9223372036854775808)) with true by lia.
      destruct (stream_read_buffer rd v d o z z []) as [[[x y]| | |] t]; intros H; try discriminate H; now injection H.
  - unfold py_stream_seek. destruct (parse_integer offset _ _) as [x|x]; [intros H; now injection H|].
    destruct whence as [w|].
    + destruct (parse_integer w _ _) as [y|y]; [intros H; now injection H|].
      destruct (stream_seek_offset d c x y); intros H; try discriminate H; now injection H.
    + destruct (stream_seek_offset d c x 0); intros H; try discriminate H; now injection H.
  - unfold py_stream_tell. destruct (stream_get_offset d c); intros H; try discriminate H; now injection H.
Qed.
Print Assumptions C60_failed.

(** A stream object is a file with the bytes of the stream. *)
Theorem C60_history :
  forall v d s h c,
    zlen s = de_size d -> de_type d = 2 -> dirent_ok d -> 0 <= c ->
    Forall (fun x => is_readable_stream (fst x) v d s /\ sizes_few v s (snd x)) h ->
    py_stream_run Little v d h c = stream_does_all s (map snd h) c.
Proof. intros v d s h c Hl Hty HD Hc HF. exact (py_run_eq v d s Hty Hl HD h HF c Hc). Qed.
Print Assumptions C60_history.

(** If the I/O layer fails, or the chain of the stream is broken, whatever is
    returned is right nevertheless. *)
Theorem C60_sound :
  forall rd v d s op c w c',
    is_stream rd v d s -> 0 <= c ->
    py_stream_step Little rd v d op c = (Returns w, c') -> stream_does s op c = (Returns w, c').
Proof.
  intros rd v d s op c w c' Hs Hc. pose proof Hs as (_ & HD & _ & _ & f & _ & Hty & Hl & _).
  exact (py_step_sound v d s Hty Hl HD rd op c w c' Hs Hc).
Qed.
Print Assumptions C60_sound.

(** Reading with calls of n bytes gives all of the stream. *)
Theorem C60_whole :
  forall rd v d s n fuel,
    is_readable_stream rd v d s -> 0 < n <= INT_MAX -> few v n -> (length s < fuel)%nat ->
    read_loop fuel (py_stream_read Little rd v d (Some (PInt n))) 0 = Some s.
Proof.
  intros rd v d s n fuel Hs Hn Hf Hfu. pose proof Hs as (_ & HD & _ & _ & _ & f & _ & _ & Hty & Hl & _).
  exact (read_loop_from v d s Hl rd n Hs Hn Hf fuel 0 (Z.le_refl 0) Hfu).
Qed.
Print Assumptions C60_whole.

(** A call without a size gives all of a stream of less than 2^31 bytes. *)
Theorem C60_all :
  forall rd v d s,
    is_readable_stream rd v d s -> zlen s <= INT_MAX -> few v (zlen s) ->
    py_stream_read Little rd v d None 0 = (Returns (PBytes s), zlen s).
Proof.
  intros rd v d s Hs Hn Hf. pose proof Hs as (_ & HD & _ & _ & _ & f & _ & _ & Hty & Hl & _).
  rewrite (py_read_eq v d s Hl rd None 0 Hs (Z.le_refl 0) Hf). cbn [stream_does asked]. unfold deliver.
  unfold INT_MAX in Hn. replace (2147483647 <? zlen s) with false by (symmetry; apply Z.ltb_ge; lia).
  unfold slice. change (Z.to_nat 0) with O. cbn [skipn].
  rewrite firstn_all2 by (unfold zlen; lia). reflexivity.
Qed.
Print Assumptions C60_all.

(** On a host with the other byte order the same call fails for every stream
    that is not empty: the size is stored in the wrong half. *)
Theorem C60_big_endian_refuted :
  forall rd v d size c,
    size = None \/ size = Some PNone -> dirent_ok d -> de_size d <> 0 ->
    py_stream_read Big rd v d size c = (Raises ValueError, c).
Proof.
  intros rd v d size c Hsz HD Hn. pose proof (do_size _ HD) as Hs. unfold is_u32 in Hs.
  assert (H : read_bytes rd v d (item_size_as_64bit Big (de_size d)) c = (Raises ValueError, c)).
  { unfold read_bytes, item_size_as_64bit. rewrite Z.shiftl_mul_pow2 by lia. change (2 ^ 32) with 4294967296.
    replace (de_size d * 4294967296 =? 0) with false by (symmetry; apply Z.eqb_neq; lia).
    unfold INT_MAX. replace (2147483647 <? de_size d * 4294967296) with true by (symmetry; apply Z.ltb_lt; lia). reflexivity. }
  destruct Hsz as [-> | ->]; exact H.
Qed.
Print Assumptions C60_big_endian_refuted.

(** Items that are not streams: every call that reads or moves fails, but
    reading no bytes does not. *)
Theorem C60_other_items :
  forall host rd v d c n o w,
    de_type d <> 2 -> 0 < n <= INT_MAX -> int64 o -> 0 <= w <= 2 ->
    py_stream_read host rd v d (Some (PInt n)) c = (Raises IOError, c) /\
    py_stream_read_at rd v d (PInt n) (PInt o) c = (Raises IOError, c) /\
    py_stream_seek d (PInt o) (Some (PInt w)) c = (Raises IOError, c) /\
    py_stream_tell d c = (Raises IOError, c) /\
    py_stream_read host rd v d (Some (PInt 0)) c = (Returns (PBytes []), c).
Proof.
  intros host rd v d c n o w Hty Hn Ho Hw. unfold INT_MAX in Hn. unfold int64, INT64_MIN, INT64_MAX in Ho.
  assert (Ht : negb (de_type d =? TYPE_STREAM) = true) by (apply negb_true_iff, Z.eqb_neq; exact Hty).
  assert (Hi : integer_unsigned (PInt n) = Ok n) by (apply integer_unsigned_iff; split; [reflexivity|lia]).
  assert (Hp : parse_integer (PInt o) (- 9223372036854775808) 9223372036854775807 = inr o).
  { cbn. replace ((- 9223372036854775808 <=? o) && (o <=? 9223372036854775807)) with true by (symmetry; apply andb_true_iff; lia). reflexivity. }
  assert (E0 : (n =? 0) = false) by (apply Z.eqb_neq; lia).
  assert (E1 : (INT_MAX <? n) = false) by (apply Z.ltb_ge; unfold INT_MAX; lia).
  split; [|split; [|split; [|split]]].
  - unfold py_stream_read. rewrite Hi. unfold read_bytes. rewrite E0, E1. unfold stream_read_buffer. rewrite Ht. reflexivity.
  - unfold py_stream_read_at. rewrite Hp, Hi, E0, E1. unfold stream_read_at, stream_seek_offset. rewrite Ht. reflexivity.
  - unfold py_stream_seek. rewrite Hp.
    replace (parse_integer (PInt w) (- 2147483648) 2147483647) with (@inr exception Z w).
    + unfold stream_seek_offset. rewrite Ht. reflexivity.
    + cbn. replace ((- 2147483648 <=? w) && (w <=? 2147483647)) with true by (symmetry; apply andb_true_iff; lia). reflexivity.
  - unfold py_stream_tell, stream_get_offset. rewrite Ht. reflexivity.
  - reflexivity.
Qed.
Print Assumptions C60_other_items.

(** A stream of 1000 bytes. *)
Definition xp_bytes : list Z := map (fun n => Z.of_nat n mod 256) (seq 0 1000).

Example C60_case :
  let v := line_volume xp_bytes in
  let d := line_dirent xp_bytes in
  let rd := file_reader (line_file xp_bytes) in
  is_readable_stream rd v d xp_bytes /\ 4 <= v_short_sector_size v /\ 4 <= v_sector_size v /\
  py_stream_run Little v d
    [(rd, PyRead (Some (PInt 3))); (rd, PyTell); (rd, PySeek (PInt (-2)) (Some (PInt 2))); (rd, PyRead None);
     (rd, PyRead (Some (PInt 1))); (rd, PyReadAt (PInt 2) (PInt 511)); (rd, PyReadAt (PInt 0) (PInt 5));
     (rd, PyRead (Some POther)); (rd, PyRead (Some (PInt (-1)))); (rd, PyRead (Some (PInt 2147483648)));
     (rd, PySeek (PInt 9223372036854775808) None); (rd, PySeek (PInt 9223372036854775807) (Some (PInt 1)));
     (rd, PySeek (PInt (-1)) None); (rd, PyTell)] 0
  = ([Returns (PBytes [0; 1; 2]); Returns (PInt 3); Returns PNone; Returns (PBytes [230; 231]);
      Returns (PBytes []); Returns (PBytes [255; 0]); Returns (PBytes []);
      Raises TypeError; Raises IOError; Raises ValueError;
      Raises OverflowError; PyUndefined; Raises IOError; Returns (PInt 513)], 513) /\
  fst (py_stream_read Little (failing_reader (line_file xp_bytes) 700) v d None 0) = Raises IOError /\
  fst (py_stream_read Big rd v d None 0) = Raises ValueError /\
  py_stream_step Little (failing_reader (line_file xp_bytes) 1200) v d (PyReadAt (PInt 400) (PInt 500)) 3 = (Raises IOError, 500).
Proof.
  cbv zeta. split.
  { apply line_readable; [vm_compute; discriminate|]. apply Forall_forall. intros b Hb. apply in_map_iff in Hb as (n & <- & _).
    unfold is_byte. pose proof (Z.mod_pos_bound (Z.of_nat n) 256 ltac:(lia)). lia. }
  split; [vm_compute; discriminate|]. split; [vm_compute; discriminate|]. split; [vm_compute; reflexivity|].
  split; [vm_compute; reflexivity|]. split; vm_compute; reflexivity.
Qed.
