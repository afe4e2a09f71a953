(** Properties of the reader of compound objects: C76. *)
From Coq Require Import ZArith List Bool Lia.
From Verif Require Import Base Spec_IO L_Base M_Table M_Load M_Stream Spec_Stream Spec_Content L_Stream
  Spec_Load X_Stream M_CompObj Spec_CompObj L_CompObj L_CompObj2 L_CompObj3.
Import ListNotations.
Open Scope Z_scope.

(** C76: whatever is in the file, a call has a defined outcome, moves the
    offset forward only and releases every buffer that it allocates, each of
    which has 1 byte to 128 MiB, once. *)
Theorem C76_safe :
  forall mem rd v d c,
    volume_ok v -> dirent_ok d -> io_bytes rd -> 0 <= c < 4294967296 ->
    let '(r, c', _, log) := compound_object_call mem rd v d c in
    defined r /\ c <= c' /\ buffers [] log = Some [] /\
    forall k n, In (Allocate k n) log -> 0 < n <= 134217728.
Proof.
  intros mem rd v d c HV HD HB Hc. pose proof (compound_object_safe mem rd v d HV HD HB c Hc) as H.
  destruct (compound_object_call mem rd v d c) as [[[r c'] t] log].
  destruct H as (H1 & H2 & H3 & H4). repeat split; auto.
  - unfold sizes_fine in H4. rewrite Forall_forall in H4. apply (H4 _ H).
  - unfold sizes_fine in H4. rewrite Forall_forall in H4. apply (H4 _ H).
Qed.
Print Assumptions C76_safe.

(** What is read with success is an object, from the offset on, and the offset
    is moved behind it. *)
Theorem C76_reads_an_object :
  forall mem f rd v d,
    io_sound rd f -> io_bytes rd -> volume_ok v -> dirent_ok d -> short_ok v d ->
    forall c c' t log,
    0 <= c < 4294967296 ->
    compound_object_call mem rd v d c = (Ok tt, c', t, log) ->
    exists o, object_ok library_markers o /\ ends (v_byte_order v) (de_size d) c o /\
              chain_holds f v d c (object_bytes (v_byte_order v) o) /\
              c' = c + zlen (object_bytes (v_byte_order v) o).
Proof. exact compound_object_sound. Qed.
Print Assumptions C76_reads_an_object.

(** Whether it succeeds or not, the offset moves over bytes of the chain. *)
Theorem C76_moves_over_the_chain :
  forall mem f rd v d,
    io_sound rd f -> io_bytes rd -> volume_ok v -> dirent_ok d -> short_ok v d ->
    forall c, 0 <= c < 4294967296 ->
    let '(_, c', _, _) := compound_object_call mem rd v d c in
    exists l, chain_holds f v d c l /\ c' = c + zlen l.
Proof. exact compound_object_moves. Qed.
Print Assumptions C76_moves_over_the_chain.

(** An object in a stream that can be read is read, if there is memory. *)
Theorem C76_an_object_is_read :
  forall mem rd v d s pre o post,
    is_readable_stream rd v d s -> (forall k, mem k = true) ->
    s = pre ++ object_bytes (v_byte_order v) o ++ post ->
    object_ok library_markers o -> ends (v_byte_order v) (de_size d) (zlen pre) o ->
    exists t log, compound_object_call mem rd v d (zlen pre)
                  = (Ok tt, zlen pre + zlen (object_bytes (v_byte_order v) o), t, log).
Proof.
  intros mem rd v d s pre o post HR HM Hs Ho He.
  eapply compound_object_complete; eauto. subst s. unfold at_offset.
  rewrite !zlen_app. pose proof (zlen_nonneg pre). pose proof (zlen_nonneg post).
  split; [lia|]. split; [lia|]. apply L_Header.slice_part; reflexivity.
Qed.
Print Assumptions C76_an_object_is_read.

(** But an object with a standard clipboard format, as documented, is always
    refused: the constants in the code lack a digit. *)
Theorem C76_standard_formats_are_refused :
  forall mem f rd v d o c,
    io_sound rd f -> io_bytes rd -> volume_ok v -> dirent_ok d -> short_ok v d ->
    0 <= c < 4294967296 ->
    object_ok documented_markers o -> ends (v_byte_order v) (de_size d) c o -> has_standard o ->
    chain_holds f v d c (object_bytes (v_byte_order v) o) ->
    exists c' t log, compound_object_call mem rd v d c = (Err, c', t, log).
Proof. exact standard_refused. Qed.
Print Assumptions C76_standard_formats_are_refused.

(** ** Cases *)

(** A file of a header and two sectors of 128 bytes, with the stream [s] in
    the sectors 0 and 1. *)
Definition xo_file (s : list Z) : list Z := zeros 128 ++ s ++ zeros (256 - zlen s).
Definition xo_volume : volume :=
  {| v_byte_order := Little; v_sector_size := 128; v_short_sector_size := 64; v_minimum_size := 0;
     v_container_start := END_OF_CHAIN; v_sat := [1; END_OF_CHAIN]; v_ssat := [] |}.
Definition xo_call (s : list Z) (c : Z) :=
  compound_object_call (fun _ => true) (file_reader (xo_file s)) xo_volume (x_dirent 2 0 (zlen s)) c.

Definition xo_header : list Z := [1; 0; 254; 255; 3; 10; 0; 0; 255; 255; 255; 255] ++ zeros 16.
(** "Doc", "Fmt", "Word.8" and "Dok" in UTF-16, with the ends of the strings. *)
Definition xo_object (x : format) (t : tail) : object :=
  {| co_header := xo_header; co_user := [68; 111; 99; 0]; co_format := x;
     co_reserved := [87; 111; 114; 100; 46; 56; 0]; co_tail := t |}.
Definition xo_plain : object :=
  xo_object (Registered [70; 109; 116; 0])
            (Unicode [68; 0; 111; 0; 107; 0; 0; 0] (Registered [70; 109; 116; 0]) []).
Definition xo_standard (marker : Z) : object :=
  xo_object (Standard marker [8; 0; 0; 0]) (Unicode [] NoFormat []).

Lemma xo_volume_ok : volume_ok xo_volume.
Proof.
  constructor; cbn; try (unfold is_u32, END_OF_CHAIN; lia).
  - exists 7. split; [lia|reflexivity].
  - exists 6. split; [lia|reflexivity].
  - repeat constructor; unfold END_OF_CHAIN; lia.
  - constructor.
Qed.

Lemma xo_position (s : list Z) i : zlen s <= 256 -> 0 <= i < zlen s ->
  stream_position xo_volume (x_dirent 2 0 (zlen s)) i (128 + i) /\ i / 128 < 2 /\
  nth_sector [1; END_OF_CHAIN] 0 (Z.to_nat (i / 128)) (i / 128).
Proof.
  intros Hs Hi.
  assert (N : nth_sector [1; END_OF_CHAIN] 0 (Z.to_nat (i / 128)) (i / 128)).
  { assert (Hd : i / 128 = 0 \/ i / 128 = 1).
    { assert (0 <= i / 128) by (apply Z.div_pos; lia).
      assert (i / 128 < 2) by (apply Z.div_lt_upper_bound; lia). lia. }
    destruct Hd as [-> | ->]; [constructor|]. apply ns_next with (id := 0); [constructor|reflexivity]. }
  split; [|split; [apply Z.div_lt_upper_bound; lia|exact N]].
  unfold stream_position. replace (de_size _ <? v_minimum_size xo_volume) with false
    by (cbn; symmetry; apply Z.ltb_ge; lia).
  exists (i / 128). split; [exact N|]. cbn [v_sector_size xo_volume].
  pose proof (Z.div_mod i 128). lia.
Qed.

Lemma xo_readable (s : list Z) : 0 < zlen s <= 256 -> Forall is_byte s ->
  is_readable_stream (file_reader (xo_file s)) xo_volume (x_dirent 2 0 (zlen s)) s.
Proof.
  intros Hs Hb. split; [exact xo_volume_ok|]. split; [apply x_dirent_ok; unfold is_u32; lia|].
  split; [intros H; cbn [de_size x_dirent v_minimum_size xo_volume] in H; lia|]. split; [exact Hb|]. split.
  - unfold intact. cbn [de_size x_dirent v_minimum_size xo_volume v_sector_size v_sat de_sector].
    replace (zlen s <? 0) with false by (symmetry; apply Z.ltb_ge; lia). intros i Hi.
    destruct (xo_position s i) as (_ & H1 & H2); [lia|lia|].
    change (zlen [1; END_OF_CHAIN]) with 2. split; [exact H1|]. exists (i / 128). split; [exact H2|].
    split; [apply Z.div_pos; lia|exact H1].
  - exists (xo_file s). split; [apply file_reader_sound|]. split; [apply file_reader_total|].
    split; [reflexivity|]. split; [reflexivity|]. intros i b Hi. pose proof (znth_range _ _ _ Hi) as Hr.
    destruct (xo_position s i) as (H1 & _); [lia|lia|]. exists (128 + i). split; [exact H1|].
    unfold xo_file. rewrite znth_app_r by (rewrite zlen_zeros; lia). rewrite zlen_zeros by lia.
    replace (128 + i - 128) with i by lia. rewrite znth_app_l by lia. exact Hi.
Qed.

(** An object is read, at an offset of a stream. *)
Example C76_case :
  let s := [0; 0] ++ object_bytes Little xo_plain ++ [7; 7; 7] in
  is_readable_stream (file_reader (xo_file s)) xo_volume (x_dirent 2 0 (zlen s)) s /\
  io_bytes (file_reader (xo_file s)) /\ short_ok xo_volume (x_dirent 2 0 (zlen s)) /\
  object_ok library_markers xo_plain /\ ends Little (zlen s) 2 xo_plain /\
  zlen s = 88 /\ fst (fst (xo_call s 2)) = (Ok tt, 85) /\
  snd (xo_call s 2) = [Allocate 0 4; Release 0; Allocate 1 4; Release 1; Allocate 2 7; Release 2;
                       Allocate 3 8; Release 3; Allocate 4 4; Release 4].
Proof.
  assert (HB : Forall is_byte ([0; 0] ++ object_bytes Little xo_plain ++ [7; 7; 7])).
  { vm_compute. repeat constructor; discriminate. }
  intros s. split; [apply xo_readable; [vm_compute; split; [reflexivity|discriminate]|exact HB]|].
  split. { apply file_reader_bytes. unfold xo_file. apply Forall_app; split; [|apply Forall_app; split];
           [apply Forall_zeros; unfold is_byte; lia|exact HB|apply Forall_zeros; unfold is_byte; lia]. }
  split; [vm_compute; discriminate|].
  split. { unfold object_ok, tail_ok, format_ok; vm_compute; intuition discriminate. }
  split; [vm_compute; reflexivity|]. split; [vm_compute; reflexivity|]. split; vm_compute; reflexivity.
Qed.

(** The format of Microsoft: 0xffffffff and CF_DIB.  The library refuses it,
    and takes 0x0fffffff for it. *)
Example C76_standard_case :
  let s := object_bytes Little (xo_standard 0xffffffff) in
  object_ok documented_markers (xo_standard 0xffffffff) /\
  ends Little (zlen s) 0 (xo_standard 0xffffffff) /\ has_standard (xo_standard 0xffffffff) /\
  is_readable_stream (file_reader (xo_file s)) xo_volume (x_dirent 2 0 (zlen s)) s /\
  fst (fst (xo_call s 0)) = (Err, 40) /\
  fst (fst (xo_call (object_bytes Little (xo_standard 0x0fffffff)) 0)) = (Ok tt, zlen s).
Proof.
  intros s. split. { unfold object_ok, tail_ok, format_ok; vm_compute; intuition discriminate. }
  split; [vm_compute; reflexivity|]. split; [exists 0xffffffff, [8; 0; 0; 0]; left; reflexivity|].
  split. { apply xo_readable; [vm_compute; split; [reflexivity|discriminate]|].
           vm_compute. repeat constructor; discriminate. }
  split; vm_compute; reflexivity.
Qed.

(** The documentation says that what follows is to be ignored when the
    reserved string is empty; the library reads it, and fails on it. *)
Theorem C76_remainder_ignored_refuted :
  exists rest,
    let o := {| co_header := xo_header; co_user := [68; 0]; co_format := NoFormat;
                co_reserved := []; co_tail := Nothing |} in
    let s := body_bytes Little o ++ rest in
    is_readable_stream (file_reader (xo_file s)) xo_volume (x_dirent 2 0 (zlen s)) s /\
    fst (fst (xo_call (body_bytes Little o) 0)) = (Ok tt, zlen s - zlen rest) /\
    fst (fst (xo_call s 0)) = (Err, zlen s).
Proof.
  exists (bytes_of Little 4 UNICODE_MARKER ++ [255; 255; 255; 255]). split.
  - apply xo_readable; [vm_compute; split; [reflexivity|discriminate]|].
    vm_compute. repeat constructor; discriminate.
  - split; vm_compute; reflexivity.
Qed.
Print Assumptions C76_remainder_ignored_refuted.

(** The size of the stream does not bound what is read: here the user type
    string goes past the end of the stream into the rest of its sector. *)
Theorem C76_stays_in_the_stream_refuted :
  exists s c' t log,
    is_readable_stream (file_reader (xo_file s)) xo_volume (x_dirent 2 0 (zlen s)) s /\
    compound_object_call (fun _ => true) (file_reader (xo_file s)) xo_volume (x_dirent 2 0 (zlen s)) 0
      = (Ok tt, c', t, log) /\ zlen s < c'.
Proof.
  exists (xo_header ++ bytes_of Little 4 20 ++ [68; 0]). eexists. eexists. eexists. split.
  - apply xo_readable; [vm_compute; split; [reflexivity|discriminate]|].
    vm_compute. repeat constructor; discriminate.
  - split; vm_compute; reflexivity.
Qed.
Print Assumptions C76_stays_in_the_stream_refuted.

(** A call that fails leaves the offset where it got to, so that calling again
    does not read the same. *)
Theorem C76_failure_keeps_the_offset_refuted :
  exists s c' t log,
    is_readable_stream (file_reader (xo_file s)) xo_volume (x_dirent 2 0 (zlen s)) s /\
    compound_object_call (fun _ => false) (file_reader (xo_file s)) xo_volume (x_dirent 2 0 (zlen s)) 0
      = (Err, c', t, log) /\ 0 < c'.
Proof.
  exists (object_bytes Little xo_plain). eexists. eexists. eexists. split.
  - apply xo_readable; [vm_compute; split; [reflexivity|discriminate]|].
    vm_compute. repeat constructor; discriminate.
  - split; vm_compute; reflexivity.
Qed.
Print Assumptions C76_failure_keeps_the_offset_refuted.
