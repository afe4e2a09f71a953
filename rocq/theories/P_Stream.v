(** Properties of stream reads: C01-C09, C12 and the part of C10 on reads. *)
From Coq Require Import ZArith List Bool Lia.
From Verif Require Import Base Spec_IO M_Table M_Load M_Stream Spec_Stream
  L_Base L_Stream L_Stream2 L_Stream3 X_Stream.
Import ListNotations.
Open Scope Z_scope.

(** C01 *)
Theorem C01_read_is_chain_bytes :
  forall f rd v d cursor size cap t data cursor' t',
    io_sound rd f -> volume_ok v -> dirent_ok d -> 0 <= size ->
    (de_size d < v_minimum_size v ->
     v_short_sector_size v <= v_sector_size v /\ container_used v) ->
    stream_read_buffer rd v d cursor size cap t = (Ok (data, cursor'), t') ->
    forall j b, znth data j = Some b ->
      exists p, stream_position v d (cursor + j) p /\ znth f p = Some b.
Proof. exact read_buffer_position. Qed.
Print Assumptions C01_read_is_chain_bytes.

(** A position is unique, so the bytes are determined. *)
Theorem C01_position_unique :
  forall v d i p1 p2, stream_position v d i p1 -> stream_position v d i p2 -> p1 = p2.
Proof. exact stream_position_fun. Qed.
Print Assumptions C01_position_unique.

Example C01_case :
  io_sound (file_reader x_file) x_file /\ volume_ok x_volume /\ dirent_ok x_short /\
  (de_size x_short < v_minimum_size x_volume ->
   v_short_sector_size x_volume <= v_sector_size x_volume /\ container_used x_volume) /\
  exists data t',
    stream_read_buffer (file_reader x_file) x_volume x_short 10 100 100 []
      = (Ok (data, 90), t') /\
    znth data 60 = znth x_file (4 * 128 + 6).
Proof.
  split; [exact x_reader_sound|]. split; [exact x_volume_ok|]. split; [exact x_short_ok|].
  split; [intros _; split; [vm_compute; discriminate|exact x_container_used]|].
  eexists. eexists. split; vm_compute; reflexivity.
Qed.

(** Without the hypotheses on the short sectors the claim is false: short
    sectors larger than sectors are read past the end of a sector, ... *)
Theorem C01_large_short_sectors_refuted :
  exists f rd v d data t' p b,
    io_sound rd f /\ volume_ok v /\ dirent_ok d /\ container_used v /\
    stream_read_buffer rd v d 0 200 200 [] = (Ok (data, 200), t') /\
    znth data 130 = Some b /\ stream_position v d 130 p /\ znth f p <> Some b.
Proof.
  exists x_file, (file_reader x_file), x_volume_large, (x_dirent 2 0 200).
  eexists. eexists. exists 514. eexists.
  split; [exact x_reader_sound|]. split; [exact x_volume_large_ok|].
  split; [exact x_regular_ok|]. split; [exact x_container_used|].
  split; [vm_compute; reflexivity|]. split; [vm_compute; reflexivity|]. split.
  - apply stream_position_c_ok. vm_compute. reflexivity.
  - vm_compute. discriminate.
Qed.
Print Assumptions C01_large_short_sectors_refuted.

(** ... and when the root entry has no data the header of the file is
    returned as data. *)
Theorem C01_unused_container_refuted :
  exists f rd v d data t',
    io_sound rd f /\ volume_ok v /\ dirent_ok d /\
    v_short_sector_size v <= v_sector_size v /\
    stream_read_buffer rd v d 0 64 64 [] = (Ok (data, 64), t') /\
    data = slice f 0 64 /\
    (forall i p, 0 <= i < 64 -> stream_position v d i p -> znth f p = None).
Proof.
  exists x_file, (file_reader x_file), x_volume_unused, (x_dirent 2 0 64).
  eexists. eexists.
  split; [exact x_reader_sound|]. split; [exact x_volume_unused_ok|].
  split; [apply x_dirent_ok; unfold is_u32; lia|]. split; [vm_compute; discriminate|].
  split; [vm_compute; reflexivity|]. split; [vm_compute; reflexivity|].
  - intros i p Hi Hp.
    apply stream_position_c_ok in Hp.
    assert (Hge : 4294967296 * 128 <= p).
    { revert p Hp. apply (forall_below 64
        (fun i => forall p, stream_position_c x_volume_unused (x_dirent 2 0 64) i = Some p ->
                            4294967296 * 128 <= p)
        (fun i => match stream_position_c x_volume_unused (x_dirent 2 0 64) i with
                  | Some p => 4294967296 * 128 <=? p | None => true end));
        [|vm_compute; reflexivity|exact Hi].
      intros k Hk p Hp. rewrite Hp in Hk. lia. }
    destruct (znth x_file p) eqn:E; [|reflexivity]. apply znth_range in E.
    change (zlen x_file) with 640 in E. lia.
Qed.
Print Assumptions C01_unused_container_refuted.

(** C02 *)
Theorem C02_intact_chain_is_readable :
  forall f rd v d cursor size cap t,
    let m := Z.min size (de_size d - cursor) in
    let ss := if de_size d <? v_minimum_size v then v_short_sector_size v
              else v_sector_size v in
    let tbl := if de_size d <? v_minimum_size v then v_ssat v else v_sat v in
    io_total rd f -> volume_ok v -> dirent_ok d -> de_type d = 2 ->
    (de_size d < v_minimum_size v ->
     v_short_sector_size v <= v_sector_size v /\ container_used v) ->
    0 <= cursor < de_size d -> 0 < size <= cap -> size <= SSIZE_MAX ->
    (4 <= ss \/ size <= 1073741824) ->
    cursor / ss < zlen tbl ->
    (exists id, nth_sector tbl (de_sector d) (Z.to_nat ((cursor + m - 1) / ss)) id /\
                0 <= id < zlen tbl) ->
    (forall i, cursor <= i < cursor + m -> exists p, stream_position v d i p /\ p < zlen f) ->
    exists data t',
      stream_read_buffer rd v d cursor size cap t = (Ok (data, cursor + m), t') /\
      zlen data = m.
Proof. exact read_buffer_complete. Qed.
Print Assumptions C02_intact_chain_is_readable.

(** The condition on the number of the first sector holds for every chain
    without repetition. *)
Theorem C02_acyclic_chain_is_short :
  forall tbl first n id,
    nth_sector tbl first n id -> 0 <= id < zlen tbl ->
    (forall j k x, (j <= n)%nat -> (k <= n)%nat ->
       nth_sector tbl first j x -> nth_sector tbl first k x -> j = k) ->
    Z.of_nat n < zlen tbl.
Proof. exact acyclic_bound. Qed.
Print Assumptions C02_acyclic_chain_is_short.

Example C02_case :
  io_total (file_reader x_file) x_file /\ volume_ok x_volume /\ dirent_ok x_short /\
  de_type x_short = 2 /\ 10 / 64 < zlen x_ssat /\
  (exists id, nth_sector x_ssat 0 (Z.to_nat ((10 + 80 - 1) / 64)) id /\ 0 <= id < zlen x_ssat) /\
  (forall i, 10 <= i < 10 + 80 ->
     exists p, stream_position x_volume x_short i p /\ p < zlen x_file).
Proof.
  split; [exact x_reader_total|]. split; [exact x_volume_ok|]. split; [exact x_short_ok|].
  split; [reflexivity|]. split; [vm_compute; reflexivity|]. split.
  - exists 2. split; [apply nth_sector_c_ok; vm_compute; reflexivity|vm_compute; split; [discriminate|reflexivity]].
  - intros i Hi.
    apply (forall_below 90 (fun i => exists p, stream_position x_volume x_short i p /\ p < zlen x_file)
       (fun i => match stream_position_c x_volume x_short i with Some p => p <? 640 | None => false end));
      [|vm_compute; reflexivity|lia].
    intros k Hk. destruct (stream_position_c x_volume x_short k) as [p|] eqn:E; [|discriminate].
    exists p. split; [now apply stream_position_c_ok|]. change (zlen x_file) with 640. lia.
Qed.

(** C03 *)
Theorem C03_pieces_equal_whole :
  forall f v d calls rd cursor ds cursor1 data cursor2,
    volume_ok v -> dirent_ok d -> 0 <= cursor ->
    Forall (fun c => io_sound (fst c) f /\ 0 <= snd c) calls -> io_sound rd f ->
    item_run v d (read_calls calls) cursor = (map RData ds, cursor1) ->
    item_step rd v d (OpRead (sum_sizes calls)) cursor = (RData data, cursor2) ->
    data = concat ds /\ cursor1 = cursor2.
Proof. exact pieces_whole. Qed.
Print Assumptions C03_pieces_equal_whole.

(** When the whole can be read, the pieces can: the library checks the number
    of the first sector of a read against the number of table entries, so
    this must hold for every sector (it does for a chain without cycle, C02). *)
Theorem C03_pieces_succeed :
  forall f v d calls rd cursor data cursor',
    volume_ok v -> dirent_ok d -> 0 <= cursor ->
    Forall (fun c => io_total (fst c) f /\ io_sound (fst c) f /\ 0 < snd c) calls ->
    io_sound rd f ->
    few_sectors v d (sum_sizes calls) ->
    (forall i, cursor <= i < cursor + zlen data ->
       i / stream_sector_size v d < zlen (stream_table v d)) ->
    item_step rd v d (OpRead (sum_sizes calls)) cursor = (RData data, cursor') ->
    exists ds, item_run v d (read_calls calls) cursor = (map RData ds, cursor') /\
               data = concat ds.
Proof. exact whole_pieces. Qed.
Print Assumptions C03_pieces_succeed.

Example C03_case :
  let rd := file_reader x_file in
  let calls := [(rd, 50); (rd, 1); (rd, 0); (rd, 200)] in
  exists ds data,
    item_run x_volume x_regular (read_calls calls) 20 = (map RData ds, 200) /\
    item_step rd x_volume x_regular (OpRead (sum_sizes calls)) 20 = (RData data, 200) /\
    zlen data = 180.
Proof.
  exists [slice x_file 148 50; slice x_file 198 1; [];
          slice x_file 199 57 ++ slice x_file 384 72].
  eexists. split; [vm_compute; reflexivity|]. split; vm_compute; reflexivity.
Qed.

(** The condition on the sector numbers is needed: on a cyclic chain a read of
    the whole can succeed and reads of its parts fail. *)
Theorem C03_cyclic_pieces_refuted :
  exists f rd v d data,
    volume_ok v /\ dirent_ok d /\ io_sound rd f /\ io_total rd f /\
    item_step rd v d (OpRead 768) 0 = (RData data, 768) /\
    item_run v d (read_calls [(rd, 640); (rd, 128)]) 0 = ([RData (slice data 0 640); RError], 640).
Proof.
  exists x_file, (file_reader x_file).
  exists {| v_byte_order := Little; v_sector_size := 128; v_short_sector_size := 64;
            v_minimum_size := 100; v_container_start := 1; v_sat := [1; 0; 0; 0]; v_ssat := [] |}.
  exists (x_dirent 2 0 768). eexists.
  split.
  { constructor; simpl; try (unfold is_u32; lia).
    - exists 7. split; [lia|reflexivity].
    - exists 6. split; [lia|reflexivity].
    - repeat constructor; unfold is_u32; lia.
    - constructor.
    - vm_compute. discriminate.
    - vm_compute. discriminate. }
  split; [apply x_dirent_ok; unfold is_u32; lia|].
  split; [exact x_reader_sound|]. split; [exact x_reader_total|].
  split; vm_compute; reflexivity.
Qed.
Print Assumptions C03_cyclic_pieces_refuted.

(** C04 *)
Theorem C04_read_at_is_history_free :
  forall v d history rs cursor rd offset size,
    dirent_ok d -> Forall (fun c => op_args (snd c)) history ->
    item_run v d history 0 = (rs, cursor) ->
    fst (item_step rd v d (OpReadAt offset size) cursor) =
    fst (item_step rd v d (OpReadAt offset size) 0).
Proof. exact read_at_history. Qed.
Print Assumptions C04_read_at_is_history_free.

Example C04_case :
  let rd := file_reader x_file in
  let bad := failing_reader x_file 410 in
  let h := [(rd, OpRead 150); (bad, OpRead 30); (rd, OpSeek (-10) 1); (bad, OpReadAt 130 8)] in
  Forall (fun c => op_args (snd c)) h /\
  item_run x_volume x_regular h 0 =
    ([RData (slice x_file 128 128 ++ slice x_file 384 22); RError; ROffset 140;
      RData (slice x_file 386 8)], 138) /\
  item_step rd x_volume x_regular (OpReadAt 120 20) 138 =
    (RData (slice x_file 248 8 ++ slice x_file 384 12), 140).
Proof.
  split; [repeat constructor; simpl; unfold int64, INT64_MIN, INT64_MAX; lia|].
  split; vm_compute; reflexivity.
Qed.

(** C05 *)
Theorem C05_cursor_accounting :
  forall v d history rs cursor rd op r cursor',
    dirent_ok d -> Forall (fun c => op_args (snd c)) history -> op_args op ->
    item_run v d history 0 = (rs, cursor) ->
    item_step rd v d op cursor = (r, cursor') ->
    0 <= cursor /\ step_accounting d op cursor r cursor'.
Proof. exact history_accounting. Qed.
Print Assumptions C05_cursor_accounting.

Example C05_case :
  let rd := file_reader x_file in
  let bad := failing_reader x_file 410 in
  item_run x_volume x_regular
    [(rd, OpRead 150); (bad, OpRead 30); (rd, OpRead 1000); (rd, OpSeek 7 2);
     (rd, OpRead 1); (rd, OpTell)] 0
  = ([RData (slice x_file 128 128 ++ slice x_file 384 22); RError;
      RData (slice x_file 406 50); ROffset 207; RData []; ROffset 207], 207).
Proof. vm_compute. reflexivity. Qed.

(** C06 *)
Theorem C06_read_at_end :
  forall rd v d cursor size cap t,
    de_type d = 2 -> 0 <= cursor -> size <= SSIZE_MAX -> de_size d <= cursor ->
    stream_read_buffer rd v d cursor size cap t = (Ok ([], cursor), t).
Proof. exact read_at_end. Qed.
Print Assumptions C06_read_at_end.

Theorem C06_read_before_end :
  forall rd v d cursor size cap t data cursor' t',
    dirent_ok d -> 0 < size -> 0 <= cursor < de_size d ->
    stream_read_buffer rd v d cursor size cap t = (Ok (data, cursor'), t') ->
    0 < zlen data /\ zlen data = Z.min size (de_size d - cursor).
Proof. exact read_before_end. Qed.
Print Assumptions C06_read_before_end.

Example C06_case :
  de_type x_regular = 2 /\ de_size x_regular = 200 /\
  stream_read_buffer (file_reader x_file) x_volume x_regular 200 10 10 [] = (Ok ([], 200), []) /\
  exists t', stream_read_buffer (file_reader x_file) x_volume x_regular 199 10 10 []
    = (Ok (slice x_file 455 1, 200), t').
Proof.
  split; [reflexivity|]. split; [reflexivity|]. split; [vm_compute; reflexivity|].
  eexists. vm_compute. reflexivity.
Qed.

(** C07 *)
Theorem C07_only_streams :
  forall rd v d op cursor,
    de_type d <> 2 -> item_step rd v d op cursor = (RError, cursor).
Proof. exact non_stream_step. Qed.
Print Assumptions C07_only_streams.

Example C07_case : de_type x_storage <> 2.
Proof. discriminate. Qed.

(** C08 *)
Theorem C08_seek :
  forall d cursor offset whence,
    dirent_ok d -> de_type d = 2 -> 0 <= cursor -> int64 offset ->
    stream_seek_offset d cursor offset whence =
    match seek_base d cursor whence with
    | None => Err
    | Some base =>
        if INT64_MAX <? base + offset then Undef
        else if base + offset <? 0 then Err
        else Ok (base + offset)
    end.
Proof. exact seek_exact. Qed.
Print Assumptions C08_seek.

Example C08_case :
  dirent_ok x_regular /\ de_type x_regular = 2 /\
  stream_seek_offset x_regular 20 INT64_MAX 2 = Undef /\
  stream_seek_offset x_regular 20 (-50) 2 = Ok 150 /\
  stream_seek_offset x_regular 20 (-50) 1 = Err.
Proof.
  split; [exact x_regular_ok|]. split; [reflexivity|].
  split; [|split]; vm_compute; reflexivity.
Qed.

(** C09 *)
Theorem C09_threshold_only :
  forall rd v d cursor size cap t m,
    (de_size d < v_minimum_size v <-> de_size d < m) ->
    stream_read_buffer rd v d cursor size cap t =
    stream_read_buffer rd (with_minimum v m) d cursor size cap t.
Proof. exact read_threshold_only. Qed.
Print Assumptions C09_threshold_only.

Theorem C09_large_streams_ignore_short_sectors :
  forall rd v d cursor size cap t sss start ssat,
    v_minimum_size v <= de_size d ->
    stream_read_buffer rd v d cursor size cap t =
    stream_read_buffer rd (with_short v sss start ssat) d cursor size cap t.
Proof. exact read_regular_only. Qed.
Print Assumptions C09_large_streams_ignore_short_sectors.

Theorem C09_small_streams_use_short_sectors :
  forall f rd v d cursor size cap t data cursor' t',
    io_sound rd f -> volume_ok v -> dirent_ok d -> 0 <= size ->
    de_size d < v_minimum_size v ->
    v_short_sector_size v <= v_sector_size v -> container_used v ->
    stream_read_buffer rd v d cursor size cap t = (Ok (data, cursor'), t') ->
    forall j b, znth data j = Some b ->
      exists id p,
        nth_sector (v_ssat v) (de_sector d)
                   (Z.to_nat ((cursor + j) / v_short_sector_size v)) id /\
        chain_position (v_sat v) (v_sector_size v) (v_container_start v)
          (id * v_short_sector_size v + (cursor + j) mod v_short_sector_size v) p /\
        znth f p = Some b.
Proof. exact read_short_positions. Qed.
Print Assumptions C09_small_streams_use_short_sectors.

Example C09_case :
  de_size x_short < v_minimum_size x_volume /\
  v_minimum_size x_volume <= de_size x_regular /\
  de_size (x_dirent 2 0 100) = v_minimum_size x_volume /\
  exists t', stream_read_buffer (file_reader x_file) x_volume (x_dirent 2 0 100) 0 100 100 []
    = (Ok (slice x_file 128 100, 100), t').
Proof.
  split; [reflexivity|]. split; [vm_compute; discriminate|]. split; [reflexivity|].
  eexists. vm_compute. reflexivity.
Qed.

(** C10, reads: no undefined behaviour. *)
Theorem C10_reads_defined :
  forall rd v d cursor size cap t,
    volume_ok v -> dirent_ok d -> 0 <= size <= cap ->
    (4 <= (if de_size d <? v_minimum_size v then v_short_sector_size v else v_sector_size v)
     \/ size <= 1073741824) ->
    defined (fst (stream_read_buffer rd v d cursor size cap t)).
Proof. exact read_buffer_defined. Qed.
Print Assumptions C10_reads_defined.

(** C12 *)
Theorem C12_read_work :
  forall rd v d cursor size cap t,
    volume_ok v -> dirent_ok d -> 0 <= size ->
    let ss := if de_size d <? v_minimum_size v then v_short_sector_size v
              else v_sector_size v in
    exists l, snd (stream_read_buffer rd v d cursor size cap t) = t ++ l /\
      zlen l <= size / ss + 2 /\ Forall (fun r => 0 < snd r <= ss) l.
Proof. exact read_buffer_reads. Qed.
Print Assumptions C12_read_work.

Example C12_case :
  snd (stream_read_buffer (file_reader x_file) x_volume x_regular 100 100 100 [])
  = [(228, 28); (384, 72)].
Proof. vm_compute. reflexivity. Qed.
