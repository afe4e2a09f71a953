(** Model of libolecf_io_handle_read_stream (libolecf/libolecf_io_handle.c)
    and of libolecf/libolecf_stream.c. *)
From Coq Require Import ZArith List Bool.
From Verif Require Import Base M_Table M_Load.
Import ListNotations.
Open Scope Z_scope.

(** The part of an opened file that stream reads use: the fields of
    libolecf_io_handle_t (libolecf/libolecf_io_handle.h) and the two tables. *)
Record volume := {
  v_byte_order : endian;
  v_sector_size : Z;
  v_short_sector_size : Z;
  v_minimum_size : Z;              (* sector_stream_minimum_data_size *)
  v_container_start : Z;           (* short_sector_stream_start_sector_identifier *)
  v_sat : list Z;
  v_ssat : list Z
}.

(** libolecf_io_handle_read_stream lines 1553-1600: skip [n] sectors. *)
Fixpoint skip_sectors (n : nat) (tbl : list Z) (id : Z) : res Z :=
  match n with
  | O => Ok id
  | S n' =>
      if id =? END_OF_CHAIN then Err
      else do id' <- table_next tbl id; skip_sectors n' tbl id'
  end.

(** libolecf_io_handle_read_stream lines 1620-1657: locate a short sector in
    the chain of the root entry.  Yields the identifier of the sector and the
    offset in it. *)
Fixpoint container_walk (fuel : nat) (sat : list Z) (ss : Z)
         (read_offset cid : Z) : res (Z * Z) :=
  match fuel with
  | O => NoFuel
  | S fuel' =>
      if ss <=? read_offset then
        do cid' <- table_next sat cid;
        container_walk fuel' sat ss (read_offset - ss) cid'
      else Ok (cid, read_offset)
  end.

(** Lines 1507-1538 and 1618: whether the short sectors are used. *)
Definition is_short (v : volume) (d : dirent) : bool :=
  de_size d <? v_minimum_size v.

Definition stream_table (v : volume) (d : dirent) : list Z :=
  if is_short v d then v_ssat v else v_sat v.

Definition stream_sector_size (v : volume) (d : dirent) : Z :=
  if is_short v d then v_short_sector_size v else v_sector_size v.

(** Lines 1618-1663: file offset of the start of the sector [id]. *)
Definition sector_read_offset (v : volume) (d : dirent) (id : Z) : res Z :=
  if is_short v d then
    let read_offset := id * v_short_sector_size v in
    do (cid, rest) <-
      container_walk (Z.to_nat (read_offset / v_sector_size v) + 1)
                     (v_sat v) (v_sector_size v) read_offset (v_container_start v);
    Ok (rest + sector_offset cid (v_sector_size v))
  else Ok (sector_offset id (v_sector_size v)).

(** libolecf_io_handle_read_stream lines 1601-1733.  [cap] is the number of
    bytes that the buffer of the caller can hold from buffer_offset on;
    writing more is undefined.  [acc] are the bytes stored so far.  Line 1732
    increments an int. *)
Fixpoint stream_loop (fuel : nat) (rd : reader) (v : volume) (d : dirent)
         (id index safe_offset size cap : Z) (acc : list Z) : io (list Z) :=
  match fuel with
  | O => ilift NoFuel
  | S fuel' =>
      if size <=? 0 then iret acc
      else if id =? END_OF_CHAIN then ierr
      else
        let ss := stream_sector_size v d in
        let boundary := index * ss in
        dio base <- ilift (sector_read_offset v d id);
        let delta := if boundary <? safe_offset then safe_offset - boundary else 0 in
        let read_offset := base + delta in
        let read_size := u64 (ss - delta) in
        let read_size := if size <? read_size then size else read_size in
        if cap <? read_size then ilift Undef
        else
          dio data <- read_exact rd read_offset read_size;
          dio id' <- ilift (table_next (stream_table v d) id);
          if index =? INT_MAX then ilift Undef
          else
            stream_loop fuel' rd v d id' (index + 1) (safe_offset + read_size)
                        (size - read_size) (cap - read_size) (acc ++ data)
  end.

(** libolecf_io_handle_read_stream, lines 1413-1737.  The result is the bytes
    stored in the buffer; the offset is advanced by their number (line 1734).
    [cap] is the size of the buffer of the caller. *)
Definition io_read_stream (rd : reader) (v : volume) (d : dirent)
           (offset size cap : Z) : io (list Z) :=
  if offset <? 0 then ierr
  else if SSIZE_MAX <? size then ierr
  else
    let tbl := stream_table v d in
    let index := s32 (offset / stream_sector_size v d) in
    if (index <? 0) || (zlen tbl <=? index) then ierr
    else
      dio id <- ilift (skip_sectors (Z.to_nat index) tbl (de_sector d));
      stream_loop (Z.to_nat size + 1) rd v d id index offset size cap [].

(** ** libolecf/libolecf_stream.c
    The item is given by its directory entry and its cursor (the offset field
    of libolecf_internal_item_t). *)

(** libolecf_stream_read_buffer, lines 36-158.  Result: the bytes and the new
    cursor.  An error leaves the cursor unchanged (the offset is only stored
    by line 1734 above). *)
Definition stream_read_buffer (rd : reader) (v : volume) (d : dirent)
           (cursor size cap : Z) : io (list Z * Z) :=
  if negb (de_type d =? TYPE_STREAM) then ierr
  else if cursor <? 0 then ierr
  else if SSIZE_MAX <? size then ierr
  else if de_size d <=? cursor then iret ([], cursor)
  else
    let size := if (de_size d <? size) || (u64 (de_size d - size) <? cursor)
                then de_size d - cursor else size in
    dio data <- io_read_stream rd v d cursor size cap;
    if zlen data =? size then iret (data, cursor + zlen data) else ierr.

(** whence values, stdio.h. *)
Definition SEEK_SET : Z := 0.
Definition SEEK_CUR : Z := 1.
Definition SEEK_END : Z := 2.

(** libolecf_stream_seek_offset, lines 211-302. *)
Definition stream_seek_offset (d : dirent) (cursor offset whence : Z) : res Z :=
  if negb (de_type d =? TYPE_STREAM) then Err
  else if cursor <? 0 then Err
  else if negb (whence =? SEEK_CUR) && negb (whence =? SEEK_END)
       && negb (whence =? SEEK_SET) then Err
  else
    do offset <- (if whence =? SEEK_CUR then add_s64 offset cursor
                  else if whence =? SEEK_END then add_s64 offset (de_size d)
                  else Ok offset);
    if offset <? 0 then Err else Ok offset.

(** libolecf_stream_get_offset, lines 307-365. *)
Definition stream_get_offset (d : dirent) (cursor : Z) : res Z :=
  if negb (de_type d =? TYPE_STREAM) then Err else Ok cursor.

(** libolecf_stream_read_buffer_at_offset, lines 163-206.  The cursor is part
    of the result also on failure: the seek may have moved it. *)
Definition stream_read_at (rd : reader) (v : volume) (d : dirent)
           (cursor offset size cap : Z) : trace -> res (list Z) * Z * trace :=
  fun t =>
    match stream_seek_offset d cursor offset SEEK_SET with
    | Ok cursor1 =>
        match stream_read_buffer rd v d cursor1 size cap t with
        | (Ok (data, cursor2), t') => (Ok data, cursor2, t')
        | (Err, t') => (Err, cursor1, t')
        | (Undef, t') => (Undef, cursor1, t')
        | (NoFuel, t') => (NoFuel, cursor1, t')
        end
    | Err => (Err, cursor, t)
    | Undef => (Undef, cursor, t)
    | NoFuel => (NoFuel, cursor, t)
    end.

(** ** Histories of calls on one item
    The API calls on the stream of an item.  Every call gets its own reader,
    so that every call can meet other I/O failures.  A buffer of the size
    passed is what the API demands of the caller. *)
Inductive item_op :=
| OpRead (size : Z)
| OpReadAt (offset size : Z)
| OpSeek (offset whence : Z)
| OpTell.

Inductive item_result :=
| RData (data : list Z)
| ROffset (offset : Z)
| RError
| RUndefined.

Definition item_step (rd : reader) (v : volume) (d : dirent) (op : item_op)
           (cursor : Z) : item_result * Z :=
  match op with
  | OpRead size =>
      match stream_read_buffer rd v d cursor size size [] with
      | (Ok (data, cursor'), _) => (RData data, cursor')
      | (Err, _) => (RError, cursor)
      | (_, _) => (RUndefined, cursor)
      end
  | OpReadAt offset size =>
      match stream_read_at rd v d cursor offset size size [] with
      | (Ok data, cursor', _) => (RData data, cursor')
      | (Err, cursor', _) => (RError, cursor')
      | (_, cursor', _) => (RUndefined, cursor')
      end
  | OpSeek offset whence =>
      match stream_seek_offset d cursor offset whence with
      | Ok cursor' => (ROffset cursor', cursor')
      | Err => (RError, cursor)
      | _ => (RUndefined, cursor)
      end
  | OpTell =>
      match stream_get_offset d cursor with
      | Ok c => (ROffset c, cursor)
      | Err => (RError, cursor)
      | _ => (RUndefined, cursor)
      end
  end.

Fixpoint item_run (v : volume) (d : dirent) (h : list (reader * item_op))
         (cursor : Z) : list item_result * Z :=
  match h with
  | [] => ([], cursor)
  | (rd, op) :: h' =>
      let (r, cursor1) := item_step rd v d op cursor in
      let (rs, cursor2) := item_run v d h' cursor1 in
      (r :: rs, cursor2)
  end.
