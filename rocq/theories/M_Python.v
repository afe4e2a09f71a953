(** Model of the Python bindings: pyolecf/pyolecf_integer.c,
    pyolecf/pyolecf_file_object_io_handle.c and pyolecf/pyolecf_stream.c.  The
    build is one for Python 3 with HAVE_LONG_LONG, a long long of 64 bits, a
    Py_ssize_t and a size_t of 64 bits.

    Simplified: reference counts and the global interpreter lock are left out,
    creating Python objects does not fail, and of an exception only the type is
    represented. *)
From Coq Require Import ZArith List Bool.
From Verif Require Import Base M_Table M_Load M_Stream.
Import ListNotations.
Open Scope Z_scope.

(** ** Values
    A Python object as the bindings look at it: an int, a bytes object, None,
    or anything else. *)
Inductive pyvalue :=
| PInt (z : Z)
| PBytes (l : list Z)
| PNone
| POther.

(** ** pyolecf_integer.c *)

(** pyolecf_integer_signed_copy_to_64bit, lines 108-244.  PyLong_AsLongLong
    raises an exception when the int does not fit. *)
Definition integer_signed (v : pyvalue) : res Z :=
  match v with
  | PInt z => if (z <? - 9223372036854775808) || (9223372036854775807 <? z) then Err else Ok z
  | _ => Err
  end.

(** pyolecf_integer_unsigned_copy_to_64bit, lines 249-398.
    PyLong_AsUnsignedLongLong raises an exception when the int does not fit;
    its result is stored in a signed variable (lines 258, 296), which must not
    be negative (line 371). *)
Definition integer_unsigned (v : pyvalue) : res Z :=
  match v with
  | PInt z =>
      if (z <? 0) || (18446744073709551615 <? z) then Err
      else
        let long_value := s64 z in
        if long_value <? 0 then Err else Ok (u64 long_value)
  | _ => Err
  end.

(** pyolecf_integer_signed_new_from_64bit, lines 33-66, of an int64_t. *)
Definition signed_new (x : Z) : pyvalue := PInt x.
(** pyolecf_integer_unsigned_new_from_64bit, lines 71-103, of a uint64_t: cast
    to long long (line 87) and taken as unsigned long long by
    PyLong_FromUnsignedLongLong. *)
Definition unsigned_new (x : Z) : pyvalue := PInt (u64 (s64 x)).

(** ** pyolecf_file_object_io_handle.c
    A Python file object with the state [S].  A method gives a value or raises
    an exception ([None]).  [po_get_offset] and [po_get_size] are called if
    the object has these attributes. *)
Definition method (S : Type) : Type := S -> option pyvalue * S.

Record pyobject (S : Type) := {
  po_read : Z -> method S;
  po_seek : Z -> Z -> method S;
  po_tell : method S;
  po_has_get_offset : S -> bool;
  po_get_offset : method S;
  po_has_get_size : S -> bool;
  po_get_size : method S
}.
Arguments po_read {S}. Arguments po_seek {S}. Arguments po_tell {S}.
Arguments po_has_get_offset {S}. Arguments po_get_offset {S}.
Arguments po_has_get_size {S}. Arguments po_get_size {S}.

(** pyolecf_file_object_read_buffer, lines 416-614, with a buffer of [size]
    bytes: as many bytes are copied as the method returned (lines 565-570). *)
Definition object_read {S} (ob : pyobject S) (size : Z) (s : S) : res (list Z) * S :=
  if SSIZE_MAX <? size then (Err, s)
  else if 0 <? size then
    match po_read ob size s with
    | (Some (PBytes l), s') => (if size <? zlen l then Undef else Ok l, s')
    | (_, s') => (Err, s')
    end
  else (Ok [], s).

(** pyolecf_file_object_seek_offset, lines 860-999.  What the method returns
    does not matter. *)
Definition object_seek {S} (ob : pyobject S) (offset whence : Z) (s : S) : res unit * S :=
  if negb (whence =? SEEK_CUR) && negb (whence =? SEEK_END) && negb (whence =? SEEK_SET) then (Err, s)
  else
    match po_seek ob offset whence s with
    | (Some _, s') => (Ok tt, s')
    | (None, s') => (Err, s')
    end.

(** pyolecf_file_object_get_offset, lines 1005-1130. *)
Definition object_get_offset {S} (ob : pyobject S) (s : S) : res Z * S :=
  match (if po_has_get_offset ob s then po_get_offset ob s else po_tell ob s) with
  | (Some v, s') => (integer_signed v, s')
  | (None, s') => (Err, s')
  end.

(** pyolecf_file_object_io_handle_seek_offset, lines 1135-1196. *)
Definition handle_seek {S} (ob : pyobject S) (offset whence : Z) (s : S) : res Z * S :=
  match object_seek ob offset whence s with
  | (Ok _, s1) => object_get_offset ob s1
  | (_, s1) => (Err, s1)
  end.

(** pyolecf_file_object_get_size, lines 1265-1366. *)
Definition object_get_size {S} (ob : pyobject S) (s : S) : res Z * S :=
  match po_get_size ob s with
  | (Some v, s') => (integer_unsigned v, s')
  | (None, s') => (Err, s')
  end.

(** pyolecf_file_object_io_handle_get_size, lines 1371-1523.  The function
    returns 1 on all paths behind the argument checks (lines 1510 and 1522).
    Result: what was written to [*size], if anything; the end offset is
    written there as an off64_t. *)
Definition handle_get_size {S} (ob : pyobject S) (s : S) : res (option Z) * S :=
  if po_has_get_size ob s then
    match object_get_size ob s with
    | (Ok n, s1) => (Ok (Some n), s1)
    | (_, s1) => (Ok None, s1)
    end
  else
    match object_get_offset ob s with
    | (Ok current, s1) =>
        match object_seek ob 0 SEEK_END s1 with
        | (Ok _, s2) =>
            match object_get_offset ob s2 with
            | (Ok n, s3) =>
                let (_, s4) := object_seek ob current SEEK_SET s3 in (Ok (Some (u64 n)), s4)
            | (_, s3) => let (_, s4) := object_seek ob current SEEK_SET s3 in (Ok None, s4)
            end
        | (_, s2) => (Ok None, s2)
        end
    | (_, s1) => (Ok None, s1)
    end.

(** libbfio_handle_read_buffer_at_offset, not in the repository: it seeks with
    SEEK_SET and reads.  An offset of -1 is an error. *)
Definition object_read_at {S} (ob : pyobject S) (offset size : Z) (s : S) : res (list Z) * S :=
  match handle_seek ob offset SEEK_SET s with
  | (Ok o, s1) => if o <? 0 then (Err, s1) else object_read ob size s1
  | (_, s1) => (Err, s1)
  end.

(** The I/O layer of a file that was opened with a Python file object
    (pyolecf_file_object_initialize, lines 126-205): the requests before leave
    the object in some state. *)
Fixpoint object_after {S} (ob : pyobject S) (t : trace) (s : S) : S :=
  match t with
  | [] => s
  | (offset, size) :: t' => object_after ob t' (snd (object_read_at ob offset size s))
  end.

Definition object_reader {S} (ob : pyobject S) (s : S) : reader :=
  fun t offset size =>
    match fst (object_read_at ob offset size (object_after ob t s)) with
    | Ok l => Some l
    | _ => None
    end.

(** ** pyolecf_stream.c
    Result of a method: a value, or an exception. *)
Inductive exception := IOError | ValueError | TypeError | OverflowError | IndexError | AttributeError
| StopIteration | RuntimeError.

Inductive pyresult :=
| Returns (v : pyvalue)
| Raises (e : exception)
| PyUndefined.

(** Lines 290-296: the size of the item is stored through a pointer to
    uint32_t into a size64_t that is 0. *)
Definition item_size_as_64bit (host : endian) (size : Z) : Z :=
  match host with
  | Little => size
  | Big => Z.shiftl size 32
  end.

(** Lines 338-415: reads [read_size] bytes. *)
Definition read_bytes (rd : reader) (v : volume) (d : dirent) (read_size cursor : Z)
  : pyresult * Z :=
  if read_size =? 0 then (Returns (PBytes []), cursor)
  else if INT_MAX <? read_size then (Raises ValueError, cursor)
  else
    match stream_read_buffer rd v d cursor read_size read_size [] with
    | (Ok (data, cursor'), _) => (Returns (PBytes data), cursor')
    | (Err, _) => (Raises IOError, cursor)
    | (_, _) => (PyUndefined, cursor)
    end.

(** pyolecf_stream_read_buffer, lines 197-417; [None] is a call without an
    argument. *)
Definition py_stream_read (host : endian) (rd : reader) (v : volume) (d : dirent)
           (size : option pyvalue) (cursor : Z) : pyresult * Z :=
  match size with
  | Some (PInt z) =>
      match integer_unsigned (PInt z) with
      | Ok n => read_bytes rd v d n cursor
      | _ => (Raises IOError, cursor)
      end
  | None | Some PNone => read_bytes rd v d (item_size_as_64bit host (de_size d)) cursor
  | Some _ => (Raises TypeError, cursor)
  end.

(** An argument that PyArg_ParseTupleAndKeywords converts with "L" or "i". *)
Definition parse_integer (v : pyvalue) (low high : Z) : exception + Z :=
  match v with
  | PInt z => if (low <=? z) && (z <=? high) then inr z else inl OverflowError
  | _ => inl TypeError
  end.

(** pyolecf_stream_read_buffer_at_offset, lines 422-612. *)
Definition py_stream_read_at (rd : reader) (v : volume) (d : dirent)
           (size offset : pyvalue) (cursor : Z) : pyresult * Z :=
  match parse_integer offset (- 9223372036854775808) 9223372036854775807 with
  | inl e => (Raises e, cursor)
  | inr offset =>
      match size with
      | PInt z =>
          match integer_unsigned (PInt z) with
          | Ok n =>
              if n =? 0 then (Returns (PBytes []), cursor)
              else if INT_MAX <? n then (Raises ValueError, cursor)
              else
                match stream_read_at rd v d cursor offset n n [] with
                | (Ok data, cursor', _) => (Returns (PBytes data), cursor')
                | (Err, cursor', _) => (Raises IOError, cursor')
                | (_, cursor', _) => (PyUndefined, cursor')
                end
          | _ => (Raises IOError, cursor)
          end
      | _ => (Raises TypeError, cursor)
      end
  end.

(** pyolecf_stream_seek_offset, lines 617-674; [None] is a call without
    whence. *)
Definition py_stream_seek (d : dirent) (offset : pyvalue) (whence : option pyvalue) (cursor : Z)
  : pyresult * Z :=
  match parse_integer offset (- 9223372036854775808) 9223372036854775807 with
  | inl e => (Raises e, cursor)
  | inr offset =>
      match (match whence with
             | None => inr 0
             | Some w => parse_integer w (- 2147483648) 2147483647
             end) with
      | inl e => (Raises e, cursor)
      | inr whence =>
          match stream_seek_offset d cursor offset whence with
          | Ok cursor' => (Returns PNone, cursor')
          | Err => (Raises IOError, cursor)
          | _ => (PyUndefined, cursor)
          end
      end
  end.

(** pyolecf_stream_get_offset, lines 679-726. *)
Definition py_stream_tell (d : dirent) (cursor : Z) : pyresult * Z :=
  match stream_get_offset d cursor with
  | Ok c => (Returns (signed_new c), cursor)
  | Err => (Raises IOError, cursor)
  | _ => (PyUndefined, cursor)
  end.

(** Histories of calls on one stream object, each with its own I/O layer. *)
Inductive stream_op :=
| PyRead (size : option pyvalue)
| PyReadAt (size offset : pyvalue)
| PySeek (offset : pyvalue) (whence : option pyvalue)
| PyTell.

Definition py_stream_step (host : endian) (rd : reader) (v : volume) (d : dirent) (op : stream_op)
           (cursor : Z) : pyresult * Z :=
  match op with
  | PyRead size => py_stream_read host rd v d size cursor
  | PyReadAt size offset => py_stream_read_at rd v d size offset cursor
  | PySeek offset whence => py_stream_seek d offset whence cursor
  | PyTell => py_stream_tell d cursor
  end.

Fixpoint py_stream_run (host : endian) (v : volume) (d : dirent) (h : list (reader * stream_op))
         (cursor : Z) : list pyresult * Z :=
  match h with
  | [] => ([], cursor)
  | (rd, op) :: h' =>
      let (r, c1) := py_stream_step host rd v d op cursor in
      let (rs, c2) := py_stream_run host v d h' c1 in
      (r :: rs, c2)
  end.
