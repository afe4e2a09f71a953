(** Common ground of the model: outcomes of C code, fixed-width integers,
    byte buffers and byte orders.  No part of the library is modelled here,
    except the byte_stream macros of common/byte_stream.h. *)
From Coq Require Import ZArith List Bool.
Import ListNotations.
Open Scope Z_scope.

(** Outcome of a piece of C code.  [Err] is the return value -1, [Undef] is
    undefined behaviour (access outside an array, signed overflow), [NoFuel]
    is the artefact of a fuel-bounded loop and is proved unreachable. *)
Inductive res (A : Type) : Type :=
| Ok (a : A)
| Err
| Undef
| NoFuel.
Arguments Ok {A} a.
Arguments Err {A}.
Arguments Undef {A}.
Arguments NoFuel {A}.

Definition rbind {A B} (m : res A) (k : A -> res B) : res B :=
  match m with
  | Ok a => k a
  | Err => Err
  | Undef => Undef
  | NoFuel => NoFuel
  end.

Notation "'do' x <- m ; k" := (rbind m (fun x => k))
  (at level 200, x pattern, m at level 100, k at level 200, right associativity).

(** Defined outcomes: everything but undefined behaviour and lack of fuel. *)
Definition defined {A} (r : res A) : Prop :=
  match r with Ok _ | Err => True | Undef | NoFuel => False end.

(** * Integers *)
Definition TWO32 : Z := 4294967296.
Definition INT_MAX : Z := 2147483647.
Definition INT64_MAX : Z := 9223372036854775807.
Definition INT64_MIN : Z := -9223372036854775808.
Definition SSIZE_MAX : Z := 9223372036854775807.

(** Conversion to uint16_t and uint32_t. *)
Definition u16 (x : Z) : Z := x mod 65536.
Definition u32 (x : Z) : Z := x mod TWO32.
(** Conversion to uint64_t. *)
Definition u64 (x : Z) : Z := x mod 18446744073709551616.
(** Conversion to int (32-bit, two's complement as done by the supported
    compilers; the C standard leaves it implementation-defined). *)
Definition s32 (x : Z) : Z :=
  let y := x mod TWO32 in if y <=? INT_MAX then y else y - TWO32.
(** Conversion to int64_t. *)
Definition s64 (x : Z) : Z :=
  let y := x mod 18446744073709551616 in
  if y <=? INT64_MAX then y else y - 18446744073709551616.

(** Addition of signed 64-bit integers: overflow is undefined behaviour. *)
Definition add_s64 (x y : Z) : res Z :=
  let s := x + y in
  if (s <? INT64_MIN) || (INT64_MAX <? s) then Undef else Ok s.
Definition sub_s64 (x y : Z) : res Z :=
  let s := x - y in
  if (s <? INT64_MIN) || (INT64_MAX <? s) then Undef else Ok s.
Definition mul_s64 (x y : Z) : res Z :=
  let s := x * y in
  if (s <? INT64_MIN) || (INT64_MAX <? s) then Undef else Ok s.

(** * Lists indexed by Z *)
Definition zlen {A} (l : list A) : Z := Z.of_nat (length l).

Definition znth {A} (l : list A) (i : Z) : option A :=
  if i <? 0 then None else nth_error l (Z.to_nat i).

Definition slice {A} (l : list A) (off n : Z) : list A :=
  firstn (Z.to_nat n) (skipn (Z.to_nat off) l).

Fixpoint set_nth {A} (l : list A) (i : nat) (v : A) : list A :=
  match l, i with
  | [], _ => []
  | _ :: t, O => v :: t
  | h :: t, S j => h :: set_nth t j v
  end.

(** Array element read and write in C: outside the array is undefined. *)
Definition arr_get {A} (l : list A) (i : Z) : res A :=
  match znth l i with Some x => Ok x | None => Undef end.

Definition arr_set {A} (l : list A) (i : Z) (v : A) : res (list A) :=
  if (0 <=? i) && (i <? zlen l) then Ok (set_nth l (Z.to_nat i) v) else Undef.

Definition zeros (n : Z) : list Z := repeat 0 (Z.to_nat n).

(** * Bytes *)
Definition is_byte (b : Z) : Prop := 0 <= b < 256.

(** LIBOLECF_ENDIAN_BIG ('b') and LIBOLECF_ENDIAN_LITTLE ('l'),
    libolecf_definitions.h.in.  Any other value of the byte_order field is
    rejected before a value is decoded, so it is not represented. *)
Inductive endian := Little | Big.

(** byte_stream_copy_to_uint16/32/64_little/big_endian, common/byte_stream.h.
    The macros or together shifted bytes; on bytes this is the sum below. *)
Definition dec_u16 (e : endian) (b0 b1 : Z) : Z :=
  match e with
  | Little => b0 + 256 * b1
  | Big => b1 + 256 * b0
  end.

Definition dec_u32 (e : endian) (b0 b1 b2 b3 : Z) : Z :=
  match e with
  | Little => b0 + 256 * b1 + 65536 * b2 + 16777216 * b3
  | Big => b3 + 256 * b2 + 65536 * b1 + 16777216 * b0
  end.

(** Reads of multi-byte values at a position of a buffer. *)
Definition get_u16 (e : endian) (buf : list Z) (p : Z) : res Z :=
  do b0 <- arr_get buf p;
  do b1 <- arr_get buf (p + 1);
  Ok (dec_u16 e b0 b1).

Definition get_u32 (e : endian) (buf : list Z) (p : Z) : res Z :=
  do b0 <- arr_get buf p;
  do b1 <- arr_get buf (p + 1);
  do b2 <- arr_get buf (p + 2);
  do b3 <- arr_get buf (p + 3);
  Ok (dec_u32 e b0 b1 b2 b3).

Definition get_u64 (e : endian) (buf : list Z) (p : Z) : res Z :=
  do lo <- get_u32 e buf p;
  do hi <- get_u32 e buf (p + 4);
  Ok (match e with
      | Little => lo + TWO32 * hi
      | Big => hi + TWO32 * lo
      end).

(** * Input/output
    The I/O layer (libbfio, not in the repository).  [rd t off n] is the
    outcome of a request of [n] bytes at offset [off] when the requests [t]
    were made before it in the same call: [None] is an I/O error, [Some l]
    delivers the bytes [l] (fewer than requested at the end of the file).
    Letting the outcome depend on [t] allows any pattern of failures. *)
Definition trace := list (Z * Z).
Definition reader := trace -> Z -> Z -> option (list Z).

Definition io (A : Type) : Type := trace -> res A * trace.

Definition iret {A} (a : A) : io A := fun t => (Ok a, t).
Definition ierr {A} : io A := fun t => (Err, t).
Definition ilift {A} (r : res A) : io A := fun t => (r, t).
Definition ibind {A B} (m : io A) (k : A -> io B) : io B :=
  fun t => match m t with
           | (Ok a, t') => k a t'
           | (Err, t') => (Err, t')
           | (Undef, t') => (Undef, t')
           | (NoFuel, t') => (NoFuel, t')
           end.

Notation "'dio' x <- m ; k" := (ibind m (fun x => k))
  (at level 200, x pattern, m at level 100, k at level 200, right associativity).

(** libbfio_handle_read_buffer_at_offset as all callers use it: anything but
    the full count is a failure.  The bytes are in the buffer afterwards.
    The outcome is [None] on failure so that callers can react to it. *)
Definition read_at (rd : reader) (off n : Z) : io (option (list Z)) :=
  fun t =>
    let r := match rd t off n with
             | Some l => if zlen l =? n then Some l else None
             | None => None
             end in
    (Ok r, t ++ [(off, n)]).

(** The usual reaction: -1. *)
Definition read_exact (rd : reader) (off n : Z) : io (list Z) :=
  dio r <- read_at rd off n;
  match r with Some l => iret l | None => ierr end.
