(** Property sets as bytes, after the format description [MS-OLEPS] where the
    library follows it; the places where it does not are marked. *)
From Coq Require Import ZArith List Bool.
From Verif Require Import Base M_Prop.
Import ListNotations.
Open Scope Z_scope.

(** The number written as the bytes [l], in the order [e]. *)
Fixpoint number (l : list Z) : Z :=
  match l with
  | [] => 0
  | b :: r => b + 256 * number r
  end.

Definition number_in (e : endian) (l : list Z) : Z :=
  number (match e with Little => l | Big => rev l end).

(** The [n] bytes at [off] of [s] are [l]. *)
Definition field (s : list Z) (off n : Z) (l : list Z) : Prop :=
  0 <= off /\ 0 <= n /\ off + n <= zlen s /\ l = slice s off n.

Definition u16_at (s : list Z) (e : endian) (off x : Z) : Prop :=
  exists l, field s off 2 l /\ x = number_in e l.
Definition u32_at (s : list Z) (e : endian) (off x : Z) : Prop :=
  exists l, field s off 4 l /\ x = number_in e l.

(** Types with the number of bytes of their values, as the library has them:
    a boolean (0xb) is one byte, not two as documented. *)
Definition fixed_types : list (Z * Z) :=
  [ (0x02, 2); (0x03, 4); (0x04, 4); (0x05, 8); (0x06, 8); (0x07, 8); (0x0a, 4);
    (0x0b, 1); (0x0e, 16); (0x10, 1); (0x11, 1); (0x12, 2); (0x13, 4); (0x14, 8);
    (0x15, 8); (0x16, 4); (0x17, 4); (0x40, 8); (0x48, 16) ].

(** Types whose values begin with their size.  That the empty and the null
    value (0 and 1), among others, are in this list is the library's choice. *)
Definition sized_types : list Z :=
  [ 0x00; 0x01; 0x08; 0x09; 0x0c; 0x0d; 0x18; 0x19; 0x1a; 0x1b; 0x1c; 0x1d;
    0x41; 0x42; 0x43; 0x44; 0x45; 0x46; 0x47; 0x49; 0x100c ].

(** A string ends with its first end-of-string character: [l] is the part of
    [raw] up to and with it, [unit] bytes per character, or all of [raw]. *)
Definition cut_string (unit : nat) (raw l : list Z) : Prop :=
  exists chars rest,
    raw = concat chars ++ rest /\ l = concat chars /\
    Forall (fun c => length c = unit) chars /\
    (forall k c, nth_error chars k = Some c ->
       c = repeat 0 unit -> S k = length chars) /\
    (rest = [] \/ exists before, chars = before ++ [repeat 0 unit]).

(** The values of a multi-value string from [off] to [last]. *)
Inductive values_at (s : list Z) (e : endian) : Z -> nat -> Z -> Prop :=
| vs_nil off : values_at s e off O off
| vs_cons off k n l last :
    u32_at s e off n -> 0 < n <= 134217728 -> field s (off + 4) n l ->
    values_at s e (off + 4 + n) k last ->
    values_at s e off (S k) last.

(** The value at [off]: its type and the bytes it stores; [None] when it
    stores nothing because the type is not supported. *)
Inductive value_at (s : list Z) (e : endian) (off : Z) : Z -> option (list Z) -> Prop :=
| va_fixed t n l :
    u32_at s e off t -> In (t, n) fixed_types -> field s (off + 4) n l ->
    value_at s e off t (Some l)
| va_sized t n l :
    u32_at s e off t -> In t sized_types ->
    u32_at s e (off + 4) n -> n <= 134217728 -> field s (off + 8) n l ->
    value_at s e off t (Some l)
| va_ascii n raw l :
    u32_at s e off 0x1e ->
    u32_at s e (off + 4) n -> n <= 134217728 -> field s (off + 8) n raw ->
    cut_string 1 raw l ->
    value_at s e off 0x1e (Some l)
(** The number of bytes is twice the number of characters modulo 2^32. *)
| va_utf16 n m raw l :
    u32_at s e off 0x1f ->
    u32_at s e (off + 4) n -> m = 2 * n mod 4294967296 -> (m = 0 -> n = 0) ->
    m <= 134217728 -> field s (off + 8) m raw ->
    cut_string 2 raw l ->
    value_at s e off 0x1f (Some l)
| va_multi t n last :
    u32_at s e off t -> t = 0x101e \/ t = 0x101f ->
    u32_at s e (off + 4) n -> values_at s e (off + 8) (Z.to_nat n) last ->
    value_at s e off t None
| va_unknown t :
    u32_at s e off t ->
    ~ In t (map fst fixed_types) -> ~ In t sized_types ->
    t <> 0x1e -> t <> 0x1f -> t <> 0x101e -> t <> 0x101f ->
    value_at s e off t None.

(** The bytes that a property stores. *)
Definition stored (p : property) : option (list Z) :=
  match pv_value p with
  | None => None
  | Some w => Some (match fv_data w with None => [] | Some (l, _) => l end)
  end.

(** Entry [k] of the list of the section at [base] describes [p].  Its value
    is at the offset of the entry from the section, modulo 2^32. *)
Definition property_at (s : list Z) (e : endian) (base k : Z) (p : property) : Prop :=
  exists rel,
    u32_at s e (base + 8 + 8 * k) (pv_id p) /\
    u32_at s e (base + 12 + 8 * k) rel /\ 8 < rel /\
    value_at s e ((base + rel) mod 4294967296) (pv_type p) (stored p).

(** The section at [base] holds the properties [ps], as many and in the order
    as listed. *)
Definition section_at (s : list Z) (e : endian) (base : Z) (ps : list property) : Prop :=
  field s base 8 (slice s base 8) /\ u32_at s e (base + 4) (zlen ps) /\
  forall k p, znth ps k = Some p -> property_at s e base k p.

(** The header: byte order mark, format, version, class. *)
Definition header_at (s : list Z) (x : property_set) : Prop :=
  field s 0 28 (slice s 0 28) /\
  slice s 0 2 = match ps_order x with Little => [0xfe; 0xff] | Big => [0xff; 0xfe] end /\
  u16_at s (ps_order x) 2 (ps_format x) /\
  u32_at s (ps_order x) 4 (ps_version x) /\
  field s 8 16 (ps_class x).

(** The set holds the sections listed after the header, as many as the
    first two bytes of the count say. *)
Definition set_at (s : list Z) (x : property_set) : Prop :=
  header_at s x /\
  u16_at s (ps_order x) 24 (ps_count x) /\ zlen (ps_sections x) = ps_count x /\
  forall k sec, znth (ps_sections x) k = Some sec ->
    exists base,
      field s (28 + 20 * k) 16 (sc_class sec) /\
      u32_at s (ps_order x) (44 + 20 * k) base /\
      section_at s (ps_order x) base (sc_properties sec).

(** The contract of libfvalue that the theorems on accepted sets need: values
    of their size, and strings and binary data of any size, are accepted. *)
Definition sizes_ok (k : fv_type) (n : Z) : Prop :=
  match k with
  | FvBoolean | FvInteger8 => n = 1
  | FvInteger16 => n = 2
  | FvInteger32 | FvFloat32 => n = 4
  | FvInteger64 | FvFloat64 | FvFiletime => n = 8
  | FvGuid => n = 16
  | FvBinary | FvByteString | FvUtf16String => True
  end.

Definition lib_accepts (lib : fvlib) : Prop :=
  (forall k, lib_new lib k = true) /\
  (forall k l enc, sizes_ok k (zlen l) -> lib_set lib k l enc = true).

(** Integers: the bytes read as a number in the byte order they were set with. *)
Definition lib_decodes (lib : fvlib) : Prop :=
  forall k n l e,
    In (k, n) [(FvBoolean, 8); (FvInteger16, 16); (FvInteger32, 32);
               (FvInteger64, 64); (FvFiletime, 64)] ->
    8 * zlen l = n ->
    lib_bits lib n {| fv_kind := k; fv_data := Some (l, EncOrder e) |}
      = Some (number_in e l).

(** All that a property set says, without how it is stored. *)
Definition property_view (p : property) := (pv_id p, pv_type p, stored p).
Definition section_view (x : section) := (sc_class x, map property_view (sc_properties x)).
Definition set_view (x : property_set) :=
  (ps_order x, ps_format x, ps_version x, ps_class x, ps_count x,
   map section_view (ps_sections x)).

(** A property of the set [x]. *)
Definition in_set (x : property_set) (p : property) : Prop :=
  exists sec, In sec (ps_sections x) /\ In p (sc_properties sec).

(** The number of bytes stored in a set. *)
Definition sum (l : list Z) : Z := fold_right Z.add 0 l.
Definition stored_size (p : property) : Z :=
  match stored p with Some l => zlen l | None => 0 end.
Definition set_size (x : property_set) : Z :=
  sum (map (fun sec => sum (map stored_size (sc_properties sec))) (ps_sections x)).
