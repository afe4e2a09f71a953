(** What the Python objects for property sets should answer. *)
From Coq Require Import ZArith List Bool.
From Verif Require Import Base Spec_IO M_Table M_Load M_Stream Spec_Stream Spec_Content
  M_Prop Spec_Prop M_Time Spec_Time M_Python M_PyProp.
From Verif Require M_Items.
Import ListNotations.
Open Scope Z_scope.

(** The text of a GUID: xxxxxxxx-xxxx-xxxx-xxxx-xxxxxxxxxxxx, where the first
    three numbers are little-endian. *)
Definition hex_digit (x : Z) : Z := if x <? 10 then 48 + x else 87 + x.
Definition hex_byte (b : Z) : list Z := [hex_digit (b / 16); hex_digit (b mod 16)].
Definition hex_bytes (l : list Z) (order : list nat) : list Z :=
  concat (map (fun i => hex_byte (nth i l 0)) order).
Definition guid_text (l : list Z) : list Z :=
  hex_bytes l [3; 2; 1; 0]%nat ++ [45] ++ hex_bytes l [5; 4]%nat ++ [45] ++
  hex_bytes l [7; 6]%nat ++ [45] ++ hex_bytes l [8; 9]%nat ++ [45] ++
  hex_bytes l [10; 11; 12; 13; 14; 15]%nat.

Definition data_of (w : fvalue) : list Z :=
  match fv_data w with Some (l, _) => l | None => [] end.

(** The contracts of libfvalue, libfguid and Python.  [text] is the UTF-8 text
    of a string in an encoding, if it has one. *)
Record proplib_ok (lib : proplib) (text : list Z -> fv_encoding -> option (list Z)) : Prop := {
  pk_decodes : lib_decodes (pl_values lib);
  pk_size : forall w, lib_size (pl_values lib) w = Some (zlen (data_of w));
  pk_copy : forall w, lib_copy (pl_values lib) w (zlen (data_of w)) = Some (data_of w);
  pk_text : forall k l enc, l <> [] ->
    let w := {| fv_kind := k; fv_data := Some (l, enc) |} in
    match text l enc with
    | Some s => pl_utf8_size lib w = Some (zlen s + 1) /\
        lib_utf8 (pl_values lib) w (zlen s + 1) = Some (s ++ [0])
    | None => pl_utf8_size lib w = None
    end;
  pk_empty : forall k,
    let w := {| fv_kind := k; fv_data := None |} in
    forall n s, pl_utf8_size lib w = Some n -> lib_utf8 (pl_values lib) w n = Some s ->
      n = 0 \/ 0 < n <= zlen s;
  pk_guid : forall l, zlen l = 16 -> Forall is_byte l ->
    exists rest, pl_guid lib l = Some (guid_text l ++ rest);
  pk_ascii : forall s, Forall (fun c => 0 < c < 128) s -> pl_decodes lib s = true
}.

(** The number in [l] as two's complement. *)
Definition signed_in (e : endian) (l : list Z) : Z :=
  let x := number_in e l in
  if x <? 2 ^ (8 * zlen l - 1) then x else x - 2 ^ (8 * zlen l).

(** Types that are integers for Python, with their sizes. *)
Definition signed_types : list (Z * Z) := [(0x2, 2); (0x3, 4); (0x14, 8)].
Definition unsigned_types : list (Z * Z) := [(0x12, 2); (0x13, 4); (0x15, 8); (0x40, 8)].

(** Answers about the value of the type [t] at [off] of the stream [s]. *)
Definition integer_of (s : list Z) (e : endian) (off t : Z) (r : preply) : Prop :=
  (exists n l, In (t, n) signed_types /\ field s (off + 4) n l /\ r = QNumber (signed_in e l)) \/
  (exists n l, In (t, n) unsigned_types /\ field s (off + 4) n l /\ r = QNumber (number_in e l)) \/
  (~ In t (map fst (signed_types ++ unsigned_types)) /\ r = QRaise IOError).

Definition boolean_of (s : list Z) (off t : Z) (r : preply) : Prop :=
  (exists b, t = 0xb /\ field s (off + 4) 1 [b] /\ r = QBool (negb (b =? 0))) \/
  (t <> 0xb /\ r = QRaise IOError).

(** The last day of 1699 is left out, see C38. *)
Definition datetime_of (s : list Z) (e : endian) (off t : Z) (r : preply) : Prop :=
  (exists l, t = 0x40 /\ field s (off + 4) 8 l /\
     exists c, r = QDate c /\
       (number_in e l / 864000000000 <> 36158 -> exact_call 10000000 (number_in e l) (1601, 1, 1) c)) \/
  (t <> 0x40 /\ r = QRaise IOError).

Definition data_answer (stored : option (list Z)) : preply :=
  match stored with
  | None => QRaise IOError
  | Some [] => QNone
  | Some l => QBytes l
  end.

(** Strings: of the codepage of the file, or UTF-16 little-endian. *)
Definition string_of (lib : proplib) (text : list Z -> fv_encoding -> option (list Z)) (cp t : Z)
           (stored : option (list Z)) (r : preply) : Prop :=
  (exists l enc, stored = Some l /\ (t = 0x1e /\ enc = EncCodepage cp \/ t = 0x1f /\ enc = EncUtf16Little) /\
     (l <> [] -> r = match text l enc with
                     | Some u => if pl_decodes lib u then QText u else QRaise IOError
                     | None => QRaise IOError
                     end)) \/
  (t <> 0x1e /\ t <> 0x1f /\ r = QRaise IOError).

(** A set that a call can give for the stream [s]. *)
Definition got (lib : proplib) (v : volume) (d : dirent) (cp : Z) (s : list Z) (x : property_set) : Prop :=
  exists rd c t c' t', is_stream rd v d s /\
    get_set (pl_values lib) rd v d cp c t = (Ok (x, c'), t').

(** What the objects of a program are. *)
Definition object_ok (lib : proplib) (v : volume) (d : dirent) (cp : Z) (s : list Z)
           (w : list pobject) (ob : pobject) : Prop :=
  match ob with
  | PoSet x => got lib v d cp s x
  | PoSection sec => exists x, got lib v d cp s x /\ In sec (ps_sections x)
  | PoValue p => exists x, got lib v d cp s x /\ in_set x p
  | PoSequence parent current number =>
      0 <= current <= number /\
      ((exists x, nth_error w parent = Some (PoSet x) /\ number = zlen (ps_sections x)) \/
       (exists sec, nth_error w parent = Some (PoSection sec) /\ number = zlen (sc_properties sec)))
  end.

Definition calls_ok (v : volume) (d : dirent) (s : list Z) (h : list prop_call) : Prop :=
  forall rd c t, In (GetSet rd c t) h -> is_stream rd v d s /\ io_bytes rd.

(** ** A walk over a property set, as a Python program does it:

      for section in set.sections:
        for value in section.properties:
          value.identifier, value.value_type, value.data *)
Section Walk.
Variable lib : proplib.
Variable v : volume.
Variable d : dirent.
Variable cp : Z.

(** [for ... in] the sequence [i]; the last answer is the one that ends it. *)
Fixpoint py_for {A} (fuel : nat) (i : nat) (body : nat -> list pobject -> A * list pobject)
         (w : list pobject) : list A * preply * list pobject :=
  match fuel with
  | O => ([], QUndef, w)
  | S fuel =>
      match prop_step lib v d cp w (OnParts i M_Items.CallNext) with
      | (QObject k, w) =>
          let (a, w) := body k w in
          let '(l, r, w) := py_for fuel i body w in
          (a :: l, r, w)
      | (r, w) => ([], r, w)
      end
  end.

Definition walk_value (k : nat) (w : list pobject) : (preply * preply * preply) * list pobject :=
  let (a, w) := prop_step lib v d cp w (OnValue k CallIdentifier) in
  let (b, w) := prop_step lib v d cp w (OnValue k CallValueType) in
  let (c, w) := prop_step lib v d cp w (OnValue k CallData) in
  ((a, b, c), w).

Definition walk_section (fuel k : nat) (w : list pobject)
  : (preply * (list (preply * preply * preply) * preply)) * list pobject :=
  let (a, w) := prop_step lib v d cp w (OnPart k CallClass) in
  match prop_step lib v d cp w (OnPart k CallParts) with
  | (QObject m, w) => let '(l, r, w) := py_for fuel m walk_value w in ((a, (l, r)), w)
  | (r, w) => ((a, ([], r)), w)
  end.

Definition walk_set (fuel : nat) (rd : reader) (c : Z) (t : trace) (w : list pobject)
  : preply * (list (preply * (list (preply * preply * preply) * preply)) * preply) :=
  match prop_step lib v d cp w (GetSet rd c t) with
  | (QObject k, w) =>
      let (a, w) := prop_step lib v d cp w (OnPart k CallClass) in
      match prop_step lib v d cp w (OnPart k CallParts) with
      | (QObject m, w) => let '(l, r, _) := py_for fuel m (walk_section fuel) w in (a, (l, r))
      | (r, _) => (a, ([], r))
      end
  | (r, _) => (r, ([], r))
  end.
End Walk.

(** What the walk should give for the set [x]. *)
Definition value_line (p : property) : preply * preply * preply :=
  (QNumber (pv_id p), QNumber (pv_type p), data_answer (stored p)).
Definition section_line (x : section) : preply * (list (preply * preply * preply) * preply) :=
  (QText (guid_text (sc_class x)), (map value_line (sc_properties x), QRaise StopIteration)).
Definition set_line (x : property_set) :=
  (QText (guid_text (ps_class x)), (map section_line (ps_sections x), QRaise StopIteration)).

(** The parts of a set or of a section, in order. *)
Definition parts_of (ob : pobject) : list pobject :=
  match ob with
  | PoSet x => map PoSection (ps_sections x)
  | PoSection x => map PoValue (sc_properties x)
  | _ => []
  end.

(** All objects of a program are right. *)
Definition program_ok (lib : proplib) (v : volume) (d : dirent) (cp : Z) (s : list Z)
           (w : list pobject) : Prop :=
  forall k ob, nth_error w k = Some ob -> object_ok lib v d cp s w ob.
