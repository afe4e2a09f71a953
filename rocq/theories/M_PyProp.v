(** Model of the objects of the Python bindings for property sets:
    pyolecf/pyolecf_property_set_stream.c, pyolecf_property_set.c,
    pyolecf_property_section.c, pyolecf_property_sections.c,
    pyolecf_property_value.c, pyolecf_property_values.c and pyolecf_guid.c.

    Simplified: the stream, its volume and the code page are the same in all
    calls of a program; running out of memory, the reference counts (see
    M_Refs.v) and Python 2 are not represented.  The methods are also the
    attributes of the same names. *)
From Coq Require Import ZArith List Bool.
From Verif Require Import Base M_Table M_Load M_Stream M_Prop M_Time M_Python.
From Verif Require M_Items.
Import ListNotations.
Open Scope Z_scope.

(** The libraries outside.  [pl_utf8_size] is
    libfvalue_value_get_utf8_string_size; [pl_guid] is what
    libfguid_identifier_copy_from_byte_stream, little-endian, and
    libfguid_identifier_copy_to_utf8_string, lower case, write for 16 bytes;
    [pl_decodes] is whether PyUnicode_DecodeUTF8 takes the bytes. *)
Record proplib := {
  pl_values : fvlib;
  pl_utf8_size : fvalue -> option Z;
  pl_guid : list Z -> option (list Z);
  pl_decodes : list Z -> bool
}.

(** pyolecf_property_set_t, pyolecf_property_section_t,
    pyolecf_property_value_t, and pyolecf_property_sections_t or
    pyolecf_property_values_t with the number of their parent object,
    current_index and number_of_items. *)
Inductive pobject :=
| PoSet (x : property_set)
| PoSection (x : section)
| PoValue (x : property)
| PoSequence (parent : nat) (current number : Z).

(** Answers.  [QDate c]: what PyDateTime_FromDateAndTime gives for these
    arguments, a date or, if it does not accept them, a ValueError. *)
Inductive preply :=
| QNone
| QObject (i : nat)
| QText (l : list Z)
| QNumber (z : Z)
| QBool (b : bool)
| QDate (c : date_call)
| QBytes (l : list Z)
| QRaise (e : exception)
| QUndef.

Definition s16 (x : Z) : Z := (x + 32768) mod 65536 - 32768.

Section Env.
Variable lib : proplib.
Variable v : volume.
Variable d : dirent.
Variable cp : Z.

Definition add_pobject (w : list pobject) (ob : pobject) : preply * list pobject :=
  (QObject (length w), w ++ [ob]).

(** pyolecf_property_set_stream_get_set, lines 163-229 of
    pyolecf_property_set_stream.c. *)
Definition py_get_set (w : list pobject) (rd : reader) (c : Z) (t : trace) : preply * list pobject :=
  match fst (get_set (pl_values lib) rd v d cp c t) with
  | Ok (x, _) => add_pobject w (PoSet x)
  | Err => (QRaise IOError, w)
  | _ => (QUndef, w)
  end.

(** pyolecf_string_new_from_guid, lines 33-129 of pyolecf_guid.c: 36
    characters of the buffer. *)
Definition guid_answer (l : list Z) : preply :=
  match pl_guid lib l with
  | Some s => if zlen s <? 36 then QUndef
              else if pl_decodes lib (slice s 0 36) then QText (slice s 0 36) else QRaise ValueError
  | None => QRaise IOError
  end.

(** pyolecf_property_set_get_section_by_index, lines 459-525 of
    pyolecf_property_set.c, and pyolecf_property_section_get_property_by_index,
    lines 459-525 of pyolecf_property_section.c. *)
Definition part_by_index (w : list pobject) (ob : pobject) (index : Z) : preply * list pobject :=
  match ob with
  | PoSet x =>
      match get_section x index with
      | Ok s => add_pobject w (PoSection s)
      | Err => (QRaise IOError, w)
      | _ => (QUndef, w)
      end
  | PoSection x =>
      match get_property x index with
      | Ok p => add_pobject w (PoValue p)
      | Err => (QRaise IOError, w)
      | _ => (QUndef, w)
      end
  | _ => (QUndef, w)
  end.

(** libolecf_property_set_get_number_of_sections, lines 634-670 of
    libolecf_property_set.c, and libolecf_property_section_get_number_of_properties,
    lines 823-859 of libolecf_property_section.c. *)
Definition number_of_parts (ob : pobject) : option Z :=
  match ob with
  | PoSet x => Some (zlen (ps_sections x))
  | PoSection x => Some (zlen (sc_properties x))
  | _ => None
  end.

(** Methods of sets and sections. *)
Inductive part_call :=
| CallClass                  (* get_class_identifier, 341-398 of both files *)
| CallNumber                 (* get_number_of_sections, _properties, 403-454 *)
| CallGet (v : pyvalue)      (* get_section, get_property, 530-553 *)
| CallParts.                 (* sections, properties, 558-617 *)

Definition part_step (w : list pobject) (i : nat) (ob : pobject) (call : part_call)
  : preply * list pobject :=
  match number_of_parts ob with
  | None => (QRaise AttributeError, w)
  | Some n =>
      match call with
      | CallClass =>
          (guid_answer (match ob with PoSet x => ps_class x | PoSection x => sc_class x | _ => [] end), w)
      | CallNumber => (QNumber n, w)
      | CallGet a =>
          match parse_integer a (- 2147483648) 2147483647 with
          | inl e => (QRaise e, w)
          | inr index => part_by_index w ob index
          end
      | CallParts => add_pobject w (PoSequence i 0 n)
      end
  end.

(** The sequences: pyolecf_property_sections.c and pyolecf_property_values.c,
    len 299-314, getitem 318-367, iter 371-389, iternext 393-451. *)
Definition parts_step (w : list pobject) (i parent : nat) (current number : Z)
           (call : M_Items.sequence_call) : preply * list pobject :=
  match nth_error w parent with
  | None => (QUndef, w)
  | Some ob =>
      match call with
      | M_Items.CallLength => (QNumber number, w)
      | M_Items.CallIndex a =>
          match a with
          | PInt z =>
              if (z <? - 9223372036854775808) || (9223372036854775807 <? z) then (QRaise IndexError, w)
              else
                let index := if z <? 0 then z + number else z in
                if number <? 0 then (QRaise ValueError, w)
                else if (index <? 0) || (number <=? index) then (QRaise ValueError, w)
                else part_by_index w ob (s32 index)
          | _ => (QRaise TypeError, w)
          end
      | M_Items.CallIter => (QObject i, w)
      | M_Items.CallNext =>
          if current <? 0 then (QRaise ValueError, w)
          else if number <? 0 then (QRaise ValueError, w)
          else if number <=? current then (QRaise StopIteration, w)
          else
            let (a, w') := part_by_index w ob current in
            match a with
            | QObject _ => (a, firstn i w' ++ [PoSequence parent (current + 1) number] ++ skipn (S i) w')
            | _ => (a, w')
            end
      end
  end.

(** Methods of values, pyolecf_property_value.c. *)
Inductive value_call :=
| CallIdentifier | CallValueType | CallData | CallBoolean | CallInteger | CallDatetime | CallString.

(** An integer that a function of the library gives, or IOError. *)
Definition integer_answer (r : res Z) (f : Z -> pyvalue) : preply :=
  match r with
  | Ok z => match f z with PInt n => QNumber n | _ => QUndef end
  | Err => QRaise IOError
  | _ => QUndef
  end.

Definition value_step (p : property) (call : value_call) : preply :=
  match call with
  | CallIdentifier => QNumber (pv_id p)                  (* 409-463 *)
  | CallValueType => QNumber (pv_type p)                 (* 468-522 *)
  | CallData =>                                          (* 527-646 *)
      match get_data_size (pl_values lib) p with
      | Ok size =>
          if size =? 0 then QNone
          else match get_data (pl_values lib) p size with
               | Ok l => if zlen l <? size then QUndef else QBytes (slice l 0 size)
               | Err => QRaise IOError
               | _ => QUndef
               end
      | Err => QRaise IOError
      | _ => QUndef
      end
  | CallBoolean =>                                       (* 651-704 *)
      match get_boolean (pl_values lib) p with
      | Ok b => QBool (negb (b =? 0))
      | Err => QRaise IOError
      | _ => QUndef
      end
  | CallInteger =>                                       (* 709-880 *)
      let t := pv_type p in
      if (t =? 0x2) || (t =? 0x12) then
        integer_answer (get_16bit (pl_values lib) p)
          (fun z => if t =? 0x2 then signed_new (s16 z) else unsigned_new z)
      else if (t =? 0x3) || (t =? 0x13) then
        integer_answer (get_32bit (pl_values lib) p)
          (fun z => if t =? 0x3 then signed_new (s32 z) else unsigned_new z)
      else if (t =? 0x14) || (t =? 0x15) then
        integer_answer (get_64bit (pl_values lib) p)
          (fun z => if t =? 0x14 then signed_new (s64 z) else unsigned_new (s64 z))
      else if t =? 0x40 then
        integer_answer (get_filetime (pl_values lib) p) (fun z => unsigned_new (s64 z))
      else QRaise IOError
  | CallDatetime =>                                      (* 885-967 *)
      if pv_type p =? 0x40 then
        match get_filetime (pl_values lib) p with
        | Ok z =>
            match new_from_filetime z with
            | Ok (Some c) => QDate c
            | Ok None => QRaise IOError
            | Err => QRaise IOError
            | _ => QUndef
            end
        | Err => QRaise IOError                          (* the date made before is lost *)
        | _ => QUndef
        end
      else QRaise IOError
  | CallString =>                                        (* 972-1088 *)
      (* libolecf_property_value_get_data_as_utf8_string_size, lines 1492-1542
         of libolecf_property_value.c *)
      match (if negb (pv_type p =? 0x1e) && negb (pv_type p =? 0x1f) then Err
             else on_value p (pl_utf8_size lib)) with
      | Ok size =>
          if size =? 0 then QNone
          else match get_utf8 (pl_values lib) p size with
               | Ok s =>
                   if zlen s <? size - 1 then QUndef
                   else if pl_decodes lib (slice s 0 (size - 1)) then QText (slice s 0 (size - 1))
                   else QRaise IOError
               | Err => QRaise IOError
               | _ => QUndef
               end
      | Err => QRaise IOError
      | _ => QUndef
      end
  end.

(** Calls of a program; an object is given by its number. *)
Inductive prop_call :=
| GetSet (rd : reader) (c : Z) (t : trace)
| OnPart (i : nat) (call : part_call)
| OnParts (i : nat) (call : M_Items.sequence_call)
| OnValue (i : nat) (call : value_call).

Definition prop_step (w : list pobject) (call : prop_call) : preply * list pobject :=
  match call with
  | GetSet rd c t => py_get_set w rd c t
  | OnPart i call =>
      match nth_error w i with
      | Some ob => part_step w i ob call
      | None => (QRaise AttributeError, w)
      end
  | OnParts i call =>
      match nth_error w i with
      | Some (PoSequence parent current number) => parts_step w i parent current number call
      | _ => (QRaise AttributeError, w)
      end
  | OnValue i call =>
      match nth_error w i with
      | Some (PoValue p) => (value_step p call, w)
      | _ => (QRaise AttributeError, w)
      end
  end.

Fixpoint prop_run (h : list prop_call) (w : list pobject) : list preply * list pobject :=
  match h with
  | [] => ([], w)
  | call :: h' =>
      let (a, w) := prop_step w call in
      let (l, w) := prop_run h' w in
      (a :: l, w)
  end.

End Env.
