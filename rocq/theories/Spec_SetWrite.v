(** A writer of property set streams, after the documentation of the format
    ("Property set streams" of documentation/OLE Compound File format.asciidoc,
    and [MS-OLEPS] for the values), as a specification of what the library
    gives back.  There is no writer in the library. *)
From Coq Require Import ZArith List Bool.
From Verif Require Import Base Spec_IO M_Table M_Load M_Stream M_Tree M_Item Spec_Stream Spec_Load Spec_Write
  M_Prop Spec_Prop.
Import ListNotations.
Open Scope Z_scope.

(** Values.  Numbers are given by their bits; strings do not hold the
    end-of-string character, it is written after them. *)
Inductive pvalue :=
| VNumber (t x : Z)
| VBool (b : bool)
| VGuid (l : list Z)
| VString (l : list Z)             (* bytes, in the codepage of the file *)
| VWide (l : list Z)               (* UTF-16 *)
| VBlob (t : Z) (l : list Z).

(** Types of numbers and their documented number of bytes: 16, 32, 64 and 8-bit
    integers, floating point numbers, currency, dates, error codes and file
    times. *)
Definition number_types : list (Z * Z) :=
  [ (0x02, 2); (0x03, 4); (0x04, 4); (0x05, 8); (0x06, 8); (0x07, 8); (0x0a, 4);
    (0x10, 1); (0x11, 1); (0x12, 2); (0x13, 4); (0x14, 8); (0x15, 8); (0x16, 4);
    (0x17, 4); (0x40, 8) ].

Definition number_size (t : Z) : Z :=
  match find (fun x => fst x =? t) number_types with Some (_, n) => n | None => 0 end.

(** Types of values that are a number of bytes and that many bytes: BSTR, blob,
    names of streams and storages, blob object and clipboard data. *)
Definition blob_types : list Z := [0x08; 0x41; 0x42; 0x43; 0x44; 0x45; 0x46; 0x47].

Record pset := {
  st_format : Z;
  st_version : Z;
  st_class : list Z;
  st_sections : list (list Z * list (Z * pvalue))  (* class; identifiers and values *)
}.

Definition type_of (v : pvalue) : Z :=
  match v with
  | VNumber t _ => t
  | VBool _ => 0x0b
  | VGuid _ => 0x48
  | VString _ => 0x1e
  | VWide _ => 0x1f
  | VBlob t _ => t
  end.

Section Order.
Variable e : endian.

(** A value after its type.  A boolean is two bytes, all bits set for true. *)
Definition value_data (v : pvalue) : list Z :=
  match v with
  | VNumber t x => bytes_of e (Z.to_nat (number_size t)) x
  | VBool b => bytes_of e 2 (if b then 65535 else 0)
  | VGuid l => l
  | VString l => bytes_of e 4 (zlen l + 1) ++ l ++ [0]
  | VWide l => bytes_of e 4 (zlen l + 1) ++ flat_map (bytes_of Little 2) l ++ [0; 0]
  | VBlob _ l => bytes_of e 4 (zlen l) ++ l
  end.

(** Values are filled up to a multiple of four bytes. *)
Definition value_written (v : pvalue) : list Z :=
  fill 0 4 (bytes_of e 4 (type_of v) ++ value_data v).

(** The list of a section; [off] is the offset of the next value. *)
Fixpoint list_written (off : Z) (l : list (Z * pvalue)) : list Z :=
  match l with
  | [] => []
  | (id, v) :: r =>
      bytes_of e 4 id ++ bytes_of e 4 off ++ list_written (off + zlen (value_written v)) r
  end.

Definition values_written (l : list (Z * pvalue)) : list Z :=
  flat_map (fun x => value_written (snd x)) l.

Definition section_written (l : list (Z * pvalue)) : list Z :=
  bytes_of e 4 (8 + 8 * zlen l + zlen (values_written l)) ++ bytes_of e 4 (zlen l) ++
  list_written (8 + 8 * zlen l) l ++ values_written l.

(** The list of sections; [off] is the offset of the next section. *)
Fixpoint sections_written (off : Z) (l : list (list Z * list (Z * pvalue))) : list Z :=
  match l with
  | [] => []
  | (class, ps) :: r =>
      class ++ bytes_of e 4 off ++ sections_written (off + zlen (section_written ps)) r
  end.

Definition set_written (x : pset) : list Z :=
  bytes_of e 2 0xfffe ++ bytes_of e 2 (st_format x) ++ bytes_of e 4 (st_version x) ++ st_class x ++
  bytes_of e 4 (zlen (st_sections x)) ++
  sections_written (28 + 20 * zlen (st_sections x)) (st_sections x) ++
  flat_map (fun sec => section_written (snd sec)) (st_sections x).

(** What the library stores for a value: strings with their end, and of a
    boolean the first of its two bytes. *)
Definition content_of (v : pvalue) : list Z :=
  match v with
  | VNumber t x => bytes_of e (Z.to_nat (number_size t)) x
  | VBool b => [if b then 255 else 0]
  | VGuid l => l
  | VString l => l ++ [0]
  | VWide l => flat_map (bytes_of Little 2) l ++ [0; 0]
  | VBlob _ l => l
  end.

(** What the set says, in the form of [set_view]. *)
Definition said (x : pset) :=
  (e, st_format x, st_version x, st_class x, zlen (st_sections x),
   map (fun sec => (fst sec, map (fun p => (fst p, type_of (snd p), Some (content_of (snd p)))) (snd sec)))
       (st_sections x)).
End Order.

Definition guid_ok (l : list Z) : Prop := zlen l = 16 /\ Forall is_byte l.

(** What can be written and read: the fields hold the numbers, and no value is
    larger than 128 MiB. *)
Definition value_ok (v : pvalue) : Prop :=
  match v with
  | VNumber t x => In t (map fst number_types) /\ 0 <= x < 256 ^ number_size t
  | VBool _ => True
  | VGuid l => guid_ok l
  | VString l => Forall (fun b => 0 < b < 256) l /\ zlen l + 1 <= 134217728
  | VWide l => Forall (fun c => 0 < c < 65536) l /\ 2 * (zlen l + 1) <= 134217728
  | VBlob t l => In t blob_types /\ Forall is_byte l /\ zlen l <= 134217728
  end.

Record set_ok (x : pset) : Prop := {
  so_format : 0 <= st_format x < 2 ^ 16;
  so_version : is_u32 (st_version x);
  so_class : guid_ok (st_class x);
  so_count : zlen (st_sections x) < 2 ^ 16;
  so_sections : Forall (fun sec => guid_ok (fst sec) /\
                  Forall (fun p => is_u32 (fst p) /\ value_ok (snd p)) (snd sec)) (st_sections x);
  so_size : zlen (set_written Little x) < 2 ^ 32 - 1
}.

(** The value of the property [j] of the section [i]. *)
Definition value_in (x : pset) (i j : Z) : option (Z * pvalue) :=
  match znth (st_sections x) i with
  | Some sec => znth (snd sec) j
  | None => None
  end.

(** The contract of libfvalue on copies. *)
Definition lib_copies (lib : fvlib) : Prop :=
  forall w, let l := match fv_data w with Some (l, _) => l | None => [] end in
    lib_size lib w = Some (zlen l) /\ lib_copy lib w (zlen l) = Some l.

(** What the getters answer for a value, called on the property [p].  [cp] is
    the codepage. *)
Definition answers (lib : fvlib) (cp : Z) (v : pvalue) (p : property) : Prop :=
  match v with
  | VNumber t x =>
      (In t [0x02; 0x12] -> get_16bit lib p = Ok x) /\
      (In t [0x03; 0x13] -> get_32bit lib p = Ok x) /\
      (In t [0x14; 0x15] -> get_64bit lib p = Ok x) /\
      (t = 0x40 -> get_filetime lib p = Ok x)
  | VBool b => get_boolean lib p = Ok (if b then 255 else 0)
  | VGuid l | VBlob _ l =>
      get_data_size lib p = Ok (zlen l) /\ get_data lib p (zlen l) = Ok l
  | VString l =>
      let w := {| fv_kind := FvByteString; fv_data := Some (l ++ [0], EncCodepage cp) |} in
      forall n, get_utf8 lib p n = match lib_utf8 lib w n with Some r => Ok r | None => Err end /\
                get_utf16 lib p n = match lib_utf16 lib w n with Some r => Ok r | None => Err end
  | VWide l =>
      let w := {| fv_kind := FvUtf16String;
                  fv_data := Some (flat_map (bytes_of Little 2) l ++ [0; 0], EncUtf16Little) |} in
      forall n, get_utf8 lib p n = match lib_utf8 lib w n with Some r => Ok r | None => Err end /\
                get_utf16 lib p n = match lib_utf16 lib w n with Some r => Ok r | None => Err end
  end.

(** ** Streams of a document
    The item [i] of a forest: the bytes of a stream or the items of a storage. *)
Fixpoint item_nth (fo : forest) (i : nat) : option (list Z + forest) :=
  match fo, i with
  | Empty, _ => None
  | AddStream _ _ _ s _, O => Some (inl s)
  | AddStorage _ _ _ a _, O => Some (inr a)
  | AddStream _ _ _ _ r, S i => item_nth r i
  | AddStorage _ _ _ _ r, S i => item_nth r i
  end.

(** The stream that is reached by the positions of a path. *)
Fixpoint stream_at (fo : forest) (path : list nat) : option (list Z) :=
  match path with
  | [] => None
  | i :: path =>
      match item_nth fo i, path with
      | Some (inl s), [] => Some s
      | Some (inr a), _ => stream_at a path
      | _, _ => None
      end
  end.

(** The item reached by libolecf_item_get_sub_item. *)
Fixpoint follow (t : tree) (k : nat) (path : list nat) : res nat :=
  match path with
  | [] => Ok k
  | i :: path => do j <- get_sub_item t k (Z.of_nat i); follow t j path
  end.
