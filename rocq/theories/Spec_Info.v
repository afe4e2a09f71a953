(** What the tool olecfinfo should print. *)
From Coq Require Import String ZArith List Bool.
From Verif Require Import Base Spec_IO M_Table M_Header M_Load M_Stream M_Tree M_Open M_Item M_Mount M_File
  M_Prop M_PyProp M_Info Spec_Stream Spec_Content Spec_Tree Spec_Prop Spec_PyProp.
Import ListNotations.
Open Scope Z_scope.

(** The output as a list of pieces; [None] is something that cannot be shown.
    The tool prints the pieces before the first of these, and succeeds if
    there is none. *)
Fixpoint printed (l : list (option (list Z))) : list Z * bool :=
  match l with
  | [] => ([], true)
  | None :: _ => ([], false)
  | Some x :: r => (x ++ fst (printed r), snd (printed r))
  end.

(** The contracts of the libraries outside.  [text]: the UTF-8 text of a string
    value, see [proplib_ok]; [empty]: what libfvalue gives for a string value
    without data, by its type; [names]: the UTF-8 text of the name of an item,
    if it has one; [date]: the text of a point in time. *)
Record infolib_ok (lib : infolib) (text : list Z -> fv_encoding -> option (list Z))
       (empty : fv_type -> option (list Z)) (names : list Z -> endian -> option (list Z))
       (date : Z -> option (list Z)) : Prop := {
  ik_prop : proplib_ok (il_prop lib) text;
  ik_text : forall l enc s, text l enc = Some s -> zlen s < SSIZE_MAX;
  ik_empty : forall k,
    let w := {| fv_kind := k; fv_data := None |} in
    match pl_utf8_size (il_prop lib) w with
    | Some n => n <= SSIZE_MAX /\
        match lib_utf8 (pl_values (il_prop lib)) w n with
        | Some s => exists s' rest, empty k = Some s' /\ s = s' ++ 0 :: rest
        | None => empty k = None
        end
    | None => empty k = None
    end;
  ik_guid : forall l, zlen l = 16 -> Forall is_byte l ->
    exists rest, pl_guid (il_prop lib) l = Some (guid_text l ++ 0 :: rest);
  ik_date : forall n,
    match date n with
    | Some s => exists rest, il_filetime lib n = Some (s ++ 0 :: rest)
    | None => il_filetime lib n = None
    end;
  ik_name : forall l e,
    match names l e with
    | Some s => zlen s < SSIZE_MAX /\ Forall is_byte s /\ il_name_size lib l e = Some (zlen s + 1) /\
        exists rest, il_name lib l e (zlen s + 1) = Some (s ++ 0 :: rest)
    | None => il_name_size lib l e = None \/
        exists n, il_name_size lib l e = Some n /\ il_name lib l e n = None
    end
}.

(** ** Numbers: [reads l z] when the text [l] is the number [z]. *)
Definition read_digits (l : list Z) : option Z :=
  fold_left (fun a c => match a with
                        | Some n => if (48 <=? c) && (c <=? 57) then Some (10 * n + (c - 48)) else None
                        | None => None
                        end) l (Some 0).
Definition reads (l : list Z) (z : Z) : Prop :=
  match l with
  | [] => False
  | 45 :: r => r <> [] /\ read_digits r = Some (- z)
  | _ => read_digits l = Some z
  end.

(** ** The listing of the items *)

(** The items at and below [k], which is at the depth [level], with their
    depths: each before the items below it, in the order of the tree. *)
Inductive listed (t : tree) : nat -> nat -> list (nat * nat) -> Prop :=
| listed_item level k n l :
    nth_error (tr_nodes t) k = Some n -> listed_all t (S level) (n_subs n) l ->
    listed t level k ((level, k) :: l)
with listed_all (t : tree) : nat -> list nat -> list (nat * nat) -> Prop :=
| listed_nil level : listed_all t level [] []
| listed_cons level k ks l ls :
    listed t level k l -> listed_all t level ks ls -> listed_all t level (k :: ks) (l ++ ls).

(** A character of a name: control characters, and what is not ASCII if char is
    signed, as \x##. *)
Definition shown_char (signed : bool) (c : Z) : list Z :=
  if (c <? 32) || (c =? 127) || (signed && (127 <? c))
  then [92; 120] ++ hex_byte c else [c].

Definition shown_name (signed : bool) (name : list Z) : list Z := concat (map (shown_char signed) name).

Definition item_line (signed : bool) (level : nat) (name : list Z) (size : Z) : list Z :=
  repeat 32 (2 * level) ++ shown_name signed name ++
  text_of " (" ++ integer size ++ text_of " bytes)" ++ [10].

Definition item_piece (signed : bool) (names : list Z -> endian -> option (list Z)) (e : endian) (t : tree)
           (x : nat * nat) : option (list Z) :=
  match nth_error (tr_nodes t) (snd x) with
  | Some n => option_map (fun name => item_line signed (fst x) name (de_size (n_entry n)))
                (names (de_name (n_entry n)) e)
  | None => None
  end.

(** Characters that do not change the layout of the text. *)
Definition printable (signed : bool) (c : Z) : Prop :=
  32 <= c <= 126 \/ signed = false /\ 128 <= c <= 255.

(** Name, size and sub items of an item. *)
Inductive picture := Picture (name : list Z) (size : Z) (below : list picture).

Inductive pictured (names : list Z -> endian -> option (list Z)) (e : endian) (t : tree)
  : nat -> picture -> Prop :=
| pictured_item k n name l :
    nth_error (tr_nodes t) k = Some n -> names (de_name (n_entry n)) e = Some name ->
    pictured_all names e t (n_subs n) l ->
    pictured names e t k (Picture name (de_size (n_entry n)) l)
with pictured_all (names : list Z -> endian -> option (list Z)) (e : endian) (t : tree)
  : list nat -> list picture -> Prop :=
| pictured_nil : pictured_all names e t [] []
| pictured_cons k ks x xs :
    pictured names e t k x -> pictured_all names e t ks xs -> pictured_all names e t (k :: ks) (x :: xs).

(** The listing of it. *)
Fixpoint picture_text (signed : bool) (level : nat) (x : picture) : list Z :=
  match x with
  | Picture name size below =>
      item_line signed level name size ++ concat (map (picture_text signed (S level)) below)
  end.

(** A name of which the listing tells all: it does not begin with a space and
    has no backslash.  Sizes are of 32 bits. *)
Definition clear_name (name : list Z) : Prop :=
  Forall (fun c => is_byte c /\ c <> 92) name /\ forall r, name <> 32 :: r.

Fixpoint clear (x : picture) : Prop :=
  match x with
  | Picture name size below =>
      clear_name name /\ 0 <= size < 4294967296 /\ fold_right and True (map clear below)
  end.

(** ** Property sets *)

(** The names of properties, by the set they belong to, the types of their
    values and the identifier. *)
Inductive known_set := SummarySet | DocumentSet.
Definition known_class (x : known_set) : list Z :=
  match x with
  | SummarySet =>      (* {f29f85e0-4ff9-1068-ab91-08002b27b3d9} *)
      [0xe0; 0x85; 0x9f; 0xf2; 0xf9; 0x4f; 0x68; 0x10; 0xab; 0x91; 0x08; 0x00; 0x2b; 0x27; 0xb3; 0xd9]
  | DocumentSet =>     (* {d5cdd502-2e9c-101b-9397-08002b2cf9ae} *)
      [0x02; 0xd5; 0xcd; 0xd5; 0x9c; 0x2e; 0x1b; 0x10; 0x93; 0x97; 0x08; 0x00; 0x2b; 0x2c; 0xf9; 0xae]
  end.

Definition known_properties : list (known_set * list Z * Z * string) :=
  [ (SummarySet, [0x2], 1, "PIDSI_CODEPAGE");
    (SummarySet, [0x1e; 0x1f], 2, "PIDSI_TITLE");
    (SummarySet, [0x1e; 0x1f], 3, "PIDSI_SUBJECT");
    (SummarySet, [0x1e; 0x1f], 4, "PIDSI_AUTHOR");
    (SummarySet, [0x1e; 0x1f], 5, "PIDSI_KEYWORDS");
    (SummarySet, [0x1e; 0x1f], 6, "PIDSI_COMMENTS");
    (SummarySet, [0x1e; 0x1f], 7, "PIDSI_TEMPLATE");
    (SummarySet, [0x1e; 0x1f], 8, "PIDSI_LASTAUTHOR");
    (SummarySet, [0x1e; 0x1f], 9, "PIDSI_REVNUMBER");
    (SummarySet, [0x40], 10, "PIDSI_EDITTIME");
    (SummarySet, [0x40], 11, "PIDSI_LASTPRINTED");
    (SummarySet, [0x40], 12, "PIDSI_CREATE_DTM");
    (SummarySet, [0x40], 13, "PIDSI_LASTSAVE_DTM");
    (SummarySet, [0x3], 14, "PIDSI_PAGECOUNT");
    (SummarySet, [0x3], 15, "PIDSI_WORDCOUNT");
    (SummarySet, [0x3], 16, "PIDSI_CHARCOUNT");
    (SummarySet, [0x47], 17, "PIDSI_THUMBNAIL");
    (SummarySet, [0x1e; 0x1f], 18, "PIDSI_APPNAME");
    (SummarySet, [0x3], 19, "PIDSI_SECURITY");
    (DocumentSet, [0x2], 1, "PIDDSI_CODEPAGE");
    (DocumentSet, [0x1e; 0x1f], 2, "PIDDSI_CATEGORY");
    (DocumentSet, [0x1e; 0x1f], 3, "PIDDSI_PRESFORMAT");
    (DocumentSet, [0x3], 4, "PIDDSI_BYTECOUNT");
    (DocumentSet, [0x3], 5, "PIDDSI_LINECOUNT");
    (DocumentSet, [0x3], 6, "PIDDSI_PARCOUNT");
    (DocumentSet, [0x3], 7, "PIDDSI_SLIDECOUNT");
    (DocumentSet, [0x3], 8, "PIDDSI_NOTECOUNT");
    (DocumentSet, [0x3], 9, "PIDDSI_HIDDENCOUNT");
    (DocumentSet, [0x3], 10, "PIDDSI_MMCLIPCOUNT");
    (DocumentSet, [0xb], 11, "PIDDSI_SCALE");
    (DocumentSet, [0x100c], 12, "PIDDSI_HEADINGPAIR");
    (DocumentSet, [0x101e; 0x101f], 13, "PIDDSI_DOCPARTS");
    (DocumentSet, [0x1e; 0x1f], 14, "PIDDSI_MANAGER");
    (DocumentSet, [0x1e; 0x1f], 15, "PIDDSI_COMPANY");
    (DocumentSet, [0xb], 16, "PIDDSI_LINKSDIRTY") ]%string.

Definition property_name (class : list Z) (t id : Z) : option string :=
  match find (fun x => match x with
                       | (set, types, i, _) =>
                           (if list_eq_dec Z.eq_dec class (known_class set) then true else false) &&
                           existsb (Z.eqb t) types && (id =? i)
                       end) known_properties with
  | Some (_, s) => Some s
  | None => None
  end.

Definition hex_number (z : Z) : list Z :=
  text_of "0x" ++ hex_byte (z / 16777216) ++ hex_byte (z / 65536 mod 256) ++
  hex_byte (z / 256 mod 256) ++ hex_byte (z mod 256).

Definition identifier_line (class : list Z) (p : property) : list Z :=
  [9] ++ text_of "Value identifier" ++ [9] ++ text_of ": " ++
  match property_name class (pv_type p) (pv_id p) with
  | Some s => text_of s ++ text_of " (" ++ hex_number (pv_id p) ++ text_of ")"
  | None => hex_number (pv_id p)
  end ++ [10].

Definition type_line (type_name : Z -> list Z) (p : property) : list Z :=
  [9] ++ text_of "Value type" ++ [9; 9] ++ text_of ": " ++ type_name (pv_type p) ++
  text_of " (" ++ hex_number (pv_type p) ++ text_of ")" ++ [10].

(** The part of a text that is printed: up to a character 0 in it. *)
Fixpoint before_nul (l : list Z) : list Z :=
  match l with
  | [] => []
  | c :: r => if Z.eq_dec c 0 then [] else c :: before_nul r
  end.

Definition string_text (text : list Z -> fv_encoding -> option (list Z)) (empty : fv_type -> option (list Z))
           (k : fv_type) (enc : fv_encoding) (l : list Z) : option (list Z) :=
  option_map before_nul (match l with [] => empty k | _ => text l enc end).

(** The text of the value of the type [t] that stores [l]; [None]: there is
    none.  Values of other types are not shown. *)
Definition shown_types : list Z := [0x2; 0x3; 0xb; 0x12; 0x13; 0x14; 0x15; 0x1e; 0x1f; 0x40].
Definition value_text (text : list Z -> fv_encoding -> option (list Z)) (empty : fv_type -> option (list Z))
           (date : Z -> option (list Z)) (cp : Z) (e : endian) (t : Z) (l : list Z) : option (list Z) :=
  if existsb (Z.eqb t) [0x2; 0x3; 0x14] then Some (integer (signed_in e l))
  else if existsb (Z.eqb t) [0x12; 0x13; 0x15] then Some (integer (number_in e l))
  else if t =? 0xb then Some (if number_in e l =? 0 then text_of "false" else text_of "true")
  else if t =? 0x1e then string_text text empty FvByteString (EncCodepage cp) l
  else if t =? 0x1f then string_text text empty FvUtf16String EncUtf16Little l
  else if t =? 0x40 then option_map (fun s => before_nul s ++ text_of " UTC") (date (number_in e l))
  else None.

Definition data_piece text empty date (cp : Z) (e : endian) (p : property) : option (list Z) :=
  if existsb (Z.eqb (pv_type p)) shown_types then
    match stored p with
    | Some l => option_map (fun s => [9] ++ text_of "Value data" ++ [9; 9] ++ text_of ": " ++ s ++ [10])
                  (value_text text empty date cp e (pv_type p) l)
    | None => None
    end
  else Some [].

Definition class_line (class : list Z) : list Z :=
  [9] ++ text_of "Class identifier" ++ [9] ++ text_of ": " ++ guid_text class ++ [10].

Definition number_line (label : string) (n : Z) : list Z :=
  [9] ++ text_of label ++ [9] ++ text_of ": " ++ integer n ++ [10].

Definition part_line (label : string) (n : nat) : list Z :=
  [9] ++ text_of label ++ text_of ": " ++ integer (Z.of_nat n) ++ [10].

(** The parts with their numbers, from 1. *)
Definition numbered {A} (l : list A) : list (nat * A) := combine (seq 1 (length l)) l.

Section Pieces.
Variable lib : infolib.
Variable text : list Z -> fv_encoding -> option (list Z).
Variable empty : fv_type -> option (list Z).
Variable names : list Z -> endian -> option (list Z).
Variable date : Z -> option (list Z).

Definition property_pieces (cp : Z) (e : endian) (class : list Z) (x : nat * property) :=
  [ Some (part_line "Property" (fst x));
    Some (identifier_line class (snd x) ++ type_line (il_type_name lib) (snd x));
    data_piece text empty date cp e (snd x);
    Some [10] ].

Definition section_pieces (cp : Z) (e : endian) (x : nat * section) :=
  [ Some (part_line "Section" (fst x));
    Some (class_line (sc_class (snd x)) ++ number_line "Number of properties" (zlen (sc_properties (snd x))) ++ [10]) ] ++
  concat (map (property_pieces cp e (sc_class (snd x))) (numbered (sc_properties (snd x)))).

Definition set_pieces (cp : Z) (x : property_set) :=
  [ Some (class_line (ps_class x) ++ number_line "Number of sections" (zlen (ps_sections x)) ++ [10]) ] ++
  concat (map (section_pieces cp (ps_order x)) (numbered (ps_sections x))).

(** The information of the property set in the sub item of the root called
    [name]: nothing if there is none.  [rd] reads the file. *)
Definition information (u : una) (rd : reader) (v : volume) (o : option tree) (cp : Z)
           (name heading : list Z) (l : list (option (list Z))) : Prop :=
  match o with
  | None => l = []
  | Some t =>
      match sub_node_by_utf8_name u (v_byte_order v) t 0 name with
      | Ok None => l = []
      | Ok (Some j) =>
          exists d, item_entry t j d /\
            ((exists c x tr tr', get_set (pl_values (il_prop lib)) rd v d cp 0 tr = (Ok (x, c), tr') /\
                l = Some heading :: set_pieces cp x) \/
             (exists tr tr', get_set (pl_values (il_prop lib)) rd v d cp 0 tr = (Err, tr') /\
                l = [Some heading; None]))
      | _ => l = [None]
      end
  end.

Definition file_pieces (h : file_header) : list (option (list Z)) :=
  [ Some (text_of "OLE Compound File information:" ++ [10; 9] ++
      text_of "Version" ++ [9; 9; 9] ++ text_of ": " ++
        integer (fh_major_format_version h) ++ [46] ++ integer (fh_minor_format_version h) ++ [10; 9] ++
      text_of "Sector size" ++ [9; 9] ++ text_of ": " ++ integer (fh_sector_size h) ++ [10; 9] ++
      text_of "Short sector size" ++ [9] ++ text_of ": " ++ integer (fh_short_sector_size h) ++ [10; 10]) ].

(** [L] are the items of the tree, each once. *)
Definition items_pieces (e : endian) (o : option tree) (L : list (nat * nat)) : list (option (list Z)) :=
  match o with
  | None => [Some (text_of "No storage and stream items" ++ [10; 10])]
  | Some t => Some (text_of "Storage and stream items:" ++ [10]) ::
              map (item_piece (il_signed lib) names e t) L ++ [Some [10]]
  end.

Definition lists_all (o : option tree) (L : list (nat * nat)) : Prop :=
  match o with
  | None => L = []
  | Some t => listed t 0 0 L
  end.

Definition allocation_pieces (allocation : bool) : list (option (list Z)) :=
  if allocation then [Some (text_of "Unallocated blocks:" ++ [10; 10])] else [].
End Pieces.

(** The streams that are shown, and the headings. *)
Definition summary_name : list Z := 5 :: text_of "SummaryInformation".
Definition summary_heading : list Z := text_of "Summary information:" ++ [10].
Definition document_name : list Z := 5 :: text_of "DocumentSummaryInformation".
Definition document_heading : list Z := text_of "Document summary information:" ++ [10].
