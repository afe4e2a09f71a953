(** Model of the tool that shows information on a file: olecftools/olecfinfo.c
    and olecftools/info_handle.c, in a build with narrow system characters.

    Simplified: what is printed is a list of bytes, and printing does not fail.
    Running out of memory and the messages to stderr are in M_InfoTool.v; the
    version that is printed first and the options -h, -v and -V are not represented; nor are the
    recursion depth and the overflow of indentation_level, which is at most the
    number of items.  info_handle_compound_object_fprint (lines 866-920) is not
    called. *)
From Coq Require Import String Ascii ZArith List Bool.
From Verif Require Import Base M_Table M_Header M_Load M_Stream M_Tree M_Open M_Item M_Mount M_File M_Prop
  M_PyProp.
Import ListNotations.
Open Scope Z_scope.

(** The libraries outside.  [il_prop]: libfvalue and libfguid, see M_PyProp.v;
    [il_filetime]: what libfdatetime_filetime_copy_from_64bit and
    libfdatetime_filetime_copy_to_utf8_string leave in the buffer, with the
    format that is asked for;
    [il_type_name]: libfole_value_type_get_identifier;
    [il_name_size]: libuna_utf8_string_size_from_utf16_stream and [il_name]:
    libuna_utf8_string_copy_from_utf16_stream, with what they leave in the
    buffer; [il_signed]: whether char is signed. *)
Record infolib := {
  il_prop : proplib;
  il_filetime : Z -> option (list Z);
  il_type_name : Z -> list Z;
  il_name_size : list Z -> endian -> option Z;
  il_name : list Z -> endian -> Z -> option (list Z);
  il_signed : bool
}.

(** What was printed and the reads of the file. *)
Record pstate := { p_out : list Z; p_trace : trace }.

Definition pio (A : Type) := pstate -> res A * pstate.
Definition pret {A} (a : A) : pio A := fun w => (Ok a, w).
Definition plift {A} (r : res A) : pio A := fun w => (r, w).
Definition pbind {A B} (m : pio A) (k : A -> pio B) : pio B :=
  fun w => match m w with
           | (Ok a, w') => k a w'
           | (Err, w') => (Err, w')
           | (Undef, w') => (Undef, w')
           | (NoFuel, w') => (NoFuel, w')
           end.

Notation "'dp' x <- m ; k" := (pbind m (fun x => k))
  (at level 200, x pattern, m at level 100, k at level 200).

(** ** fprintf *)

Definition print (l : list Z) : pio unit :=
  fun w => (Ok tt, {| p_out := p_out w ++ l; p_trace := p_trace w |}).

(** The characters of a literal; tabs and line ends are written as numbers. *)
Definition str (s : string) : list Z := map (fun c => Z.of_N (N_of_ascii c)) (list_ascii_of_string s).
Definition TAB : Z := 9.
Definition NL : Z := 10.

(** %d, %i and %u. *)
Fixpoint digits (fuel : nat) (n : Z) : list Z :=
  match fuel with
  | O => []
  | S fuel => (if n <? 10 then [] else digits fuel (n / 10)) ++ [48 + n mod 10]
  end.
Definition integer (n : Z) : list Z := if n <? 0 then 45 :: digits 20 (- n) else digits 20 n.

(** %s of a buffer: it is read up to the character 0. *)
Definition print_string (l : list Z) : pio unit :=
  if existsb (Z.eqb 0) l then print (c_string l) else plift Undef.

Section Info.
Variable lib : infolib.
Variable u : una.
Variable rd : reader.

(** ** info_handle.c *)

(** info_handle_file_fprint, lines 382-471. *)
Definition file_fprint (s : fstate) : pio unit :=
  dp size <- plift (get_size32 (io_sector_size (fs_io s)));
  dp short <- plift (get_size32 (io_short_sector_size (fs_io s)));
  dp _ <- print (str "OLE Compound File information:" ++ [NL]);
  dp _ <- print ([TAB] ++ str "Version" ++ [TAB; TAB; TAB] ++ str ": " ++
                 integer (io_major (fs_io s)) ++ str "." ++ integer (io_minor (fs_io s)) ++ [NL]);
  dp _ <- print ([TAB] ++ str "Sector size" ++ [TAB; TAB] ++ str ": " ++ integer size ++ [NL]);
  dp _ <- print ([TAB] ++ str "Short sector size" ++ [TAB] ++ str ": " ++ integer short ++ [NL]);
  print [NL].

(** The condition of lines 674-675; [c] is the byte of a char. *)
Definition is_control (c : Z) : bool :=
  let x := if il_signed lib then (if c <? 128 then c else c - 256) else c in
  (x <? 0x20) || (x =? 0x7f).

(** Lines 668-689: the characters of the name before the end of string
    character; name_size is of type size_t. *)
Fixpoint name_loop (fuel : nat) (name : list Z) (index last : Z) : pio unit :=
  match fuel with
  | O => plift NoFuel
  | S fuel =>
      if index <? last then
        dp c <- plift (arr_get name index);
        dp _ <- (if is_control c then print (str "\x" ++ print_hex 2 c) else print [c]);
        name_loop fuel name (index + 1) last
      else pret tt
  end.

Definition indent (level : nat) : list Z := concat (repeat (str "  ") level).

(** Lines 712-770: the loop over the sub items; [one] prints an item. *)
Fixpoint sub_items_fprint (k : nat) (t : tree) (one : nat -> pio unit) (n : nat) (index : Z) : pio unit :=
  match n with
  | O => pret tt
  | S n =>
      dp j <- plift (get_sub_item t k index);
      dp _ <- one j;
      sub_items_fprint k t one n (index + 1)
  end.

(** info_handle_item_fprint, lines 551-782.  The fuel bounds the depth of the
    tree.  libolecf_item_get_size is at lines 543-589 of libolecf_item.c. *)
Fixpoint item_fprint (fuel : nat) (e : endian) (t : tree) (k level : nat) : pio unit :=
  match fuel with
  | O => plift NoFuel
  | S fuel =>
      dp d <- plift (node_value t k);
      dp size <- plift (match il_name_size lib (de_name d) e with Some n => Ok n | None => Err end);
      dp name <- plift (match il_name lib (de_name d) e size with Some l => Ok l | None => Err end);
      dp _ <- print (indent level);
      dp _ <- name_loop (length name + 1) name 0 (u64 (size - 1));
      dp _ <- print (str " (" ++ integer (de_size d) ++ str " bytes)" ++ [NL]);
      dp n <- plift (get_number_of_sub_items t k);
      sub_items_fprint k t (fun j => item_fprint fuel e t j (S level)) (Z.to_nat n) 0
  end.

(** info_handle_items_fprint, lines 476-546; root_item is set if there is a
    tree. *)
Definition items_fprint (e : endian) (o : option tree) : pio unit :=
  dp root <- plift (get_root_item o);
  dp _ <- (match root, o with
           | Some k, Some t =>
               dp _ <- print (str "Storage and stream items:" ++ [NL]);
               item_fprint (length (tr_nodes t)) e t k 0
           | _, _ => print (str "No storage and stream items" ++ [NL])
           end);
  print [NL].

(** info_handle_unallocated_blocks_fprint, lines 787-861.  The number of blocks
    is always 0: libolecf_file.c never sets unallocated_block_list. *)
Definition unallocated_fprint : pio unit :=
  dp _ <- print (str "Unallocated blocks:" ++ [NL]);
  print [NL].

(** Lines 44-48. *)
Definition class_summary : list Z :=
  [0xe0; 0x85; 0x9f; 0xf2; 0xf9; 0x4f; 0x68; 0x10; 0xab; 0x91; 0x08; 0x00; 0x2b; 0x27; 0xb3; 0xd9].
Definition class_document_summary : list Z :=
  [0x02; 0xd5; 0xcd; 0xd5; 0x9c; 0x2e; 0x1b; 0x10; 0x93; 0x97; 0x08; 0x00; 0x2b; 0x2c; 0xf9; 0xae].

(** The names of identifiers: lines 985-1096 for the document summary
    information and lines 1097-1224 for the summary information, by the type
    of the value.  The identifiers are those of
    include/libolecf/definitions.h.in, lines 79-97 and 105-120. *)
Definition document_names (t : Z) : list (Z * string) :=
  if t =? 0x2 then [(0x1, "PIDDSI_CODEPAGE")]%string
  else if t =? 0x3 then
    [ (0x4, "PIDDSI_BYTECOUNT"); (0x5, "PIDDSI_LINECOUNT"); (0x6, "PIDDSI_PARCOUNT");
      (0x7, "PIDDSI_SLIDECOUNT"); (0x8, "PIDDSI_NOTECOUNT"); (0x9, "PIDDSI_HIDDENCOUNT");
      (0xa, "PIDDSI_MMCLIPCOUNT") ]%string
  else if t =? 0xb then [(0xb, "PIDDSI_SCALE"); (0x10, "PIDDSI_LINKSDIRTY")]%string
  else if (t =? 0x1e) || (t =? 0x1f) then
    [ (0x2, "PIDDSI_CATEGORY"); (0x3, "PIDDSI_PRESFORMAT"); (0xe, "PIDDSI_MANAGER");
      (0xf, "PIDDSI_COMPANY") ]%string
  else if t =? 0x100c then [(0xc, "PIDDSI_HEADINGPAIR")]%string
  else if (t =? 0x101e) || (t =? 0x101f) then [(0xd, "PIDDSI_DOCPARTS")]%string
  else [].

Definition summary_names (t : Z) : list (Z * string) :=
  if t =? 0x2 then [(0x1, "PIDSI_CODEPAGE")]%string
  else if t =? 0x3 then
    [ (0xe, "PIDSI_PAGECOUNT"); (0xf, "PIDSI_WORDCOUNT"); (0x10, "PIDSI_CHARCOUNT");
      (0x13, "PIDSI_SECURITY") ]%string
  else if (t =? 0x1e) || (t =? 0x1f) then
    [ (0x2, "PIDSI_TITLE"); (0x3, "PIDSI_SUBJECT"); (0x4, "PIDSI_AUTHOR"); (0x5, "PIDSI_KEYWORDS");
      (0x6, "PIDSI_COMMENTS"); (0x7, "PIDSI_TEMPLATE"); (0x8, "PIDSI_LASTAUTHOR");
      (0x9, "PIDSI_REVNUMBER"); (0x12, "PIDSI_APPNAME") ]%string
  else if t =? 0x40 then
    [ (0xa, "PIDSI_EDITTIME"); (0xb, "PIDSI_LASTPRINTED"); (0xc, "PIDSI_CREATE_DTM");
      (0xd, "PIDSI_LASTSAVE_DTM") ]%string
  else if t =? 0x47 then [(0x11, "PIDSI_THUMBNAIL")]%string
  else [].

Fixpoint find_name (l : list (Z * string)) (id : Z) : option string :=
  match l with
  | [] => None
  | (i, s) :: l => if id =? i then Some s else find_name l id
  end.

Definition identifier_name (class : list Z) (t id : Z) : option string :=
  if list_eqb class class_document_summary then find_name (document_names t) id
  else if list_eqb class class_summary then find_name (summary_names t) id
  else None.

Definition value_data_prefix : list Z := [TAB] ++ str "Value data" ++ [TAB; TAB] ++ str ": ".

(** Lines 1262-1570: the line with the data. *)
Definition value_data_fprint (p : property) : pio unit :=
  let values := pl_values (il_prop lib) in
  let t := pv_type p in
  let number (r : res Z) (f : Z -> Z) : pio unit :=
    dp x <- plift r;
    print (value_data_prefix ++ integer (f x) ++ [NL]) in
  if t =? 0xb then
    dp x <- plift (get_boolean values p);
    print (value_data_prefix ++ (if negb (x =? 0) then str "true" else str "false") ++ [NL])
  else if (t =? 0x2) || (t =? 0x12) then
    number (get_16bit values p) (fun x => if t =? 0x2 then s16 x else x)
  else if (t =? 0x3) || (t =? 0x13) then
    number (get_32bit values p) (fun x => if t =? 0x3 then s32 x else x)
  else if (t =? 0x14) || (t =? 0x15) then
    number (get_64bit values p) (fun x => if t =? 0x14 then s64 x else x)
  else if (t =? 0x1e) || (t =? 0x1f) then
    dp size <- plift (on_value p (pl_utf8_size (il_prop lib)));
    if SSIZE_MAX <? size then plift Err
    else
      dp s <- plift (get_utf8 values p size);
      dp _ <- print value_data_prefix;
      dp _ <- print_string s;
      print [NL]
  else if t =? 0x40 then
    dp x <- plift (get_filetime values p);
    dp s <- plift (match il_filetime lib x with Some s => Ok s | None => Err end);
    dp _ <- print value_data_prefix;
    dp _ <- print_string s;
    print (str " UTC" ++ [NL])
  else pret tt.

(** info_handle_property_value_fprint, lines 925-1593. *)
Definition value_fprint (class : list Z) (p : property) : pio unit :=
  let name := identifier_name class (pv_type p) (pv_id p) in
  dp _ <- print ([TAB] ++ str "Value identifier" ++ [TAB] ++ str ": ");
  dp _ <- (match name with Some s => print (str s ++ str " (") | None => pret tt end);
  dp _ <- print (str "0x" ++ print_hex 8 (pv_id p));
  dp _ <- (match name with Some _ => print (str ")") | None => pret tt end);
  dp _ <- print [NL];
  dp _ <- print ([TAB] ++ str "Value type" ++ [TAB; TAB] ++ str ": " ++ il_type_name lib (pv_type p) ++
                 str " (0x" ++ print_hex 8 (pv_type p) ++ str ")" ++ [NL]);
  dp _ <- value_data_fprint p;
  print [NL].

(** Lines 1626-1682 and 1840-1896: the class identifier as text. *)
Definition class_fprint (class : list Z) : pio unit :=
  dp s <- plift (match pl_guid (il_prop lib) class with Some s => Ok s | None => Err end);
  dp _ <- print ([TAB] ++ str "Class identifier" ++ [TAB] ++ str ": ");
  dp _ <- print_string s;
  print [NL].

(** Lines 1725-1788 and 1939-1993: the loops over parts; [label] is printed
    with the number of the part. *)
Fixpoint parts_fprint {A} (label : list Z) (get : Z -> res A) (one : A -> pio unit) (n : nat) (index : Z)
  : pio unit :=
  match n with
  | O => pret tt
  | S n =>
      dp _ <- print ([TAB] ++ label ++ str ": " ++ integer (index + 1) ++ [NL]);
      dp x <- plift (get index);
      dp _ <- one x;
      parts_fprint label get one n (index + 1)
  end.

(** info_handle_property_section_fprint, lines 1598-1807. *)
Definition section_fprint (x : section) : pio unit :=
  dp _ <- class_fprint (sc_class x);
  let n := zlen (sc_properties x) in
  dp _ <- print ([TAB] ++ str "Number of properties" ++ [TAB] ++ str ": " ++ integer n ++ [NL]);
  dp _ <- print [NL];
  parts_fprint (str "Property") (get_property x) (value_fprint (sc_class x)) (Z.to_nat n) 0.

(** info_handle_property_set_fprint, lines 1812-2019. *)
Definition set_fprint (x : property_set) : pio unit :=
  dp _ <- class_fprint (ps_class x);
  let n := zlen (ps_sections x) in
  dp _ <- print ([TAB] ++ str "Number of sections" ++ [TAB] ++ str ": " ++ integer n ++ [NL]);
  dp _ <- print [NL];
  parts_fprint (str "Section") (get_section x) section_fprint (Z.to_nat n) 0.

(** info_handle_property_set_stream_fprint, lines 2024-2094.  The stream of
    the item that was made is at offset 0. *)
Definition set_stream_fprint (v : volume) (d : dirent) (cp : Z) : pio unit :=
  dp (x, _) <- (fun w =>
                  let (r, t) := get_set (pl_values (il_prop lib)) rd v d cp 0 (p_trace w) in
                  (r, {| p_out := p_out w; p_trace := t |}));
  set_fprint x.

(** info_handle_document_summary_information_fprint, lines 2099-2205, and
    info_handle_summary_information_fprint, lines 2210-2315. *)
Definition information_fprint (name heading : list Z) (v : option volume) (o : option tree) (cp : Z)
  : pio unit :=
  dp root <- plift (get_root_item o);
  match root, o, v with
  | Some k, Some t, Some v =>
      dp found <- plift (sub_node_by_utf8_name u (v_byte_order v) t k name);
      match found with
      | Some j =>
          dp d <- plift (node_value t j);
          dp _ <- print (heading ++ [NL]);
          set_stream_fprint v d cp
      | None => pret tt
      end
  | Some _, _, _ => plift Undef
  | None, _, _ => pret tt
  end.

Definition summary_fprint :=
  information_fprint (5 :: str "SummaryInformation") (str "Summary information:").
Definition document_summary_fprint :=
  information_fprint (5 :: str "DocumentSummaryInformation") (str "Document summary information:").

End Info.

(** main of olecfinfo.c, lines 117-371, after the options.  [allocation]: the
    option -a; [codepage]: what libclocale makes of the text after -c, which
    info_handle_set_ascii_codepage (lines 223-276) stores in the info handle
    and nothing uses.  Result: whether the status is EXIT_SUCCESS, and what was
    printed. *)
Definition olecfinfo (lib : infolib) (u : una) (ev : env) (w : world) (allocation : bool)
           (codepage : option Z) : res bool * list Z :=
  match file_open u ev w new_file 1 with
  | (Ok _, s, w') =>
      let rd := ev_reader ev in
      let show : pio unit :=
        dp _ <- file_fprint s;
        dp _ <- items_fprint lib (file_endian s) (file_tree s);
        dp _ <- (if allocation then unallocated_fprint else pret tt);
        dp _ <- summary_fprint lib u rd (file_volume s) (file_tree s) (io_codepage (fs_io s));
        document_summary_fprint lib u rd (file_volume s) (file_tree s) (io_codepage (fs_io s)) in
      match show {| p_out := []; p_trace := [] |} with
      | (Ok _, p) =>
          match file_close ev w' s with
          | (Ok _, _, _) => (Ok true, p_out p)
          | (Err, _, _) => (Ok false, p_out p)
          | _ => (Undef, p_out p)
          end
      | (Err, p) => (Ok false, p_out p)
      | (Undef, p) => (Undef, p_out p)
      | (NoFuel, p) => (NoFuel, p_out p)
      end
  | (Err, _, _) => (Ok false, [])
  | (Undef, _, _) => (Undef, [])
  | (NoFuel, _, _) => (NoFuel, [])
  end.
