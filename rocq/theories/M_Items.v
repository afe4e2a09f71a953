(** Model of the file, item and sequence objects of the Python bindings:
    pyolecf/pyolecf_file.c, pyolecf/pyolecf_item.c and pyolecf/pyolecf_items.c,
    built as in M_Python.  pyolecf_property_sections.c and
    pyolecf_property_values.c have the code of pyolecf_items.c with other names.

    A program holds one file object (M_File.v) and objects that come from it,
    and calls methods.  An item object refers to a
    node of the tree of the file, see libolecf_item_initialize, lines 41-165 of
    libolecf_item.c, which stores pointers to the node and to its directory
    entry.  Closing the file frees both (libolecf_file.c lines 708-800), so
    objects made before are remembered with the number of times that the file
    was closed; a call that would follow a pointer to freed memory gives
    [PyUndef].

    Simplified: reference counts and the interpreter lock are left out, making
    Python objects does not fail, of an exception only the type is
    represented.  Arguments that have to be a file name, a file object with read
    and seek, or a string are such. *)
From Coq Require Import ZArith List Bool.
From Verif Require Import Base M_Header M_Table M_Load M_Stream M_Tree M_Open M_Item M_File M_Time M_Python.
Import ListNotations.
Open Scope Z_scope.

(** The libraries outside: libuna, and PyUnicode_DecodeUTF8, which either
    takes bytes or not.  [pe_text] is the UTF-8 string that
    libuna_utf8_string_copy_from_utf16_stream makes of a name, without the end
    of string character; the size of the string is that of its bytes and the
    end of string character.  [pe_codepage] is
    libclocale_codepage_copy_from_string. *)
Record pyenv := {
  pe_una : una;
  pe_text : list Z -> endian -> res (list Z);
  pe_decodes : list Z -> bool;
  pe_codepage : list Z -> option Z;
  pe_host : endian
}.

(** pyolecf_item_type_object, pyolecf_stream_type_object,
    pyolecf_property_set_stream_type_object. *)
Inductive pyclass := ClassItem | ClassStream | ClassPropertySetStream.

(** narrow_string_compare, strncmp: whether the first [n] characters are the
    same up to the end of string character. *)
Fixpoint narrow_equal (n : nat) (a b : list Z) : bool :=
  match n with
  | O => true
  | S n' =>
      match a, b with
      | x :: a', y :: b' => (x =? y) && ((x =? 0) || narrow_equal n' a' b')
      | _, _ => false
      end
  end.

(** "\005SummaryInformation" and "\005DocumentSummaryInformation". *)
Definition text_summary : list Z :=
  [5; 83; 117; 109; 109; 97; 114; 121; 73; 110; 102; 111; 114; 109; 97; 116; 105; 111; 110].
Definition text_document_summary : list Z :=
  [5; 68; 111; 99; 117; 109; 101; 110; 116; 83; 117; 109; 109; 97; 114; 121;
   73; 110; 102; 111; 114; 109; 97; 116; 105; 111; 110].

(** pyolecf_item_get_item_type_object, lines 885-1001 of pyolecf_item.c. *)
Definition item_type_object (en : pyenv) (e : endian) (d : dirent) : res pyclass :=
  if de_type d =? TYPE_STREAM then
    do s <- pe_text en (de_name d) e;
    let size := zlen s + 1 in
    if size =? 20 then
      if narrow_equal 19 (text_summary ++ [0]) (s ++ [0]) then Ok ClassPropertySetStream
      else Ok ClassStream
    else if size =? 28 then
      if narrow_equal 27 (text_document_summary ++ [0]) (s ++ [0]) then Ok ClassPropertySetStream
      else Ok ClassStream
    else Ok ClassStream
  else Ok ClassItem.

(** pyolecf_file_get_item_type_object, lines 1376-1419 of pyolecf_file.c. *)
Definition file_type_object (d : dirent) : pyclass :=
  if de_type d =? TYPE_STREAM then ClassStream else ClassItem.

(** Objects of the program besides the file.  The numbers are: of closed files
    when the object was made, of the node, the stream offset, and for a
    sequence current_index and number_of_items. *)
Inductive object :=
| OItem (generation : nat) (class : pyclass) (node : nat) (cursor : Z)
| OSequence (generation : nat) (node : nat) (current number : Z).

(** pw_handle: pyolecf_file->file_io_handle is not NULL.  The handles for file
    objects are numbered in the order of their making. *)
Record pyworld := {
  pw_state : fstate;
  pw_world : world;
  pw_handle : bool;
  pw_next : nat;
  pw_closed : nat;
  pw_objects : list object
}.

(** The value of a call: a new object is given by its number. *)
Inductive reply :=
| ANone
| AObject (i : nat)
| AText (l : list Z)
| ANumber (z : Z)
| ADate (c : date_call)
| ABytes (l : list Z)
| AClass (c : pyclass)
| ARaise (e : exception)
| PyUndef.

Definition set_file (w : pyworld) (s : fstate) (wo : world) : pyworld :=
  {| pw_state := s; pw_world := wo; pw_handle := pw_handle w; pw_next := pw_next w;
     pw_closed := pw_closed w; pw_objects := pw_objects w |}.

Definition set_objects (w : pyworld) (l : list object) : pyworld :=
  {| pw_state := pw_state w; pw_world := pw_world w; pw_handle := pw_handle w; pw_next := pw_next w;
     pw_closed := pw_closed w; pw_objects := l |}.

(** The tree and what the reads of streams use, for an object that is not
    older than the last close. *)
Definition live_tree (w : pyworld) (generation : nat) : option (volume * tree) :=
  if Nat.eqb generation (pw_closed w) then
    match file_tree (pw_state w), file_volume (pw_state w) with
    | Some t, Some v => Some (v, t)
    | _, _ => None
    end
  else None.

Definition add_object (w : pyworld) (ob : object) : reply * pyworld :=
  (AObject (length (pw_objects w)), set_objects w (pw_objects w ++ [ob])).

Fixpoint replace_nth (i : nat) (x : object) (l : list object) : list object :=
  match l, i with
  | [], _ => []
  | _ :: l', O => x :: l'
  | y :: l', S i' => y :: replace_nth i' x l'
  end.

Definition set_object (w : pyworld) (i : nat) (ob : object) : pyworld :=
  set_objects w (replace_nth i ob (pw_objects w)).

(** pyolecf_item_get_sub_item_by_index lines 1032-1078,
    pyolecf_item_get_sub_item_by_name lines 1236-1282 and
    pyolecf_item_get_sub_item_by_path lines 1345-1391: the object for a node. *)
Definition new_sub_item (en : pyenv) (w : pyworld) (v : volume) (t : tree) (k : nat) : reply * pyworld :=
  match node_value t k with
  | Ok d =>
      match item_type_object en (v_byte_order v) d with
      | Ok c => add_object w (OItem (pw_closed w) c k 0)
      | Err => (ARaise IOError, w)
      | _ => (PyUndef, w)
      end
  | _ => (PyUndef, w)
  end.

(** pyolecf_item_get_sub_item_by_index, lines 1006-1086. *)
Definition sub_item_by_index (en : pyenv) (w : pyworld) (generation k : nat) (index : Z)
  : reply * pyworld :=
  match live_tree w generation with
  | None => (PyUndef, w)
  | Some (v, t) =>
      match get_sub_item t k index with
      | Ok j => new_sub_item en w v t j
      | Err => (ARaise IOError, w)
      | _ => (PyUndef, w)
      end
  end.

(** A lookup that gives a node, none or an error. *)
Definition found_item (en : pyenv) (w : pyworld) (v : volume) (t : tree) (r : res (option nat))
  : reply * pyworld :=
  match r with
  | Ok (Some j) => new_sub_item en w v t j
  | Ok None => (ANone, w)
  | Err => (ARaise IOError, w)
  | _ => (PyUndef, w)
  end.

(** PyArg_ParseTupleAndKeywords with "s": a string without a 0 in it, given by
    its bytes in UTF-8. *)
Definition parse_string (s : list Z) : exception + list Z :=
  if existsb (Z.eqb 0) s then inl ValueError else inr s.

(** Methods of items.  The ones of streams are in M_Python.  [CallType] is
    type() of Python, which gives the class of the object. *)
Inductive item_call :=
| CallName
| CallSize
| CallCreationTime
| CallCreationInteger
| CallModificationTime
| CallModificationInteger
| CallNumberOfSubItems
| CallSubItem (index : pyvalue)
| CallSubItems
| CallByName (name : list Z)
| CallByPath (path : list Z)
| CallStream (op : stream_op)
| CallType.

(** pyolecf_datetime_new_from_filetime: the call of PyDateTime_FromDateAndTime,
    or an exception before. *)
Definition date_answer (filetime : Z) : reply :=
  match new_from_filetime filetime with
  | Ok (Some c) => ADate c
  | Ok None => ARaise IOError
  | Err => ARaise IOError
  | _ => PyUndef
  end.

Definition value_answer (v : pyvalue) : reply :=
  match v with
  | PInt z => ANumber z
  | PBytes l => ABytes l
  | PNone => ANone
  | POther => PyUndef
  end.

(** The methods on the object [i] that is the item [k]. *)
Definition item_step_py (en : pyenv) (rd : reader) (w : pyworld) (i generation : nat) (c : pyclass)
           (k : nat) (cursor : Z) (call : item_call) : reply * pyworld :=
  match call with
  | CallSubItem v =>                                     (* 1091-1114 *)
      match parse_integer v (- 2147483648) 2147483647 with
      | inl e => (ARaise e, w)
      | inr index => sub_item_by_index en w generation k index
      end
  | CallType => (AClass c, w)
  | _ =>
      match live_tree w generation with
      | None =>
          match call with
          | CallStream op =>
              match c with ClassItem => (ARaise AttributeError, w) | _ => (PyUndef, w) end
          | CallByName s | CallByPath s =>
              match parse_string s with inl e => (ARaise e, w) | inr _ => (PyUndef, w) end
          | _ => (PyUndef, w)
          end
      | Some (v, t) =>
          match node_value t k with
          | Ok d =>
              match call with
              | CallName =>                              (* 413-529 *)
                  match pe_text en (de_name d) (v_byte_order v) with
                  | Ok s => if pe_decodes en s then (AText s, w) else (ARaise IOError, w)
                  | Err => (ARaise IOError, w)
                  | _ => (PyUndef, w)
                  end
              | CallSize => (ANumber (de_size d), w)     (* 534-588 *)
              | CallCreationTime => (date_answer (de_ctime d), w)                      (* 593-647 *)
              | CallCreationInteger => (value_answer (unsigned_new (de_ctime d)), w)   (* 652-706 *)
              | CallModificationTime => (date_answer (de_mtime d), w)                  (* 711-765 *)
              | CallModificationInteger => (value_answer (unsigned_new (de_mtime d)), w) (* 770-824 *)
              | CallNumberOfSubItems =>                  (* 829-880 *)
                  match get_number_of_sub_items t k with
                  | Ok n => (ANumber n, w)
                  | _ => (PyUndef, w)
                  end
              | CallSubItem _ | CallType => (PyUndef, w)
              | CallSubItems =>                          (* 1119-1178 *)
                  match get_number_of_sub_items t k with
                  | Ok n => add_object w (OSequence generation k 0 n)
                  | _ => (PyUndef, w)
                  end
              | CallByName s =>                          (* 1183-1286 *)
                  match parse_string s with
                  | inl e => (ARaise e, w)
                  | inr s => found_item en w v t (sub_node_by_utf8_name (pe_una en) (v_byte_order v) t k s)
                  end
              | CallByPath s =>                          (* 1291-1394 *)
                  match parse_string s with
                  | inl e => (ARaise e, w)
                  | inr s => found_item en w v t (sub_item_by_utf8_path (pe_una en) (v_byte_order v) t k s)
                  end
              | CallStream op =>
                  match c with
                  | ClassItem => (ARaise AttributeError, w)
                  | _ =>
                      let (r, cursor') := py_stream_step (pe_host en) rd v d op cursor in
                      (match r with
                       | Returns v => value_answer v
                       | Raises e => ARaise e
                       | PyUndefined => PyUndef
                       end, set_object w i (OItem generation c k cursor'))
                  end
              end
          | _ => (PyUndef, w)
          end
      end
  end.

(** Operations on sequences: len(), the index operator, iter() and next().
    CPython converts an index to a Py_ssize_t and adds the length to a negative
    one before it calls pyolecf_items_getitem (abstract.c of CPython). *)
Inductive sequence_call :=
| CallLength
| CallIndex (v : pyvalue)
| CallIter
| CallNext.

Definition sequence_step (en : pyenv) (w : pyworld) (i generation k : nat) (current number : Z)
           (call : sequence_call) : reply * pyworld :=
  match call with
  | CallLength => (ANumber number, w)                    (* pyolecf_items_len, 299-314 *)
  | CallIndex v =>
      match v with
      | PInt z =>
          if (z <? - 9223372036854775808) || (9223372036854775807 <? z) then (ARaise IndexError, w)
          else
            let index := if z <? 0 then z + number else z in
            (* pyolecf_items_getitem, lines 318-367 *)
            if number <? 0 then (ARaise ValueError, w)
            else if (index <? 0) || (number <=? index) then (ARaise ValueError, w)
            else sub_item_by_index en w generation k (s32 index)
      | _ => (ARaise TypeError, w)
      end
  | CallIter => (AObject i, w)                           (* pyolecf_items_iter, 371-389: itself *)
  | CallNext =>                                          (* pyolecf_items_iternext, 393-451 *)
      if current <? 0 then (ARaise ValueError, w)
      else if number <? 0 then (ARaise ValueError, w)
      else if number <=? current then (ARaise StopIteration, w)
      else
        let (a, w') := sub_item_by_index en w generation k current in
        match a with
        | AObject _ => (a, set_object w' i (OSequence generation k (current + 1) number))
        | _ => (a, w')
        end
  end.

(** Calls of a program.  The mode is an optional argument. *)
Inductive pycall :=
| CallOpen (mode : option (list Z))
| CallOpenObject (mode : option (list Z))
| CallClose
| CallSectorSize
| CallShortSectorSize
| CallGetCodepage
| CallSetCodepage (name : list Z)
| CallFormatVersion
| CallSignalAbort
| CallRootItem
| CallItemByPath (path : list Z)
| OnItem (i : nat) (call : item_call)
| OnSequence (i : nat) (call : sequence_call).

(** Lines 476-486 and 682-692: the first character of the mode is 'r'. *)
Definition mode_accepted (mode : option (list Z)) : bool :=
  match mode with
  | None => true
  | Some [] => false
  | Some (c :: _) => c =? 114
  end.

(** pyolecf_file_get_root_item lines 1455-1498 and
    pyolecf_file_get_item_by_path lines 1567-1606: the object for a node. *)
Definition new_file_item (w : pyworld) (r : res (option nat)) : reply * pyworld :=
  match r with
  | Ok (Some k) =>
      match file_tree (pw_state w) with
      | Some t =>
          match node_value t k with
          | Ok d => add_object w (OItem (pw_closed w) (file_type_object d) k 0)
          | _ => (PyUndef, w)
          end
      | None => (PyUndef, w)
      end
  | Ok None => (ANone, w)
  | Err => (ARaise IOError, w)
  | _ => (PyUndef, w)
  end.

(** pyolecf_codepage_to_string, lines 31-137 of pyolecf_codepage.c; the numbers
    are those of include/libolecf/codepage.h lines 35-69. *)
Definition text_iso_8859 : list Z := [105; 115; 111; 45; 56; 56; 53; 57; 45].
Definition codepage_to_string (codepage : Z) : option (list Z) :=
  if codepage =? 20127 then Some [97; 115; 99; 105; 105]
  else if (28591 <=? codepage) && (codepage <=? 28599) then Some (text_iso_8859 ++ [codepage - 28591 + 49])
  else if (28600 <=? codepage) && (codepage <=? 28606) && negb (codepage =? 28602)
       then Some (text_iso_8859 ++ [49; codepage - 28600 + 48])
  else if codepage =? 20866 then Some [107; 111; 105; 56; 95; 114]
  else if codepage =? 21866 then Some [107; 111; 105; 56; 95; 117]
  else if codepage =? 874 then Some [99; 112; 56; 55; 52]
  else if codepage =? 932 then Some [99; 112; 57; 51; 50]
  else if codepage =? 936 then Some [99; 112; 57; 51; 54]
  else if codepage =? 949 then Some [99; 112; 57; 52; 57]
  else if codepage =? 950 then Some [99; 112; 57; 53; 48]
  else if (1250 <=? codepage) && (codepage <=? 1258) then Some [99; 112; 49; 50; 53; codepage - 1250 + 48]
  else None.

(** pyolecf_file_get_format_version, lines 1282-1371. *)
Definition format_version (major minor : Z) : reply :=
  if 9 <? major then ARaise ValueError
  else if 9 <? minor then ARaise ValueError
  else AText [48 + major; 46; 48 + minor].

(** The result of a function of the library that gives 1 or -1. *)
Definition done_answer (r : res unit) : reply :=
  match r with Ok _ => ANone | Err => ARaise IOError | _ => PyUndef end.

Definition py_step (en : pyenv) (ev : env) (w : pyworld) (call : pycall) : reply * pyworld :=
  let s := pw_state w in
  match call with
  | CallOpen mode =>                                     (* 437-649 *)
      if mode_accepted mode then
        match file_open (pe_una en) ev (pw_world w) s 1 with
        | (r, s', wo') => (done_answer r, set_file w s' wo')
        end
      else (ARaise ValueError, w)
  | CallOpenObject mode =>                               (* 654-788 *)
      if mode_accepted mode then
        if pw_handle w then (ARaise IOError, w)
        else
          let n := pw_next w in
          (* pyolecf_file_object_io_handle_is_open lines 1228-1259: a file
             object is always open *)
          match file_open_handle (pe_una en) ev (set_open (pw_world w) n true) s (User n) 1 with
          | (r, s', wo') =>
              (done_answer r,
               {| pw_state := s'; pw_world := wo';
                  pw_handle := match r with Ok _ => true | _ => false end;
                  pw_next := S n; pw_closed := pw_closed w; pw_objects := pw_objects w |})
          end
      else (ARaise ValueError, w)
  | CallClose =>                                         (* 793-861 *)
      match file_close ev (pw_world w) s with
      | (r, s', wo') =>
          (done_answer r,
           {| pw_state := s'; pw_world := wo';
              pw_handle := match r with Ok _ => false | _ => pw_handle w end;
              pw_next := pw_next w;
              pw_closed := match fs_handle s with Some _ => S (pw_closed w) | None => pw_closed w end;
              pw_objects := pw_objects w |})
      end
  | CallSectorSize =>                                    (* 866-913 *)
      (match get_size32 (io_sector_size (fs_io s)) with
       | Ok n => ANumber n | Err => ARaise IOError | _ => PyUndef end, w)
  | CallShortSectorSize =>                               (* 918-965 *)
      (match get_size32 (io_short_sector_size (fs_io s)) with
       | Ok n => ANumber n | Err => ARaise IOError | _ => PyUndef end, w)
  | CallGetCodepage =>                                   (* 970-1041 *)
      (match codepage_to_string (io_codepage (fs_io s)) with
       | Some l => ABytes l
       | None => ARaise ValueError
       end, w)
  | CallSetCodepage name =>                              (* 1046-1159 *)
      match parse_string name with
      | inl e => (ARaise e, w)
      | inr name =>
          match pe_codepage en name with
          | None => (ARaise RuntimeError, w)
          | Some c =>
              let (r, s') := file_set_codepage s c in (done_answer r, set_file w s' (pw_world w))
          end
      end
  | CallFormatVersion => (format_version (io_major (fs_io s)) (io_minor (fs_io s)), w)
  | CallSignalAbort =>                                   (* 388-431 *)
      (ANone, set_file w (file_signal_abort s) (pw_world w))
  | CallRootItem => new_file_item w (get_root_item (file_tree s))      (* 1424-1511 *)
  | CallItemByPath path =>                               (* 1516-1619 *)
      match parse_string path with
      | inl e => (ARaise e, w)
      | inr path => new_file_item w (item_by_utf8_path (pe_una en) (file_endian s) (file_tree s) path)
      end
  | OnItem i call =>
      match nth_error (pw_objects w) i with
      | Some (OItem g c k cursor) => item_step_py en (ev_reader ev) w i g c k cursor call
      | _ => (ARaise AttributeError, w)
      end
  | OnSequence i call =>
      match nth_error (pw_objects w) i with
      | Some (OSequence g k current number) => sequence_step en w i g k current number call
      | _ => (ARaise AttributeError, w)
      end
  end.

(** A program, each call with its own I/O layer. *)
Fixpoint py_run (en : pyenv) (h : list (env * pycall)) (w : pyworld) : list reply * pyworld :=
  match h with
  | [] => ([], w)
  | (ev, call) :: h' =>
      let (a, w1) := py_step en ev w call in
      let (r, w2) := py_run en h' w1 in
      (a :: r, w2)
  end.

(** pyolecf_file_init, lines 272-308: a new file object. *)
Definition py_start : pyworld :=
  {| pw_state := new_file; pw_world := {| w_open := fun _ => false; w_own := 0 |}; pw_handle := false;
     pw_next := 0; pw_closed := 0; pw_objects := [] |}.
