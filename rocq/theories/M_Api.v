(** Model of C programs that use the public functions of the library
    (include/libolecf.h.in) on pointers of their own: files, items, property
    sets, sections and values.

    A program has variables of the types libolecf_file_t *, libolecf_item_t *,
    libolecf_property_set_t *, libolecf_property_section_t * and
    libolecf_property_value_t *, all NULL at first, and passes them, or their
    addresses, to functions.  It does not copy pointers from one variable to
    another.  Objects have addresses in a memory.  What was freed stays freed:
    an address is not used again, so that following a pointer to freed memory,
    which is undefined in C, shows as [CUndefined].

    Simplified: NULL for other arguments than the object (the functions check
    for it and fail) is not modelled.  Of the requests for memory only those
    of libolecf_file_initialize, libolecf_item_initialize and
    libolecf_property_set_initialize are refused here, one answer for all of
    one call; for those made while a file is opened or a set is read see
    M_Mem.v and M_PropMem.v.  Handles of the caller outlive the files (see
    M_File.v). *)
From Coq Require Import ZArith List Bool.
From Verif Require Import Base M_Header M_Table M_Load M_Stream M_Tree M_Open M_Item M_File M_Prop.
Import ListNotations.
Open Scope Z_scope.

(** The libraries outside: libuna_utf8_string_size_from_utf16_stream and
    libuna_utf8_string_copy_from_utf16_stream, the same for UTF-16, and
    libfvalue_value_get_utf8_string_size and _utf16_string_size.  What is
    copied gets the size of the buffer. *)
Record clib := {
  cl_una : una;
  cl_values : fvlib;
  cl_utf8_size : list Z -> endian -> res Z;
  cl_utf8 : list Z -> endian -> Z -> res (list Z);
  cl_utf16_size : list Z -> endian -> res Z;
  cl_utf16 : list Z -> endian -> Z -> res (list Z);
  cl_value_utf8_size : fvalue -> option Z;
  cl_value_utf16_size : fvalue -> option Z
}.

(** What a call meets: the I/O layer, whether memory is granted, and the
    position of the stream after a property set that could not be read (see
    M_Prop.v). *)
Record cenv := {
  ce_io : env;
  ce_memory : bool;
  ce_position : Z
}.

(** ** Memory *)

(** libolecf_internal_item_t, libolecf_item.h lines 40-66: io_handle, which has
    the lifetime of the file, file_io_handle and file are those of the file at
    [ci_file]; directory_tree_node and directory_entry, which is the value of
    the node, are parts of the tree at [ci_tree]. *)
Record item_object := {
  ci_file : nat;
  ci_tree : nat;
  ci_node : nat;
  ci_cursor : Z
}.

(** Memory for objects of one type; [None] is what was freed.  Objects of
    different types have different addresses, so that there is one such memory
    for each type. *)
Definition heap (A : Type) := list (option A).

Definition cell {A} (m : heap A) (a : nat) : option A :=
  match nth_error m a with Some c => c | None => None end.

Fixpoint put {A} (m : heap A) (a : nat) (c : option A) : heap A :=
  match m, a with
  | [], _ => []
  | _ :: m', O => c :: m'
  | x :: m', S a' => x :: put m' a' c
  end.

(** Files with their io_handle, their tables and the address of their tree
    (directory_tree_root_node); trees with all nodes and entries; items;
    property sets with their sections and values. *)
Record memory := {
  m_files : heap (fstate * option nat);
  m_trees : heap tree;
  m_items : heap item_object;
  m_sets : heap property_set
}.

Definition set_files (m : memory) (h : heap (fstate * option nat)) : memory :=
  {| m_files := h; m_trees := m_trees m; m_items := m_items m; m_sets := m_sets m |}.
Definition set_trees (m : memory) (h : heap tree) : memory :=
  {| m_files := m_files m; m_trees := h; m_items := m_items m; m_sets := m_sets m |}.
Definition set_items (m : memory) (h : heap item_object) : memory :=
  {| m_files := m_files m; m_trees := m_trees m; m_items := h; m_sets := m_sets m |}.
Definition set_sets (m : memory) (h : heap property_set) : memory :=
  {| m_files := m_files m; m_trees := m_trees m; m_items := m_items m; m_sets := h |}.

(** The functions of M_Item.v give [Undef] for a node that is not there. *)
Definition freed_tree : tree := {| tr_nodes := []; tr_flags := []; tr_container_start := 0 |}.
Definition tree_in (m : memory) (a : nat) : tree :=
  match cell (m_trees m) a with Some t => t | None => freed_tree end.

(** A section is the entry [i] of the array of a set, a value the entry [j] of
    the array of a section. *)
Definition section_in (m : memory) (p : nat * Z) : option section :=
  match cell (m_sets m) (fst p) with Some x => znth (ps_sections x) (snd p) | None => None end.
Definition value_in (m : memory) (p : nat * Z * Z) : option property :=
  match section_in m (fst p) with Some x => znth (sc_properties x) (snd p) | None => None end.

(** ** Programs *)
Record cstate := {
  cs_memory : memory;
  cs_files : nat -> option nat;
  cs_items : nat -> option nat;
  cs_sets : nat -> option nat;
  cs_sections : nat -> option (nat * Z);
  cs_values : nat -> option (nat * Z * Z);
  cs_world : world
}.

Definition upd {A} (f : nat -> A) (i : nat) (x : A) : nat -> A :=
  fun j => if Nat.eqb j i then x else f j.

Definition c_start : cstate :=
  {| cs_memory := {| m_files := []; m_trees := []; m_items := []; m_sets := [] |};
     cs_files := fun _ => None; cs_items := fun _ => None; cs_sets := fun _ => None;
     cs_sections := fun _ => None; cs_values := fun _ => None;
     cs_world := {| w_open := fun _ => false; w_own := 0 |} |}.

Definition with_memory (s : cstate) (m : memory) : cstate :=
  {| cs_memory := m; cs_files := cs_files s; cs_items := cs_items s; cs_sets := cs_sets s;
     cs_sections := cs_sections s; cs_values := cs_values s; cs_world := cs_world s |}.
Definition with_world (s : cstate) (w : world) : cstate :=
  {| cs_memory := cs_memory s; cs_files := cs_files s; cs_items := cs_items s; cs_sets := cs_sets s;
     cs_sections := cs_sections s; cs_values := cs_values s; cs_world := w |}.
Definition with_file (s : cstate) (f : nat) (p : option nat) : cstate :=
  {| cs_memory := cs_memory s; cs_files := upd (cs_files s) f p; cs_items := cs_items s; cs_sets := cs_sets s;
     cs_sections := cs_sections s; cs_values := cs_values s; cs_world := cs_world s |}.
Definition with_item (s : cstate) (i : nat) (p : option nat) : cstate :=
  {| cs_memory := cs_memory s; cs_files := cs_files s; cs_items := upd (cs_items s) i p; cs_sets := cs_sets s;
     cs_sections := cs_sections s; cs_values := cs_values s; cs_world := cs_world s |}.
Definition with_set (s : cstate) (x : nat) (p : option nat) : cstate :=
  {| cs_memory := cs_memory s; cs_files := cs_files s; cs_items := cs_items s; cs_sets := upd (cs_sets s) x p;
     cs_sections := cs_sections s; cs_values := cs_values s; cs_world := cs_world s |}.
Definition with_section (s : cstate) (x : nat) (p : option (nat * Z)) : cstate :=
  {| cs_memory := cs_memory s; cs_files := cs_files s; cs_items := cs_items s; cs_sets := cs_sets s;
     cs_sections := upd (cs_sections s) x p; cs_values := cs_values s; cs_world := cs_world s |}.
Definition with_value (s : cstate) (x : nat) (p : option (nat * Z * Z)) : cstate :=
  {| cs_memory := cs_memory s; cs_files := cs_files s; cs_items := cs_items s; cs_sets := cs_sets s;
     cs_sections := cs_sections s; cs_values := upd (cs_values s) x p; cs_world := cs_world s |}.

Inductive file_query :=
| QSectorSize
| QShortSectorSize
| QFormatVersion
| QGetCodepage
| QSetCodepage (codepage : Z)
| QSignalAbort
| QUnallocatedBlocks
| QUnallocatedBlock (index : Z).

Inductive item_query :=
| QType
| QSize
| QCreationTime
| QModificationTime
| QUtf8NameSize
| QUtf8Name (size : Z)
| QUtf16NameSize
| QUtf16Name (size : Z)
| QSubItems.

Inductive sub_lookup :=
| ByIndex (index : Z)
| ByUtf8Name (name : list Z)
| ByUtf16Name (name : list Z)
| ByUtf8Path (path : list Z)
| ByUtf16Path (path : list Z).

Inductive value_query :=
| QIdentifier
| QValueType
| QDataSize
| QData (size : Z)
| QBoolean
| Q16Bit
| Q32Bit
| Q64Bit
| QFiletime
| QUtf8Size
| QUtf8 (size : Z)
| QUtf16Size
| QUtf16 (size : Z).

(** Calls.  The numbers are those of the variables; the last number of a call
    that makes an object is the variable whose address is passed. *)
Inductive call :=
| FileInitialize (f : nat)
| FileFree (f : nat)
| FileOpen (f : nat) (flags : Z)
| FileOpenHandle (f : nat) (n : nat) (flags : Z)
| FileClose (f : nat)
| FileCall (f : nat) (q : file_query)
| FileRootItem (f : nat) (i : nat)
| FileItemByUtf8Path (f : nat) (path : list Z) (i : nat)
| FileItemByUtf16Path (f : nat) (path : list Z) (i : nat)
| ItemFree (i : nat)
| ItemCall (i : nat) (q : item_query)
| ItemSub (i : nat) (l : sub_lookup) (j : nat)
| ItemStream (i : nat) (op : item_op)
| ItemSet (i : nat) (x : nat)
| SetFree (x : nat)
| SetClass (x : nat) (size : Z)
| SetNumber (x : nat)
| SetSection (x : nat) (index : Z) (c : nat)
| SectionFree (c : nat)
| SectionClass (c : nat) (size : Z)
| SectionNumber (c : nat)
| SectionValue (c : nat) (index : Z) (v : nat)
| ValueFree (v : nat)
| ValueCall (v : nat) (q : value_query)
| HandleOpen (n : nat)
| HandleClose (n : nat).

(** What a call gives: 1 without a value or 0 of libolecf_file_close, 0 of a
    lookup, -1, or a value. *)
Inductive answer :=
| CDone
| CNothing
| CError
| CNumber (z : Z)
| CVersion (major minor : Z)
| CBytes (l : list Z)
| CUndefined.

Definition of_number (r : res Z) : answer :=
  match r with Ok z => CNumber z | Err => CError | _ => CUndefined end.
Definition of_bytes (r : res (list Z)) : answer :=
  match r with Ok l => CBytes l | Err => CError | _ => CUndefined end.
Definition of_file (r : file_result) : answer :=
  match r with
  | FDone => CDone
  | FError => CError
  | FValue v => CNumber v
  | FVersion a b => CVersion a b
  | _ => CUndefined
  end.
Definition of_stream (r : item_result) : answer :=
  match r with
  | RData l => CBytes l
  | ROffset z => CNumber z
  | RError => CError
  | RUndefined => CUndefined
  end.

(** ** Files *)

(** A function on a file: NULL is refused. *)
Definition on_file (s : cstate) (f : nat) (k : nat -> fstate -> option nat -> answer * cstate) : answer * cstate :=
  match cs_files s f with
  | None => (CError, s)
  | Some a =>
      match cell (m_files (cs_memory s)) a with
      | Some (x, t) => k a x t
      | None => (CUndefined, s)
      end
  end.

(** libolecf_file_initialize, libolecf_file.c lines 48-129. *)
Definition file_initialize (ce : cenv) (f : nat) (s : cstate) : answer * cstate :=
  match cs_files s f with
  | Some _ => (CError, s)                                       (* 66-76 *)
  | None =>
      if ce_memory ce
      then (CDone, with_file (with_memory s
              (set_files (cs_memory s) (m_files (cs_memory s) ++ [Some (new_file, None)])))
              f (Some (length (m_files (cs_memory s)))))
      else (CError, s)                                          (* 80-89, 105-118 *)
  end.

Definition put_file (m : memory) (a : nat) (x : fstate * option nat) : memory :=
  set_files m (put (m_files m) a (Some x)).

(** libolecf_file_open, lines 239-349, libolecf_file_open_wide, lines 356-466,
    and libolecf_file_open_file_io_handle, lines 473-610: see [file_open] and
    [file_open_handle] of M_File.v.  An open that succeeds makes the tree. *)
Definition file_opening (lib : clib) (ce : cenv) (f : nat) (op : file_op) (s : cstate) : answer * cstate :=
  on_file s f (fun a x t =>
    match file_step (cl_una lib) (ce_io ce) op x (cs_world s) with
    | (FDone, x', w') =>
        match file_tree x' with
        | Some tr =>
            (CDone, with_world (with_memory s
               (set_trees (put_file (cs_memory s) a (x', Some (length (m_trees (cs_memory s)))))
                          (m_trees (cs_memory s) ++ [Some tr]))) w')
        | None => (CDone, with_world (with_memory s (put_file (cs_memory s) a (x', t))) w')
        end
    | (r, x', w') => (of_file r, with_world (with_memory s (put_file (cs_memory s) a (x', t))) w')
    end).

(** libolecf_file_close lines 782-796: the tree is freed with its entries. *)
Definition tree_free (m : memory) (t : option nat) : memory :=
  match t with Some b => set_trees m (put (m_trees m) b None) | None => m end.

(** libolecf_file_close, lines 615-800. *)
Definition c_file_close (lib : clib) (ce : cenv) (f : nat) (s : cstate) : answer * cstate :=
  on_file s f (fun a x t =>
    match file_step (cl_una lib) (ce_io ce) FClose x (cs_world s) with
    | (r, x', w') =>
        match fs_handle x with
        | Some _ =>
            (of_file r, with_world (with_memory s (put_file (tree_free (cs_memory s) t) a (x', None))) w')
        | None => (of_file r, s)
        end
    end).

(** libolecf_file_free, lines 134-195: the file is closed if it is open.  A
    variable that is NULL is left alone. *)
Definition c_file_free (ce : cenv) (f : nat) (s : cstate) : answer * cstate :=
  match cs_files s f with
  | None => (CDone, s)
  | Some a =>
      match cell (m_files (cs_memory s)) a with
      | None => (CUndefined, s)
      | Some (x, t) =>
          let (r, w') := file_free (ce_io ce) (cs_world s) x in
          let m := match fs_handle x with Some _ => tree_free (cs_memory s) t | None => cs_memory s end in
          (match r with Ok _ => CDone | Err => CError | _ => CUndefined end,
           with_world (with_file (with_memory s (set_files m (put (m_files m) a None))) f None) w')
      end
  end.

(** The other functions on a file; libolecf_file_get_unallocated_block, lines
    1557-1600, fails as unallocated_block_list is always NULL. *)
Definition query_op (q : file_query) : option file_op :=
  match q with
  | QSectorSize => Some FSectorSize
  | QShortSectorSize => Some FShortSectorSize
  | QFormatVersion => Some FFormatVersion
  | QGetCodepage => Some FGetCodepage
  | QSetCodepage c => Some (FSetCodepage c)
  | QSignalAbort => Some FSignalAbort
  | QUnallocatedBlocks => Some FUnallocatedBlocks
  | QUnallocatedBlock _ => None
  end.
Definition file_call (lib : clib) (ce : cenv) (f : nat) (q : file_query) (s : cstate) : answer * cstate :=
  on_file s f (fun a x t =>
    match query_op q with
    | Some op =>
        match file_step (cl_una lib) (ce_io ce) op x (cs_world s) with
        | (r, x', _) => (of_file r, with_memory s (put_file (cs_memory s) a (x', t)))
        end
    | None => (CError, s)
    end).

(** ** Items *)

(** A new item at the variable [j] for what a lookup gave:
    libolecf_item_initialize, libolecf_item.c lines 41-165, gets the value of
    the node after it has the memory. *)
Definition new_item (ce : cenv) (file tree : nat) (j : nat) (r : res (option nat)) (s : cstate)
  : answer * cstate :=
  match r with
  | Ok (Some k) =>
      if ce_memory ce then
        match node_value (tree_in (cs_memory s) tree) k with
        | Ok _ =>
            (CDone, with_item (with_memory s (set_items (cs_memory s) (m_items (cs_memory s) ++
               [Some {| ci_file := file; ci_tree := tree; ci_node := k; ci_cursor := 0 |}])))
               j (Some (length (m_items (cs_memory s)))))
        | _ => (CUndefined, s)
        end
      else (CError, s)
  | Ok None => (CNothing, s)
  | Err => (CError, s)
  | _ => (CUndefined, s)
  end.

(** libolecf_file_get_root_item lines 1605-1670, _get_item_by_utf8_path lines
    1676-1840 and _by_utf16_path lines 1846-2010 of libolecf_file.c.  Without a
    tree no node is found. *)
Definition file_item (ce : cenv) (f : nat) (lookup : fstate -> res (option nat)) (i : nat) (s : cstate)
  : answer * cstate :=
  on_file s f (fun a x t =>
    match cs_items s i with
    | Some _ => (CError, s)
    | None => new_item ce a (match t with Some b => b | None => length (m_trees (cs_memory s)) end) i (lookup x) s
    end).

(** libolecf_item_free, libolecf_item.c lines 170-197. *)
Definition item_free (i : nat) (s : cstate) : answer * cstate :=
  match cs_items s i with
  | None => (CDone, s)
  | Some a =>
      match cell (m_items (cs_memory s)) a with
      | Some _ =>
          (CDone, with_item (with_memory s (set_items (cs_memory s) (put (m_items (cs_memory s)) a None))) i None)
      | None => (CUndefined, s)
      end
  end.

Definition on_item (s : cstate) (i : nat) (k : nat -> item_object -> answer * cstate) : answer * cstate :=
  match cs_items s i with
  | None => (CError, s)
  | Some a =>
      match cell (m_items (cs_memory s)) a with
      | Some it => k a it
      | None => (CUndefined, s)
      end
  end.

(** item->directory_entry. *)
Definition entry_in (m : memory) (it : item_object) : res dirent :=
  node_value (tree_in m (ci_tree it)) (ci_node it).

(** item->io_handle->byte_order, read only where the tree or the entry is used
    too. *)
Definition order_in (m : memory) (it : item_object) : endian :=
  match cell (m_files m) (ci_file it) with Some (x, _) => file_endian x | None => Little end.

(** The functions of libolecf_item.c that give a value: _get_type lines
    202-249, _get_utf8_name_size 254-315, _get_utf8_name 320-405,
    _get_utf16_name_size 410-471, _get_utf16_name 476-538, _get_size 543-590,
    _get_creation_time 595-642, _get_modification_time 647-693,
    _get_number_of_sub_items 698-734. *)
Definition item_value (lib : clib) (m : memory) (it : item_object) (q : item_query) : answer :=
  match q with
  | QType => of_number (do d <- entry_in m it; Ok (de_type d))
  | QSize => of_number (do d <- entry_in m it; Ok (de_size d))
  | QCreationTime => of_number (do d <- entry_in m it; Ok (de_ctime d))
  | QModificationTime => of_number (do d <- entry_in m it; Ok (de_mtime d))
  | QUtf8NameSize => of_number (do d <- entry_in m it; cl_utf8_size lib (de_name d) (order_in m it))
  | QUtf8Name n =>
      if SSIZE_MAX <? n then CError                             (* 374-384 *)
      else of_bytes (do d <- entry_in m it; cl_utf8 lib (de_name d) (order_in m it) n)
  | QUtf16NameSize => of_number (do d <- entry_in m it; cl_utf16_size lib (de_name d) (order_in m it))
  | QUtf16Name n => of_bytes (do d <- entry_in m it; cl_utf16 lib (de_name d) (order_in m it) n)
  | QSubItems => of_number (get_number_of_sub_items (tree_in m (ci_tree it)) (ci_node it))
  end.

(** libolecf_item_get_sub_item lines 739-841, _by_utf8_name 846-955,
    _by_utf16_name 960-1069, _by_utf8_path 1075-1239, _by_utf16_path 1245-1409. *)
Definition sub_found (lib : clib) (m : memory) (it : item_object) (l : sub_lookup) : res (option nat) :=
  let t := tree_in m (ci_tree it) in
  let e := order_in m it in
  match l with
  | ByIndex i => do j <- get_sub_item t (ci_node it) i; Ok (Some j)
  | ByUtf8Name n => sub_node_by_utf8_name (cl_una lib) e t (ci_node it) n
  | ByUtf16Name n => sub_node_by_utf16_name (cl_una lib) e t (ci_node it) n
  | ByUtf8Path p => sub_item_by_utf8_path (cl_una lib) e t (ci_node it) p
  | ByUtf16Path p => sub_item_by_utf16_path (cl_una lib) e t (ci_node it) p
  end.
Definition item_sub (lib : clib) (ce : cenv) (i : nat) (l : sub_lookup) (j : nat) (s : cstate) : answer * cstate :=
  on_item s i (fun a it =>
    match cs_items s j with
    | Some _ => (CError, s)
    | None => new_item ce (ci_file it) (ci_tree it) j (sub_found lib (cs_memory s) it l) s
    end).

Definition move_item (m : memory) (a : nat) (it : item_object) (c : Z) : memory :=
  set_items m (put (m_items m) a
    (Some {| ci_file := ci_file it; ci_tree := ci_tree it; ci_node := ci_node it; ci_cursor := c |})).

(** What a stream is read with: the entry, and io_handle, sat and ssat of the
    file. *)
Definition stream_in (m : memory) (it : item_object) : option (dirent * volume * Z) :=
  match entry_in m it, cell (m_files m) (ci_file it) with
  | Ok d, Some (x, _) =>
      match file_volume x with
      | Some v => Some (d, v, io_codepage (fs_io x))
      | None => None
      end
  | _, _ => None
  end.

(** The functions of libolecf_stream.c: all look at the type of the entry at
    first. *)
Definition item_stream (ce : cenv) (i : nat) (op : item_op) (s : cstate) : answer * cstate :=
  on_item s i (fun a it =>
    match stream_in (cs_memory s) it with
    | Some (d, v, _) =>
        let (r, c) := item_step (ev_reader (ce_io ce)) v d op (ci_cursor it) in
        (of_stream r, with_memory s (move_item (cs_memory s) a it c))
    | None => (CUndefined, s)
    end).

(** libolecf_property_set_stream_get_set, lines 37-118 of
    libolecf_property_set_stream.c: the set is made, then read from the
    stream of the item, and freed again if that fails. *)
Definition item_set (lib : clib) (ce : cenv) (i x : nat) (s : cstate) : answer * cstate :=
  on_item s i (fun a it =>
    match cs_sets s x with
    | Some _ => (CError, s)                                     (* 67-77 *)
    | None =>
        if negb (ce_memory ce) then (CError, s)                 (* 78-90 *)
        else
          match stream_in (cs_memory s) it with
          | Some (d, v, cp) =>
              match fst (get_set (cl_values lib) (ev_reader (ce_io ce)) v d cp (ci_cursor it) []) with
              | Ok (y, c) =>
                  (CDone, with_set (with_memory s
                     (set_sets (move_item (cs_memory s) a it c) (m_sets (cs_memory s) ++ [Some y])))
                     x (Some (length (m_sets (cs_memory s)))))
              | Err => (CError, with_memory s (move_item (cs_memory s) a it (ce_position ce)))
              | _ => (CUndefined, s)
              end
          | None => (CUndefined, s)
          end
    end).

(** ** Property sets *)
Definition on_set (s : cstate) (x : nat) (k : nat -> property_set -> answer * cstate) : answer * cstate :=
  match cs_sets s x with
  | None => (CError, s)
  | Some a =>
      match cell (m_sets (cs_memory s)) a with
      | Some y => k a y
      | None => (CUndefined, s)
      end
  end.

(** libolecf_property_set_free, libolecf_property_set.c lines 133-177: the
    sections and values are freed with the set. *)
Definition c_set_free (x : nat) (s : cstate) : answer * cstate :=
  match cs_sets s x with
  | None => (CDone, s)
  | Some a =>
      match cell (m_sets (cs_memory s)) a with
      | Some _ =>
          (CDone, with_set (with_memory s (set_sets (cs_memory s) (put (m_sets (cs_memory s)) a None))) x None)
      | None => (CUndefined, s)
      end
  end.

(** libolecf_property_set_get_section_by_index, lines 675-736. *)
Definition set_section (x : nat) (index : Z) (c : nat) (s : cstate) : answer * cstate :=
  on_set s x (fun a y =>
    match cs_sections s c with
    | Some _ => (CError, s)
    | None =>
        match get_section y index with
        | Ok _ => (CDone, with_section s c (Some (a, index)))
        | _ => (CError, s)
        end
    end).

Definition on_section (s : cstate) (c : nat) (k : nat * Z -> section -> answer * cstate) : answer * cstate :=
  match cs_sections s c with
  | None => (CError, s)
  | Some p =>
      match section_in (cs_memory s) p with
      | Some y => k p y
      | None => (CUndefined, s)
      end
  end.

(** libolecf_property_section_get_property_by_index, libolecf_property_section.c
    lines 864-925. *)
Definition section_value (c : nat) (index : Z) (v : nat) (s : cstate) : answer * cstate :=
  match cs_sections s c with
  | None => (CError, s)
  | Some p =>
      match cs_values s v with
      | Some _ => (CError, s)
      | None =>
          match section_in (cs_memory s) p with
          | Some y =>
              match get_property y index with
              | Ok _ => (CDone, with_value s v (Some (p, index)))
              | _ => (CError, s)
              end
          | None => (CUndefined, s)
          end
      end
  end.

(** The functions of libolecf_property_value.c: _get_identifier lines
    1052-1087, _get_value_type 1092-1127, and those of M_Prop.v; the sizes of
    strings 1492-1542 and 1607-1657. *)
Definition value_value (lib : clib) (p : property) (q : value_query) : answer :=
  let l := cl_values lib in
  match q with
  | QIdentifier => CNumber (pv_id p)
  | QValueType => CNumber (pv_type p)
  | QDataSize => of_number (get_data_size l p)
  | QData n => of_bytes (get_data l p n)
  | QBoolean => of_number (get_boolean l p)
  | Q16Bit => of_number (get_16bit l p)
  | Q32Bit => of_number (get_32bit l p)
  | Q64Bit => of_number (get_64bit l p)
  | QFiletime => of_number (get_filetime l p)
  | QUtf8Size =>
      of_number (if negb (pv_type p =? 0x1e) && negb (pv_type p =? 0x1f) then Err
                 else on_value p (cl_value_utf8_size lib))
  | QUtf8 n => of_bytes (get_utf8 l p n)
  | QUtf16Size =>
      of_number (if negb (pv_type p =? 0x1e) && negb (pv_type p =? 0x1f) then Err
                 else on_value p (cl_value_utf16_size lib))
  | QUtf16 n => of_bytes (get_utf16 l p n)
  end.

Definition c_step (lib : clib) (ce : cenv) (c : call) (s : cstate) : answer * cstate :=
  match c with
  | FileInitialize f => file_initialize ce f s
  | FileFree f => c_file_free ce f s
  | FileOpen f flags => file_opening lib ce f (FOpen flags) s
  | FileOpenHandle f n flags => file_opening lib ce f (FOpenHandle n flags) s
  | FileClose f => c_file_close lib ce f s
  | FileCall f q => file_call lib ce f q s
  | FileRootItem f i => file_item ce f (fun x => get_root_item (file_tree x)) i s
  | FileItemByUtf8Path f p i =>
      file_item ce f (fun x => item_by_utf8_path (cl_una lib) (file_endian x) (file_tree x) p) i s
  | FileItemByUtf16Path f p i =>
      file_item ce f (fun x => item_by_utf16_path (cl_una lib) (file_endian x) (file_tree x) p) i s
  | ItemFree i => item_free i s
  | ItemCall i q => on_item s i (fun _ it => (item_value lib (cs_memory s) it q, s))
  | ItemSub i l j => item_sub lib ce i l j s
  | ItemStream i op => item_stream ce i op s
  | ItemSet i x => item_set lib ce i x s
  | SetFree x => c_set_free x s
  | SetClass x n =>                                             (* property_set.c 570-629 *)
      on_set s x (fun _ y => (if n <? 16 then CError else CBytes (ps_class y), s))
  | SetNumber x =>                                              (* property_set.c 634-670 *)
      on_set s x (fun _ y => (CNumber (zlen (ps_sections y)), s))
  | SetSection x index c => set_section x index c s
  | SectionFree c =>                                            (* property_section.c 134-158: nothing is freed *)
      (CDone, with_section s c None)
  | SectionClass c n =>                                         (* property_section.c 759-818 *)
      match cs_sections s c with
      | None => (CError, s)
      | Some p =>
          if n <? 16 then (CError, s)
          else match section_in (cs_memory s) p with
               | Some y => (CBytes (sc_class y), s)
               | None => (CUndefined, s)
               end
      end
  | SectionNumber c =>                                          (* property_section.c 823-859 *)
      on_section s c (fun _ y => (CNumber (zlen (sc_properties y)), s))
  | SectionValue c index v => section_value c index v s
  | ValueFree v => (CDone, with_value s v None)                 (* property_value.c 116-140 *)
  | ValueCall v q =>
      match cs_values s v with
      | None => (CError, s)
      | Some p =>
          match value_in (cs_memory s) p with
          | Some y => (value_value lib y q, s)
          | None => (CUndefined, s)
          end
      end
  | HandleOpen n => (CDone, with_world s (set_open (cs_world s) n true))
  | HandleClose n => (CDone, with_world s (set_open (cs_world s) n false))
  end.

Fixpoint c_run (lib : clib) (h : list (cenv * call)) (s : cstate) : list answer * cstate :=
  match h with
  | [] => ([], s)
  | (ce, c) :: h' =>
      let (a, s1) := c_step lib ce c s in
      let (r, s2) := c_run lib h' s1 in
      (a :: r, s2)
  end.
