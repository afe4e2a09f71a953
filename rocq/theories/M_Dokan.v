(** Model of a mounted file on Windows: olecftools/mount_handle.c
    (mount_handle_get_file_entry_by_path), olecftools/mount_file_entry.c and
    the callbacks of olecftools/mount_dokan.c.  The build is the one of
    M_WMount.v.

    Simplified: the path, the buffers and the file_info that Dokan passes are
    never NULL.  Running out of memory is not represented.  The calls come one
    after the other (olecfmount.c lines 492-496). *)
From Coq Require Import ZArith List Bool.
From Verif Require Import Base M_Table M_Load M_Stream M_Tree M_Open M_Item M_Mount M_WMount M_Fuse.
Import ListNotations.
Open Scope Z_scope.

(** What the preprocessor chooses: HAVE_DOKAN_LONG_PATHS, and a DOKAN_VERSION
    from 600 to 799. *)
Record dokan_build := { db_long_paths : bool; db_old : bool }.

(** DOKAN_MAX_PATH, lines 53-57; MAX_PATH of Windows. *)
Definition MAX_PATH : Z := 260.
Definition dokan_max_path (b : dokan_build) : Z := if db_long_paths b then 32768 else MAX_PATH.

(** ** mount_handle.c
    The state after mount_handle_open is [mounted] of M_Fuse.v: the codec is
    that of UTF-16, the names come from libolecf_item_get_utf16_name, and
    [mt_time] is a FILETIME (mount_file_system.c lines 125-160). *)

(** mount_handle_get_file_entry_by_path lines 508-517, from the index [n]
    down.  The character after the path is 0. *)
Fixpoint last_backslash (path : list Z) (n : nat) : res Z :=
  match n with
  | O => Ok 0
  | S n' =>
      do c <- arr_get (path ++ [0]) (Z.of_nat n);
      if c =? WSEP then Ok (Z.of_nat n) else last_backslash path n'
  end.

(** mount_handle_get_file_entry_by_path, lines 453-578, with
    mount_file_entry_initialize (mount_file_entry.c lines 50-194). *)
Definition wentry_by_path (m : mounted) (path : list Z) : res (option file_entry) :=
  if zlen path =? 0 then Err
  else
    do last <- arr_get path (zlen path - 1);
    let len := if (2 <=? zlen path) && (last =? WSEP) then zlen path - 1 else zlen path in
    do index <- last_backslash path (Z.to_nat len);
    let name_length := u64 (len - (index + 1)) in
    do o <- wmount_item_by_path (mt_una m) (mt_codec m) (v_byte_order (mt_volume m)) (mt_tree m)
                                (slice path 0 len);
    match o with
    | None => Ok None
    | Some k =>
        if SSIZE_MAX - 1 <? name_length then Err
        else if zlen path + 1 <? index + 1 + name_length then Undef
        else Ok (Some {| fe_node := k; fe_name := slice path (index + 1) name_length;
                         fe_cursor := 0 |})
    end.

(** ** mount_file_entry.c *)

(** mount_file_entry_get_size (924-971), _get_file_mode (509-563),
    _get_creation_time (297-357), _get_access_time (364-397) and
    _get_modification_time (404-464): size, mode and the three times. *)
Definition entry_values (m : mounted) (k : nat) : res (Z * Z * (Z * Z * Z)) :=
  do d <- entry_value m k;
  Ok (de_size d, file_mode (de_type d), (de_ctime d, mt_time m, de_mtime d)).

(** mount_file_system_get_filename_from_item (mount_file_system.c lines
    486-609) of a node: the name and the size that goes with it, which is the
    size of the buffer (mount_path_string.c lines 210, 411-412). *)
Definition witem_file_name (m : mounted) (k : nat) : res (list Z * Z) :=
  do d <- entry_value m k;
  match mt_name m (de_name d) (v_byte_order (mt_volume m)) with
  | None => Err
  | Some name => do (f, size) <- wcopy_from_item_path (mt_codec m) name; Ok (c_string f, size)
  end.

(** mount_file_entry_get_sub_file_entry_by_index, lines 730-846: the entry and
    its name_size. *)
Definition wsub_entry (m : mounted) (f : file_entry) (index : Z) : res (file_entry * Z) :=
  match mt_tree m with
  | Some t =>
      do k <- get_sub_item t (fe_node f) index;
      do (name, size) <- witem_file_name m k;
      Ok ({| fe_node := k; fe_name := name; fe_cursor := 0 |}, size)
  | None => Undef
  end.

(** ** mount_dokan.c *)

(** What the callbacks return.  With old versions of Dokan: -ERROR_...
    BAD_ARGUMENTS, FILE_NOT_FOUND, GEN_FAILURE, READ_FAULT, WRITE_PROTECT,
    FILE_EXISTS, ALREADY_EXISTS.  With others: STATUS_... UNSUCCESSFUL,
    OBJECT_NAME_NOT_FOUND, UNSUCCESSFUL, UNEXPECTED_IO_ERROR,
    MEDIA_WRITE_PROTECTED, OBJECT_NAME_COLLISION, ACCESS_DENIED.  Lines 39-51,
    370-606. *)
Inductive status :=
| BadArguments | NotFound | GenericFailure | ReadFault
| WriteProtect | FileExists | AlreadyExists | AccessDenied.

Inductive dreply (A : Type) :=
| DDone (a : A)
| DFails (s : status)
| DUndefined.
Arguments DDone {A} a.
Arguments DFails {A} s.
Arguments DUndefined {A}.

Definition d_on_error {A} (r : res A) (s : status) : dreply A :=
  match r with Ok a => DDone a | Err => DFails s | _ => DUndefined end.

(** A FILETIME or a file size in two parts: the low and the high 32 bits. *)
Definition two_parts (x : Z) : Z * Z := (Z.land x 0xffffffff, u32 (Z.shiftr x 32)).

(** FILE_ATTRIBUTE_DIRECTORY and FILE_ATTRIBUTE_NORMAL. *)
Definition attributes (mode : Z) : Z := if Z.land mode 0x4000 =? 0 then 0x80 else 0x10.

(** BY_HANDLE_FILE_INFORMATION.  The callback does not write the last three. *)
Record information := {
  in_attributes : Z;
  in_created : Z * Z;
  in_accessed : Z * Z;
  in_written : Z * Z;
  in_size : Z * Z;
  in_serial_number : Z;
  in_links : Z;
  in_index : Z * Z
}.

(** mount_dokan_set_file_information, lines 63-108; [i] is what the structure
    held. *)
Definition set_file_information (i : information) (v : Z * Z * (Z * Z * Z)) : information :=
  let '(size, mode, (created, accessed, written)) := v in
  {| in_attributes := attributes mode;
     in_created := two_parts created;
     in_accessed := two_parts accessed;
     in_written := two_parts written;
     in_size := if 0 <? size then two_parts size else in_size i;
     in_serial_number := in_serial_number i;
     in_links := in_links i;
     in_index := in_index i |}.

(** WIN32_FIND_DATAW; the names up to their end. *)
Record find_data := {
  fd_attributes : Z;
  fd_created : Z * Z;
  fd_accessed : Z * Z;
  fd_written : Z * Z;
  fd_size : Z * Z;
  fd_name : list Z;
  fd_short_name : list Z
}.

(** mount_dokan_set_find_data, lines 114-159, on a structure that was cleared
    and has the names. *)
Definition set_find_data (name short : list Z) (v : Z * Z * (Z * Z * Z)) : find_data :=
  let '(size, mode, (created, accessed, written)) := v in
  {| fd_attributes := attributes mode;
     fd_created := two_parts created;
     fd_accessed := two_parts accessed;
     fd_written := two_parts written;
     fd_size := if 0 <? size then two_parts size else (0, 0);
     fd_name := name;
     fd_short_name := short |}.

Definition find_listing : Type := list find_data.

(** mount_dokan_filldir, lines 164-363, and the structures that fill_find_data
    took; [accept k] says whether it takes the [k]-th.  wide_string_copy writes
    name_size characters (common/wide_string.h lines 95-102); cFileName has
    MAX_PATH and cAlternateFileName 14 of them. *)
Definition wfilldir (b : dokan_build) (accept : nat -> bool) (name : list Z) (name_size : Z)
           (v : res (Z * Z * (Z * Z * Z))) (l : find_listing) : res find_listing :=
  if dokan_max_path b <? name_size then Err
  else
    do v <- v;
    if MAX_PATH <? name_size then Undef
    else
      let x := set_find_data name (if name_size <=? 14 then name else []) v in
      if accept (length l) then Ok (l ++ [x]) else Err.

(** Allocated file entries, when a pointer to one of them is not NULL. *)
Definition held (x : bool) : Z := if x then 1 else 0.

(** The loop of mount_dokan_FindFiles, lines 1094-1207, over the sub entries
    from [index] on.  Result: whether sub_file_entry is still set, the entries
    that are allocated, and the listing. *)
Fixpoint find_loop (n : nat) (b : dokan_build) (m : mounted) (accept : nat -> bool) (f : file_entry)
         (index : Z) (live : Z) (l : find_listing) : res unit * bool * Z * find_listing :=
  match n with
  | O => (Ok tt, false, live, l)
  | S n' =>
      match wsub_entry m f index with
      | Ok (g, name_size) =>
          match wfilldir b accept (fe_name g) name_size (entry_values m (fe_node g)) l with
          | Ok l' => find_loop n' b m accept f (index + 1) (live + 1 - 1) l'
          | Err => (Err, true, live + 1, l)
          | _ => (Undef, true, live + 1, l)
          end
      | Err => (Err, false, live, l)
      | _ => (Undef, false, live, l)
      end
  end.

(** mount_dokan_FindFiles lines 1003-1218 with the entry that was found, which
    is released at the end.  There is never a parent entry (mount_file_entry.c
    lines 248-290), so that its values are zeros (lines 174-178). *)
Definition find_in (b : dokan_build) (m : mounted) (accept : nat -> bool) (f : file_entry) (live : Z)
  : dreply unit * Z * find_listing :=
  let stop (r : dreply unit) (sub : bool) (live : Z) (l : find_listing) := (r, live - held sub - 1, l) in
  match wfilldir b accept DOT 2 (entry_values m (fe_node f)) [] with
  | Ok l1 =>
      match wfilldir b accept DOTS 3 (Ok (0, 0, (0, 0, 0))) l1 with
      | Ok l2 =>
          match number_of_sub_entries m f with
          | Ok n =>
              match find_loop (Z.to_nat n) b m accept f 0 live l2 with
              | (r, sub, live', l) => stop (d_on_error r GenericFailure) sub live' l
              end
          | Err => stop (DFails GenericFailure) false live l2
          | _ => stop DUndefined false live l2
          end
      | Err => stop (DFails GenericFailure) false live l1
      | _ => stop DUndefined false live l1
      end
  | Err => stop (DFails GenericFailure) false live []
  | _ => stop DUndefined false live []
  end.

(** mount_dokan_FindFiles, lines 941-1259; [live] are the allocated entries. *)
Definition find_files (b : dokan_build) (m : mounted) (accept : nat -> bool) (path : list Z) (live : Z)
  : dreply unit * Z * find_listing :=
  match wentry_by_path m path with
  | Ok (Some f) => find_in b m accept f (live + 1)
  | Ok None | Err => (DFails NotFound, live, [])
  | _ => (DUndefined, live, [])
  end.

(** mount_dokan_GetFileInformation, lines 1265-1463; [i] is what the structure
    held before, which is not cleared. *)
Definition get_file_information (m : mounted) (path : list Z) (i : information) : dreply information :=
  match wentry_by_path m path with
  | Ok (Some f) => d_on_error (do v <- entry_values m (fe_node f); Ok (set_file_information i v)) GenericFailure
  | Ok None | Err => DFails NotFound
  | _ => DUndefined
  end.

(** GENERIC_WRITE, the creation dispositions of CreateFile and those of
    ZwCreateFile (Windows). *)
Definition GENERIC_WRITE : Z := 0x40000000.
Definition CREATE_NEW : Z := 1.
Definition CREATE_ALWAYS : Z := 2.
Definition OPEN_EXISTING : Z := 3.
Definition OPEN_ALWAYS : Z := 4.
Definition TRUNCATE_EXISTING : Z := 5.
Definition FILE_OPEN : Z := 1.
Definition FILE_CREATE : Z := 2.
Definition FILE_OPEN_IF : Z := 3.

(** mount_dokan_OpenDirectory, lines 615-700, and the end of the functions
    below; [context] is the Context of file_info. *)
Definition open_context (m : mounted) (path : list Z) (context : option file_entry) : dreply file_entry :=
  match context with
  | Some _ => DFails BadArguments
  | None =>
      match wentry_by_path m path with
      | Ok (Some f) => DDone f
      | Ok None | Err => DFails NotFound
      | _ => DUndefined
      end
  end.

(** mount_dokan_CreateFile, lines 370-497. *)
Definition create_file (m : mounted) (path : list Z) (access disposition : Z)
           (context : option file_entry) : dreply file_entry :=
  if negb (Z.land access GENERIC_WRITE =? 0) then DFails WriteProtect
  else if disposition =? CREATE_NEW then DFails FileExists
  else if disposition =? CREATE_ALWAYS then DFails AlreadyExists
  else if disposition =? OPEN_ALWAYS then DFails NotFound
  else if disposition =? TRUNCATE_EXISTING then DFails NotFound
  else if negb (disposition =? OPEN_EXISTING) then DFails BadArguments
  else open_context m path context.

(** mount_dokan_ZwCreateFile, lines 504-606. *)
Definition zw_create_file (m : mounted) (path : list Z) (access disposition : Z)
           (context : option file_entry) : dreply file_entry :=
  if negb (Z.land access GENERIC_WRITE =? 0) then DFails WriteProtect
  else if disposition =? FILE_CREATE then DFails FileExists
  else if negb (disposition =? FILE_OPEN) && negb (disposition =? FILE_OPEN_IF) then DFails AccessDenied
  else open_context m path context.

Definition dokan_create (b : dokan_build) :=
  if db_old b then create_file else zw_create_file.

(** mount_dokan_ReadFile, lines 799-935.  The bytes, whose number is stored in
    number_of_bytes_read; [None] is a Context that is NULL. *)
Definition read_file (rd : reader) (m : mounted) (context : option file_entry) (size offset : Z)
  : dreply (list Z) * option file_entry :=
  if INT_MAX <? size then (DFails BadArguments, context)
  else
    match context with
    | None => (DFails BadArguments, None)
    | Some f =>
        let (r, f') := entry_read rd m f size offset in
        (d_on_error r ReadFault, Some f')
    end.

(** mount_dokan_GetVolumeInformation, lines 1479-1587, with a buffer of
    [name_size] characters for the name of the volume and of [system_size] for
    that of the file system: what is written into them, the serial number, the
    maximum length of a file name and the flags. *)
Record volume_information := {
  vi_name : option (list Z);
  vi_serial_number : Z;
  vi_maximum_length : Z;
  vi_flags : Z;
  vi_system : option (list Z)
}.

(** "OLECF" and "Dokan" with the end of string character. *)
Definition VOLUME_NAME : list Z := [79; 76; 69; 67; 70; 0].
Definition SYSTEM_NAME : list Z := [68; 111; 107; 97; 110; 0].

Definition get_volume_information (name_size system_size : Z) : volume_information :=
  {| vi_name := if zlen VOLUME_NAME <? name_size then Some VOLUME_NAME else None;
     vi_serial_number := 0x19831116;
     vi_maximum_length := 256;
     vi_flags := Z.lor (Z.lor (Z.lor 1 2) 4) 0x80000;
     vi_system := if zlen SYSTEM_NAME <? system_size then Some SYSTEM_NAME else None |}.

(** ** Histories of callbacks
    Dokan keeps a file_info for every open file; here they have numbers.  The
    Context is NULL or the entry.  [dk_live] counts the file entries that are
    allocated. *)
Record dokan_state := { dk_contexts : nat -> option file_entry; dk_live : Z }.

Inductive dokan_op :=
| DkCreate (h : nat) (path : list Z) (access disposition : Z)
| DkOpenDirectory (h : nat) (path : list Z)
| DkClose (h : nat)
| DkRead (h : nat) (size offset : Z)
| DkFind (path : list Z) (accept : nat -> bool)
| DkInformation (path : list Z) (i : information)
| DkVolume (name_size system_size : Z).

Inductive dokan_result :=
| DrDone
| DrBytes (l : list Z)
| DrListing (l : find_listing)
| DrPartial (s : status) (l : find_listing)
| DrInformation (i : information)
| DrVolume (v : volume_information)
| DrStatus (s : status)
| DrUndef.

Definition set_context (c : nat -> option file_entry) (h : nat) (x : option file_entry)
  : nat -> option file_entry :=
  fun k => if Nat.eqb k h then x else c k.

(** mount_handle_get_file_entry_by_path stores the new entry in the Context. *)
Definition store_context (r : dreply file_entry) (h : nat) (s : dokan_state) : dokan_result * dokan_state :=
  match r with
  | DDone f => (DrDone, {| dk_contexts := set_context (dk_contexts s) h (Some f); dk_live := dk_live s + 1 |})
  | DFails c => (DrStatus c, s)
  | DUndefined => (DrUndef, s)
  end.

(** The callbacks that olecfmount.c lines 508-564 installs; versions that are
    not old have none to open directories. *)
Definition dokan_step (rd : reader) (b : dokan_build) (m : mounted) (op : dokan_op) (s : dokan_state)
  : dokan_result * dokan_state :=
  match op with
  | DkCreate h path access disposition =>
      store_context (dokan_create b m path access disposition (dk_contexts s h)) h s
  | DkOpenDirectory h path =>
      if db_old b then store_context (open_context m path (dk_contexts s h)) h s else (DrDone, s)
  | DkClose h =>                                                (* 708-785 *)
      match dk_contexts s h with
      | Some _ => (DrDone, {| dk_contexts := set_context (dk_contexts s) h None; dk_live := dk_live s - 1 |})
      | None => (DrDone, s)
      end
  | DkRead h size offset =>
      let (r, x) := read_file rd m (dk_contexts s h) size offset in
      (match r with DDone l => DrBytes l | DFails c => DrStatus c | DUndefined => DrUndef end,
       {| dk_contexts := set_context (dk_contexts s) h x; dk_live := dk_live s |})
  | DkFind path accept =>
      match find_files b m accept path (dk_live s) with
      | (r, live, l) =>
          (match r with DDone _ => DrListing l | DFails c => DrPartial c l | DUndefined => DrUndef end,
           {| dk_contexts := dk_contexts s; dk_live := live |})
      end
  | DkInformation path i =>                                     (* frees its entry, 1430-1443 *)
      (match get_file_information m path i with
       | DDone x => DrInformation x | DFails c => DrStatus c | DUndefined => DrUndef end, s)
  | DkVolume name_size system_size => (DrVolume (get_volume_information name_size system_size), s)
  end.

Fixpoint dokan_run (b : dokan_build) (m : mounted) (h : list (reader * dokan_op)) (s : dokan_state)
  : list dokan_result * dokan_state :=
  match h with
  | [] => ([], s)
  | (rd, op) :: h' =>
      let (r, s1) := dokan_step rd b m op s in
      let (rs, s2) := dokan_run b m h' s1 in
      (r :: rs, s2)
  end.

Definition dokan_start : dokan_state := {| dk_contexts := fun _ => None; dk_live := 0 |}.
