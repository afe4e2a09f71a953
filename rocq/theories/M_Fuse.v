(** Model of a mounted file: olecftools/mount_handle.c
    (mount_handle_get_file_entry_by_path), olecftools/mount_file_entry.c and
    the callbacks of olecftools/mount_fuse.c.  The build is the one of
    M_Mount.v, off_t has 64 bits.

    Simplified: user and group identifiers of a stat structure are left out.
    Running out of memory is not represented.  The calls come one after the
    other. *)
From Coq Require Import ZArith List Bool.
From Verif Require Import Base M_Table M_Load M_Stream M_Tree M_Open M_Item M_Mount.
Import ListNotations.
Open Scope Z_scope.

(** olecfmount_mount_handle after mount_handle_open (mount_handle.c lines
    267-359): the opened file, the mounted_timestamp of
    mount_file_system_initialize (mount_file_system.c lines 161-177), and the
    functions of libuna; [mt_name] as [ho_name] in M_Export.v. *)
Record mounted := {
  mt_una : una;
  mt_codec : codec;
  mt_name : list Z -> endian -> option (list Z);
  mt_volume : volume;
  mt_tree : option tree;
  mt_time : Z
}.

(** mount_file_entry_t: the item, given by its node, its name as a string and
    the offset of the stream of the item. *)
Record file_entry := { fe_node : nat; fe_name : list Z; fe_cursor : Z }.

(** ** mount_handle.c *)

(** mount_handle_get_file_entry_by_path lines 508-517, from the index [n]
    down.  The character after the path is 0. *)
Fixpoint last_slash (path : list Z) (n : nat) : res Z :=
  match n with
  | O => Ok 0
  | S n' =>
      do c <- arr_get (path ++ [0]) (Z.of_nat n);
      if c =? SLASH then Ok (Z.of_nat n) else last_slash path n'
  end.

(** mount_handle_get_file_entry_by_path, lines 453-578, with
    mount_file_entry_initialize (mount_file_entry.c lines 50-194); [None] is
    the result 0.  The name length is of type size_t. *)
Definition entry_by_path (m : mounted) (path : list Z) : res (option file_entry) :=
  if zlen path =? 0 then Err
  else
    do last <- arr_get path (zlen path - 1);
    let len := if (2 <=? zlen path) && (last =? SLASH) then zlen path - 1 else zlen path in
    do index <- last_slash path (Z.to_nat len);
    let name_length := u64 (len - (index + 1)) in
    do o <- mount_item_by_path (mt_una m) (mt_codec m) (v_byte_order (mt_volume m)) (mt_tree m)
                               (slice path 0 len);
    match o with
    | None => Ok None
    | Some k =>
        if SSIZE_MAX - 1 <? name_length then Err
        else if zlen path + 1 <? index + 1 + name_length then Undef
        else Ok (Some {| fe_node := k; fe_name := slice path (index + 1) name_length;
                         fe_cursor := 0 |})
    end.

(** ** mount_file_entry.c *)

Definition entry_value (m : mounted) (k : nat) : res dirent :=
  match mt_tree m with
  | Some t => node_value t k
  | None => Undef
  end.

(** mount_file_entry_get_file_mode, lines 509-563. *)
Definition file_mode (item_type : Z) : Z :=
  if mount_is_directory item_type then Z.lor 0x4000 365 else Z.lor 0x8000 292.

(** mount_file_entry_get_number_of_sub_file_entries, lines 692-725. *)
Definition number_of_sub_entries (m : mounted) (f : file_entry) : res Z :=
  match mt_tree m with
  | Some t => get_number_of_sub_items t (fe_node f)
  | None => Undef
  end.

(** mount_file_system_get_filename_from_item (mount_file_system.c lines
    486-609) of a node. *)
Definition item_file_name (m : mounted) (k : nat) : res (list Z) :=
  do d <- entry_value m k;
  match mt_name m (de_name d) (v_byte_order (mt_volume m)) with
  | None => Err
  | Some name => do f <- mount_file_name (mt_codec m) name; Ok (c_string f)
  end.

(** mount_file_entry_get_sub_file_entry_by_index, lines 730-846. *)
Definition sub_entry (m : mounted) (f : file_entry) (index : Z) : res file_entry :=
  match mt_tree m with
  | Some t =>
      do k <- get_sub_item t (fe_node f) index;
      do name <- item_file_name m k;
      Ok {| fe_node := k; fe_name := name; fe_cursor := 0 |}
  | None => Undef
  end.

(** mount_file_entry_read_buffer_at_offset, lines 851-919.  Result: the bytes
    and the entry with the offset where the call leaves it. *)
Definition entry_read (rd : reader) (m : mounted) (f : file_entry) (size offset : Z)
  : res (list Z) * file_entry :=
  match entry_value m (fe_node f) with
  | Ok d =>
      if negb (de_type d =? TYPE_STREAM) then (Err, f)
      else
        match stream_read_at rd (mt_volume m) d (fe_cursor f) offset size size [] with
        | (r, c, _) => (r, {| fe_node := fe_node f; fe_name := fe_name f; fe_cursor := c |})
        end
  | Err => (Err, f)
  | Undef => (Undef, f)
  | NoFuel => (NoFuel, f)
  end.

(** ** mount_fuse.c *)

(** struct stat; a time is seconds and nanoseconds. *)
Record stat := {
  st_size : Z;
  st_mode : Z;
  st_nlink : Z;
  st_atime : Z * Z;
  st_ctime : Z * Z;
  st_mtime : Z * Z
}.

(** Lines 112-121; the quotient and the remainder of int64_t. *)
Definition split_time (t : Z) : Z * Z := (Z.quot t 1000000000, Z.rem t 1000000000).

(** mount_fuse_set_stat_info, lines 57-122. *)
Definition set_stat_info (size mode atime ctime mtime : Z) : res stat :=
  if 9223372036854775807 <? size then Err
  else
    Ok {| st_size := size; st_mode := mode;
          st_nlink := if Z.land mode 0x4000 =? 0 then 1 else 2;
          st_atime := split_time (s64 atime);
          st_ctime := split_time (s64 ctime);
          st_mtime := split_time (s64 mtime) |}.

(** The calls of lines 1170-1269, and of lines 153-257 of mount_fuse_filldir: the stat
    structure of an entry. *)
Definition entry_stat (m : mounted) (k : nat) : res stat :=
  do d <- entry_value m k;
  do mtime <- mount_time (de_mtime d);
  set_stat_info (de_size d) (file_mode (de_type d)) (mt_time m) (mt_time m) mtime.

(** errno of Linux. *)
Definition ENOENT : Z := 2.
Definition EIO : Z := 5.
Definition EACCES : Z := 13.
Definition EINVAL : Z := 22.

(** What a callback returns. *)
Inductive reply (A : Type) :=
| Done (a : A)
| Fails (errno : Z)
| Undefined.
Arguments Done {A} a.
Arguments Fails {A} errno.
Arguments Undefined {A}.

Definition on_error {A} (r : res A) (errno : Z) : reply A :=
  match r with Ok a => Done a | Err => Fails errno | _ => Undefined end.

(** mount_fuse_getattr, lines 1071-1303. *)
Definition fuse_getattr (m : mounted) (path : list Z) : reply stat :=
  match entry_by_path m path with
  | Err => Fails ENOENT
  | Ok None => Fails ENOENT
  | Ok (Some f) => on_error (entry_stat m (fe_node f)) EIO
  | _ => Undefined
  end.

(** Lines 357-374 of mount_fuse_open and 633-650 of mount_fuse_opendir. *)
Definition fuse_entry (m : mounted) (path : list Z) : reply file_entry :=
  match entry_by_path m path with
  | Err => Fails ENOENT
  | Ok None => Fails ENOENT
  | Ok (Some f) => Done f
  | _ => Undefined
  end.

(** mount_fuse_read, lines 391-495, on an open handle. *)
Definition fuse_read (rd : reader) (m : mounted) (f : file_entry) (size offset : Z)
  : reply (list Z) * file_entry :=
  if INT_MAX <? size then (Fails EINVAL, f)
  else
    let (r, f') := entry_read rd m f size offset in
    (on_error r EIO, f').

(** mount_fuse_filldir, lines 127-283, and the state of a listing: the names
    and stat structures taken by the filler.  [accept k] says whether the
    filler takes the [k]-th. *)
Definition listing : Type := list (list Z * stat).

Definition filldir (accept : nat -> bool) (name : list Z) (s : res stat) (l : listing)
  : res listing :=
  do s <- s;
  if accept (length l) then Ok (l ++ [(name, s)]) else Err.

(** The loop of lines 852-965 over the sub entries from [index] on; the
    listing is kept when it fails. *)
Fixpoint readdir_loop (n : nat) (m : mounted) (accept : nat -> bool) (f : file_entry)
         (index : Z) (l : listing) : res unit * listing :=
  match n with
  | O => (Ok tt, l)
  | S n' =>
      match (do g <- sub_entry m f index;
             filldir accept (fe_name g) (entry_stat m (fe_node g)) l) with
      | Ok l' => readdir_loop n' m accept f (index + 1) l'
      | Err => (Err, l)
      | Undef => (Undef, l)
      | NoFuel => (NoFuel, l)
      end
  end.

(** "." and ".." *)
Definition DOT : list Z := [46].
Definition DOTS : list Z := [46; 46].

(** mount_fuse_readdir, lines 676-1002, on an open handle.  There is never a
    parent entry (mount_file_entry.c lines 248-290), so that its stat
    structure is made of zeros (lines 136-142, 226-257). *)
Definition fuse_readdir (m : mounted) (accept : nat -> bool) (f : file_entry)
  : reply unit * listing :=
  match filldir accept DOT (entry_stat m (fe_node f)) [] with
  | Ok l1 =>
      match filldir accept DOTS (set_stat_info 0 0 0 0 0) l1 with
      | Ok l2 =>
          match number_of_sub_entries m f with
          | Ok n =>
              let (r, l) := readdir_loop (Z.to_nat n) m accept f 0 l2 in
              (on_error r EIO, l)
          | Err => (Fails EIO, l2)
          | _ => (Undefined, l2)
          end
      | Err => (Fails EIO, l1)
      | _ => (Undefined, l1)
      end
  | Err => (Fails EIO, [])
  | _ => (Undefined, [])
  end.

(** ** Histories of callbacks
    A handle is the fh field of a fuse_file_info that FUSE keeps between the
    calls: NULL or the entry.  [fu_live] counts the file entries that are
    allocated. *)
Record fuse_state := { fu_handles : list (option file_entry); fu_live : Z }.

Inductive fuse_op :=
| FuGetattr (path : list Z)
| FuOpen (path : list Z) (flags : Z)
| FuRead (h : nat) (size offset : Z)
| FuRelease (h : nat)
| FuOpendir (path : list Z)
| FuReaddir (h : nat) (accept : nat -> bool)
| FuReleasedir (h : nat).

Inductive fuse_result :=
| RStat (s : stat)
| RHandle (h : nat)
| RBytes (l : list Z)
| RListing (l : listing)
| RPartial (errno : Z) (l : listing)
| RDone
| RErrno (errno : Z)
| RUndef.

Definition set_handle (l : list (option file_entry)) (h : nat) (x : option file_entry) :=
  firstn h l ++ x :: skipn (S h) l.

(** A new fuse_file_info, whose fh is NULL. *)
Definition open_handle (m : mounted) (path : list Z) (s : fuse_state) : fuse_result * fuse_state :=
  match fuse_entry m path with
  | Done f => (RHandle (length (fu_handles s)),
               {| fu_handles := fu_handles s ++ [Some f]; fu_live := fu_live s + 1 |})
  | Fails n => (RErrno n, s)
  | Undefined => (RUndef, s)
  end.

Definition fuse_step (rd : reader) (m : mounted) (op : fuse_op) (s : fuse_state)
  : fuse_result * fuse_state :=
  match op with
  | FuGetattr path =>                                           (* frees its entry, 1270 *)
      (match fuse_getattr m path with
       | Done x => RStat x | Fails n => RErrno n | Undefined => RUndef end, s)
  | FuOpen path flags =>                                        (* 344-374 *)
      if negb (Z.land flags 3 =? 0) then (RErrno EACCES, s) else open_handle m path s
  | FuRead h size offset =>
      if INT_MAX <? size then (RErrno EINVAL, s)                (* 425-436 *)
      else
        match nth_error (fu_handles s) h with
        | Some (Some f) =>
            let (r, f') := fuse_read rd m f size offset in
            (match r with Done l => RBytes l | Fails n => RErrno n | Undefined => RUndef end,
             {| fu_handles := set_handle (fu_handles s) h (Some f'); fu_live := fu_live s |})
        | Some None => (RErrno EINVAL, s)                       (* 451-462 *)
        | None => (RUndef, s)
        end
  | FuRelease h =>                                              (* 500-572 *)
      match nth_error (fu_handles s) h with
      | Some (Some _) =>
          (RDone, {| fu_handles := set_handle (fu_handles s) h None; fu_live := fu_live s - 1 |})
      | Some None => (RDone, s)
      | None => (RUndef, s)
      end
  | FuOpendir path => open_handle m path s                      (* 577-662 *)
  | FuReaddir h accept =>
      match nth_error (fu_handles s) h with
      | Some (Some f) =>
          (match fuse_readdir m accept f with
           | (Done _, l) => RListing l
           | (Fails n, l) => RPartial n l
           | (Undefined, _) => RUndef
           end, s)
      | Some None => (RErrno EINVAL, s)                         (* 736-747 *)
      | None => (RUndef, s)
      end
  | FuReleasedir h =>                                           (* 1007-1065: not freed *)
      match nth_error (fu_handles s) h with
      | Some _ => (RDone, {| fu_handles := set_handle (fu_handles s) h None; fu_live := fu_live s |})
      | None => (RUndef, s)
      end
  end.

Fixpoint fuse_run (m : mounted) (h : list (reader * fuse_op)) (s : fuse_state)
  : list fuse_result * fuse_state :=
  match h with
  | [] => ([], s)
  | (rd, op) :: h' =>
      let (r, s1) := fuse_step rd m op s in
      let (rs, s2) := fuse_run m h' s1 in
      (r :: rs, s2)
  end.

Definition fuse_start : fuse_state := {| fu_handles := []; fu_live := 0 |}.
