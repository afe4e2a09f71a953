(** Model of the file object: libolecf/libolecf_file.c, of
    libolecf/libolecf_io_handle.c lines 48-195 and of the signature check of
    libolecf/libolecf_support.c. *)
From Coq Require Import ZArith List Bool.
From Verif Require Import Base M_Table M_Header M_Load M_Stream M_Tree M_Open M_Item.
Import ListNotations.
Open Scope Z_scope.

(** ** The I/O layer
    A handle of libbfio is either one of the caller, named by a number, or the
    one libolecf_file_open creates for a file name. *)
Inductive handle := User (n : nat) | Own.

(** What the handles are like: whether each handle of the caller is open, and
    the number of handles created by the library that are not freed. *)
Record world := {
  w_open : nat -> bool;
  w_own : Z
}.

(** How libbfio answers during one call of the API: whether
    libbfio_handle_is_open succeeds, whether libbfio_handle_open and
    libbfio_handle_close succeed (a close that fails leaves the handle open)
    and what the reads give.  libbfio_file_initialize, _set_name and
    libbfio_handle_free succeed. *)
Record env := {
  ev_is_open : bool;
  ev_open : bool;
  ev_close : bool;
  ev_reader : reader
}.

Definition set_open (w : world) (n : nat) (b : bool) : world :=
  {| w_open := fun m => if Nat.eqb m n then b else w_open w m;
     w_own := w_own w |}.

(** libbfio_handle_close as far as the caller sees it.  A handle the library
    created is not visible to anybody else. *)
Definition bfio_close (ev : env) (w : world) (h : handle) : world :=
  match h with
  | User n => if ev_close ev then set_open w n false else w
  | Own => w
  end.

(** ** The object *)

(** libolecf_io_handle_t, libolecf/libolecf_io_handle.h lines 43-81.  The byte
    order is 0 before the first header is read. *)
Record io_state := {
  io_major : Z;
  io_minor : Z;
  io_sector_size : Z;
  io_short_sector_size : Z;
  io_minimum_size : Z;
  io_byte_order : option endian;
  io_start : Z;
  io_codepage : Z;
  io_abort : Z
}.

(** LIBOLECF_CODEPAGE_WINDOWS_1252, include/libolecf/codepage.h line 63. *)
Definition WINDOWS_1252 : Z := 1252.

(** libolecf_io_handle_initialize lines 51-125 and libolecf_io_handle_clear
    lines 161-195: both set everything to 0 and the codepage to 1252. *)
Definition io_clear : io_state :=
  {| io_major := 0; io_minor := 0; io_sector_size := 0;
     io_short_sector_size := 0; io_minimum_size := 0; io_byte_order := None;
     io_start := 0; io_codepage := WINDOWS_1252; io_abort := 0 |}.

(** libolecf_internal_file_t, libolecf/libolecf_file.h lines 41-83.  The tables
    and the tree are set together ([fs_data]); [None] stands for NULL in all of
    them.  unallocated_block_list is never set by the code.  The two references
    to the summary streams are written and never read, and not modelled. *)
Record fdata := {
  fd_msat : list Z;
  fd_sat : list Z;
  fd_ssat : list Z;
  fd_tree : option tree
}.
Record fstate := {
  fs_io : io_state;
  fs_handle : option handle;
  fs_created : bool;
  fs_opened : bool;
  fs_data : option fdata
}.

(** libolecf_file_initialize, lines 48-129. *)
Definition new_file : fstate :=
  {| fs_io := io_clear; fs_handle := None; fs_created := false;
     fs_opened := false; fs_data := None |}.

(** Lines 941-946 of libolecf_file.c. *)
Definition io_set_header (io : io_state) (h : file_header) : io_state :=
  {| io_major := fh_major_format_version h;
     io_minor := fh_minor_format_version h;
     io_sector_size := fh_sector_size h;
     io_short_sector_size := fh_short_sector_size h;
     io_minimum_size := fh_sector_stream_minimum_data_size h;
     io_byte_order := Some (fh_byte_order h);
     io_start := io_start io;
     io_codepage := io_codepage io;
     io_abort := io_abort io |}.

Definition io_set_start (io : io_state) (start : Z) : io_state :=
  {| io_major := io_major io; io_minor := io_minor io;
     io_sector_size := io_sector_size io;
     io_short_sector_size := io_short_sector_size io;
     io_minimum_size := io_minimum_size io;
     io_byte_order := io_byte_order io;
     io_start := start;
     io_codepage := io_codepage io;
     io_abort := io_abort io |}.

Definition io_set_codepage (io : io_state) (codepage : Z) : io_state :=
  {| io_major := io_major io; io_minor := io_minor io;
     io_sector_size := io_sector_size io;
     io_short_sector_size := io_short_sector_size io;
     io_minimum_size := io_minimum_size io;
     io_byte_order := io_byte_order io;
     io_start := io_start io;
     io_codepage := codepage;
     io_abort := io_abort io |}.

Definition io_set_abort (io : io_state) : io_state :=
  {| io_major := io_major io; io_minor := io_minor io;
     io_sector_size := io_sector_size io;
     io_short_sector_size := io_short_sector_size io;
     io_minimum_size := io_minimum_size io;
     io_byte_order := io_byte_order io;
     io_start := io_start io;
     io_codepage := io_codepage io;
     io_abort := 1 |}.

(** libolecf_file_open_read lines 947-1085: the part of [open_tables] before
    the tree. *)
Definition open_lists (rd : reader) (h : file_header) (msat0 : list Z)
  : io (list Z * list Z * list Z * list dirent) :=
  let e := fh_byte_order h in
  let ss := fh_sector_size h in
  dio msat <- read_msat rd e ss msat0 (fh_msat_sector_identifier h)
                        (fh_number_of_msat_sectors h);
  dio sat0 <- ilift (table_initialize 0);
  dio sat <- read_sat rd e ss msat sat0 (fh_number_of_sat_sectors h);
  dio ssat0 <- ilift (table_initialize 0);
  dio ssat <- read_ssat rd e ss sat ssat0 (fh_ssat_sector_identifier h)
                        (fh_number_of_ssat_sectors h);
  dio l <- read_directory rd e ss sat (fh_root_directory_sector_identifier h);
  iret (msat, sat, ssat, l).

(** libolecf_directory_tree_create lines 101-235: what the function stores as
    start of the chain of the short sectors before it processes the entries.
    [None]: it returns earlier. *)
Definition stored_start (l : list dirent) : option Z :=
  match find_root l with
  | None => None
  | Some root => if de_sub root =? UNUSED then None else Some (de_sector root)
  end.

(** libolecf_file_open_read, lines 805-1189, with its effect on the io_handle.
    The checks of lines 837-891 fail if the object holds tables or a tree
    (the caller has checked that there is no handle).  On failure the tables
    and the tree are freed (lines 1142-1188) but the io_handle is kept. *)
Definition file_open_read (u : una) (rd : reader) (io : io_state) (old : option fdata)
  : res fdata * io_state :=
  match old with
  | Some _ => (Err, io)
  | None =>
      match (dio msat0 <- ilift (table_initialize 109); header_read rd msat0) [] with
      | (Ok (h, msat1), t1) =>
          let io1 := io_set_header io h in
          match open_lists rd h msat1 t1 with
          | (Ok (msat, sat, ssat, l), _) =>
              let io2 := match stored_start l with
                         | Some start => io_set_start io1 start
                         | None => io1
                         end in
              match create_tree u (fh_byte_order h) l with
              | Ok tr => (Ok {| fd_msat := msat; fd_sat := sat; fd_ssat := ssat;
                                fd_tree := tr |}, io2)
              | Err => (Err, io2)
              | Undef => (Undef, io2)
              | NoFuel => (NoFuel, io2)
              end
          | (Err, _) => (Err, io1)
          | (Undef, _) => (Undef, io1)
          | (NoFuel, _) => (NoFuel, io1)
          end
      | (Err, _) => (Err, io)
      | (Undef, _) => (Undef, io)
      | (NoFuel, _) => (NoFuel, io)
      end
  end.

(** LIBOLECF_ACCESS_FLAG_READ and _WRITE, include/libolecf/definitions.h.in
    lines 38 and 40. *)
Definition flag_read (flags : Z) : bool := Z.testbit flags 0.
Definition flag_write (flags : Z) : bool := Z.testbit flags 1.

(** libolecf_file_open_file_io_handle, lines 473-610.  A handle created by the
    library is closed at first. *)
Definition file_open_handle (u : una) (ev : env) (w : world) (s : fstate) (h : handle)
           (flags : Z) : res unit * fstate * world :=
  match fs_handle s with
  | Some _ => (Err, s, w)                                       (* 497-507 *)
  | None =>
      if negb (flag_read flags) && negb (flag_write flags)
      then (Err, s, w)                                          (* 519-530 *)
      else if flag_write flags then (Err, s, w)                 (* 531-541 *)
      else if negb (ev_is_open ev) then (Err, s, w)             (* 550-560, 597-609 *)
      else
        let was_open := match h with User n => w_open w n | Own => false end in
        if negb was_open && negb (ev_open ev) then              (* 561-576 *)
          if fs_opened s                                        (* 597-609 *)
          then (Err, {| fs_io := fs_io s; fs_handle := None;
                        fs_created := fs_created s; fs_opened := false;
                        fs_data := fs_data s |}, bfio_close ev w h)
          else (Err, s, w)
        else
          let opened := negb was_open || fs_opened s in         (* 577 *)
          let w1 := match h with
                    | User n => if was_open then w else set_open w n true
                    | Own => w
                    end in
          let (r, io1) := file_open_read u (ev_reader ev) (fs_io s) (fs_data s) in
          match r with
          | Ok fd =>                                            (* 593-595 *)
              (Ok tt, {| fs_io := io1; fs_handle := Some h;
                         fs_created := fs_created s; fs_opened := opened;
                         fs_data := Some fd |}, w1)
          | Err =>                                              (* 597-609 *)
              if negb was_open && opened
              then (Err, {| fs_io := io1; fs_handle := None;
                            fs_created := fs_created s; fs_opened := false;
                            fs_data := fs_data s |}, bfio_close ev w1 h)
              else (Err, {| fs_io := io1; fs_handle := None;
                            fs_created := fs_created s; fs_opened := opened;
                            fs_data := fs_data s |}, w1)
          | Undef => (Undef, s, w1)
          | NoFuel => (NoFuel, s, w1)
          end
  end.

(** libolecf_file_open, lines 239-349. *)
Definition file_open (u : una) (ev : env) (w : world) (s : fstate) (flags : Z)
  : res unit * fstate * world :=
  let w1 := {| w_open := w_open w; w_own := w_own w + 1 |} in   (* 274-286 *)
  match file_open_handle u ev w1 s Own flags with
  | (Ok tt, s', w') =>
      (Ok tt, {| fs_io := fs_io s'; fs_handle := fs_handle s'; fs_created := true;
                 fs_opened := fs_opened s'; fs_data := fs_data s' |}, w')
  | (r, s', w') => (r, s', {| w_open := w_open w'; w_own := w_own w' - 1 |})
  end.

(** libolecf_file_close, lines 615-800. *)
Definition file_close (ev : env) (w : world) (s : fstate)
  : res unit * fstate * world :=
  match fs_handle s with
  | None => (Err, s, w)                                         (* 636-646 *)
  | Some h =>
      let result := if fs_opened s then if ev_close ev then Ok tt else Err
                    else Ok tt in                               (* 668-684 *)
      let w1 := if fs_opened s then bfio_close ev w h else w in
      let w2 := if fs_created s                                 (* 685-701 *)
                then {| w_open := w_open w1; w_own := w_own w1 - 1 |} else w1 in
      (result, {| fs_io := io_clear; fs_handle := None; fs_created := false;
                  fs_opened := false; fs_data := None |}, w2)
  end.

(** libolecf_file_free, lines 134-195: the result and what is left of the
    world; the object is gone. *)
Definition file_free (ev : env) (w : world) (s : fstate) : res unit * world :=
  match fs_handle s with
  | None => (Ok tt, w)
  | Some _ => match file_close ev w s with (r, _, w') => (r, w') end
  end.

(** libolecf_file_set_ascii_codepage, lines 1369-1429. *)
Definition codepages : list Z :=
  [20127; 874; 932; 936; 949; 950; 1250; 1251; 1252; 1253; 1254; 1255; 1256; 1257; 1258].
Definition file_set_codepage (s : fstate) (codepage : Z) : res unit * fstate :=
  if existsb (Z.eqb codepage) codepages
  then (Ok tt, {| fs_io := io_set_codepage (fs_io s) codepage;
                  fs_handle := fs_handle s; fs_created := fs_created s;
                  fs_opened := fs_opened s; fs_data := fs_data s |})
  else (Err, s).

(** libolecf_file_signal_abort, lines 200-234. *)
Definition file_signal_abort (s : fstate) : fstate :=
  {| fs_io := io_set_abort (fs_io s); fs_handle := fs_handle s;
     fs_created := fs_created s; fs_opened := fs_opened s; fs_data := fs_data s |}.

(** libolecf_file_get_sector_size lines 1194-1251, _get_short_sector_size lines
    1256-1313. *)
Definition get_size32 (n : Z) : res Z := if 4294967295 <? n then Err else Ok n.

Definition file_tree (s : fstate) : option tree :=
  match fs_data s with Some fd => fd_tree fd | None => None end.

(** The fields stream reads use; see [volume] in M_Stream.v. *)
Definition file_volume (s : fstate) : option volume :=
  match fs_data s, io_byte_order (fs_io s) with
  | Some fd, Some e =>
      Some {| v_byte_order := e;
              v_sector_size := io_sector_size (fs_io s);
              v_short_sector_size := io_short_sector_size (fs_io s);
              v_minimum_size := io_minimum_size (fs_io s);
              v_container_start := io_start (fs_io s);
              v_sat := fd_sat fd;
              v_ssat := fd_ssat fd |}
  | _, _ => None
  end.

(** ** Histories of calls
    The calls on the object, and what the caller does with handles of their
    own in between.  A call on the stream of an item names the node and the
    cursor of the item, so that it stands for a call on any item obtained
    before. *)
Inductive file_op :=
| FOpen (flags : Z)
| FOpenHandle (n : nat) (flags : Z)
| FClose
| FSectorSize
| FShortSectorSize
| FFormatVersion
| FGetCodepage
| FSetCodepage (codepage : Z)
| FSignalAbort
| FUnallocatedBlocks
| FRootItem
| FItemByUtf8Path (path : list Z)
| FItemByUtf16Path (path : list Z)
| FSubItems (k : nat)
| FSubItem (k : nat) (index : Z)
| FStream (k : nat) (cursor : Z) (op : item_op)
| UserOpen (n : nat)
| UserClose (n : nat).

Inductive file_result :=
| FDone
| FError
| FValue (v : Z)
| FVersion (major minor : Z)
| FItem (k : option nat)
| FStreamResult (r : item_result) (cursor : Z)
| FUndefined.

Definition result_of (r : res unit) : file_result :=
  match r with Ok _ => FDone | Err => FError | _ => FUndefined end.

Definition value_of (r : res Z) : file_result :=
  match r with Ok v => FValue v | Err => FError | _ => FUndefined end.

Definition item_of (r : res (option nat)) : file_result :=
  match r with Ok k => FItem k | Err => FError | _ => FUndefined end.

(** The byte order that lookups in the tree use. *)
Definition file_endian (s : fstate) : endian :=
  match io_byte_order (fs_io s) with Some e => e | None => Little end.

(** One call.  An item used without a tree is one whose file was closed: its
    node was freed, so that this is undefined. *)
Definition file_step (u : una) (ev : env) (op : file_op) (s : fstate) (w : world)
  : file_result * fstate * world :=
  match op with
  | FOpen flags =>
      match file_open u ev w s flags with (r, s', w') => (result_of r, s', w') end
  | FOpenHandle n flags =>
      match file_open_handle u ev w s (User n) flags with
        (r, s', w') => (result_of r, s', w') end
  | FClose =>
      match file_close ev w s with (r, s', w') => (result_of r, s', w') end
  | FSectorSize => (value_of (get_size32 (io_sector_size (fs_io s))), s, w)
  | FShortSectorSize => (value_of (get_size32 (io_short_sector_size (fs_io s))), s, w)
  | FFormatVersion =>                                           (* 1434-1493 *)
      (FVersion (io_major (fs_io s)) (io_minor (fs_io s)), s, w)
  | FGetCodepage => (FValue (io_codepage (fs_io s)), s, w)      (* 1318-1364 *)
  | FSetCodepage c =>
      let (r, s') := file_set_codepage s c in (result_of r, s', w)
  | FSignalAbort => (FDone, file_signal_abort s, w)
  | FUnallocatedBlocks => (FValue 0, s, w)                      (* 1498-1552 *)
  | FRootItem => (item_of (get_root_item (file_tree s)), s, w)
  | FItemByUtf8Path path =>
      (item_of (item_by_utf8_path u (file_endian s) (file_tree s) path), s, w)
  | FItemByUtf16Path path =>
      (item_of (item_by_utf16_path u (file_endian s) (file_tree s) path), s, w)
  | FSubItems k =>
      match file_tree s with
      | Some t => (value_of (get_number_of_sub_items t k), s, w)
      | None => (FUndefined, s, w)
      end
  | FSubItem k index =>
      match file_tree s with
      | Some t => (item_of (rbind (get_sub_item t k index) (fun j => Ok (Some j))), s, w)
      | None => (FUndefined, s, w)
      end
  | FStream k cursor op =>
      match file_tree s, file_volume s with
      | Some t, Some v =>
          match node_value t k with
          | Ok d => let (r, c) := item_step (ev_reader ev) v d op cursor in
                    (FStreamResult r c, s, w)
          | _ => (FUndefined, s, w)
          end
      | _, _ => (FUndefined, s, w)
      end
  | UserOpen n => (FDone, s, set_open w n true)
  | UserClose n => (FDone, s, set_open w n false)
  end.

Fixpoint file_run (u : una) (h : list (env * file_op)) (s : fstate) (w : world)
  : list file_result * fstate * world :=
  match h with
  | [] => ([], s, w)
  | (ev, op) :: h' =>
      match file_step u ev op s w with
        (r, s1, w1) =>
          match file_run u h' s1 w1 with (rs, s2, w2) => (r :: rs, s2, w2) end
      end
  end.

(** libolecf_check_file_signature_file_io_handle, lines 324-435 of
    libolecf/libolecf_support.c, on a handle of the caller. *)
Definition check_signature_handle (ev : env) (w : world) (n : nat)
  : res bool * world :=
  if negb (ev_is_open ev) then (Err, w)                         (* 349-359 *)
  else if w_open w n then
    (fst (check_signature (ev_reader ev) []), w)
  else if negb (ev_open ev) then (Err, bfio_close ev w (User n)) (* 362-375, 428-433 *)
  else
    let w1 := set_open w n true in
    match fst (check_signature (ev_reader ev) []) with
    | Ok b => if ev_close ev then (Ok b, bfio_close ev w1 (User n)) (* 395-410 *)
              else (Err, bfio_close ev w1 (User n))
    | r => (r, bfio_close ev w1 (User n))
    end.
