(** What a mounted file should look like on Windows. *)
From Coq Require Import ZArith List Bool.
From Verif Require Import Base Spec_IO M_Table M_Load M_Stream M_Tree M_Open M_Item M_Mount M_WMount M_Fuse M_Dokan
  Spec_Stream Spec_Tree Spec_Item Spec_Content Spec_Mount Spec_WMount.
Import ListNotations.
Open Scope Z_scope.

(** The functions of libuna agree with each other, and the clock was set. *)
Record wmount_ok (m : mounted) : Prop := {
  wo_codec : codec_ok (mt_codec m);
  wo_char : una_utf16_char (mt_una m) = cd_decode (mt_codec m);
  wo_time : 0 <= mt_time m < 18446744073709551616
}.

(** Values of an entry are in range; C35 proves it of opened files. *)
Definition wentry_ok (d : dirent) : Prop :=
  is_u32 (de_size d) /\ 0 <= de_ctime d < 18446744073709551616 /\ 0 <= de_mtime d < 18446744073709551616.

(** A path below the mount point. *)
Definition wmount_path (fs : list (list Z)) : list Z :=
  match fs with [] => [92] | _ => path_of 92 fs end.

(** [fs] are the file names of the item names [ns], the texts [css], none of
    which has a backslash. *)
Definition wfile_names_of (m : mounted) (css ns fs : list (list Z)) : Prop :=
  Forall2 (text (mt_codec m)) css ns /\
  Forall (fun cs => cs <> [] /\ Forall (fun c => c <> 0 /\ c <> 92) cs) css /\
  Forall2 (fun n f => wmount_file_name (mt_codec m) n = Ok f) ns fs /\
  zlen (wmount_path fs) < SSIZE_MAX / 2.

(** The names lead from the root to the item [k], to nothing, or to a name
    that cannot be compared. *)
Definition wwalk (m : mounted) (t : tree) (ns : list (list Z)) : res (option nat) :=
  lookup_names (sub_node_by_utf16_name (mt_una m) (v_byte_order (mt_volume m)) t) 0 ns.

(** [x] are the low and the high half of a 64-bit value. *)
Definition halves (v : Z) (x : Z * Z) : Prop :=
  is_u32 (fst x) /\ is_u32 (snd x) /\ v = fst x + 4294967296 * snd x.

(** FILE_ATTRIBUTE_DIRECTORY for storages and the root, otherwise
    FILE_ATTRIBUTE_NORMAL. *)
Definition attributes_of (d : dirent) (a : Z) : Prop :=
  (de_type d = 1 \/ de_type d = 5 -> a = 16) /\ (de_type d <> 1 -> de_type d <> 5 -> a = 128).

(** The information on an item, in a structure that held [before]: an item
    without data leaves the size that was there. *)
Record informs (mounted_at : Z) (d : dirent) (before i : information) : Prop := {
  if_attributes : attributes_of d (in_attributes i);
  if_created : halves (de_ctime d) (in_created i);
  if_accessed : halves mounted_at (in_accessed i);
  if_written : halves (de_mtime d) (in_written i);
  if_size : de_size d <> 0 -> halves (de_size d) (in_size i);
  if_no_size : de_size d = 0 -> in_size i = in_size before;
  if_others : in_serial_number i = in_serial_number before /\ in_links i = in_links before /\
              in_index i = in_index before
}.

(** The entry of a listing. *)
Record find_describes (mounted_at : Z) (d : dirent) (name short : list Z) (x : find_data) : Prop := {
  fs_attributes : attributes_of d (fd_attributes x);
  fs_created : halves (de_ctime d) (fd_created x);
  fs_accessed : halves mounted_at (fd_accessed x);
  fs_written : halves (de_mtime d) (fd_written x);
  fs_size : halves (de_size d) (fd_size x);
  fs_name : fd_name x = name;
  fs_short : fd_short_name x = short
}.

(** What is listed for "..": no directory, and no times. *)
Definition dots_entry : find_data :=
  {| fd_attributes := 128; fd_created := (0, 0); fd_accessed := (0, 0); fd_written := (0, 0); fd_size := (0, 0);
     fd_name := [46; 46]; fd_short_name := [46; 46] |}.

(** The name of an item in UTF-16, and its file name. *)
Definition named_item (m : mounted) (t : tree) (j : nat) (d : dirent) (n f : list Z) : Prop :=
  item_entry t j d /\ mt_name m (de_name d) (v_byte_order (mt_volume m)) = Some n /\
  wmount_file_name (mt_codec m) n = Ok f.

(** The entry of the sub item [j]: its name has at most 25 units, and is
    repeated as short name if it has one unit. *)
Definition find_lists (m : mounted) (t : tree) (j : nat) (x : find_data) : Prop :=
  exists d n f, named_item m t j d n f /\ zlen n <= 25 /\
    find_describes (mt_time m) d (c_string f) (if zlen n =? 1 then c_string f else []) x.

(** The listing of the item [k]: itself, a line for its parent, and its sub
    items in order. *)
Definition full_find (m : mounted) (t : tree) (k : nat) (l : find_listing) : Prop :=
  exists nd x rest,
    nth_error (tr_nodes t) k = Some nd /\ l = x :: dots_entry :: rest /\
    find_describes (mt_time m) (n_entry nd) [46] [46] x /\
    Forall2 (find_lists m t) (n_subs nd) rest.

(** [m] is the mount of an opened file. *)
Definition wmount_of (m : mounted) (o : opened) (rd : reader) (t : trace) : Prop :=
  wmount_ok m /\ una_ok (mt_una m) /\ io_bytes rd /\ open_read (mt_una m) rd [] = (Ok o, t) /\
  mt_volume m = opened_volume o /\ mt_tree m = o_tree o.

(** Every item that has a name has one of at most 25 units. *)
Definition short_names (m : mounted) (t : tree) : Prop :=
  forall j d n, item_entry t j d -> mt_name m (de_name d) (v_byte_order (mt_volume m)) = Some n -> zlen n <= 25.

(** The reads of a history are of sizes that the number of sectors of a stream
    allows. *)
Definition wproper (m : mounted) (h : list (reader * dokan_op)) : Prop :=
  Forall (fun x => match snd x with
                   | DkRead _ size _ => 0 <= size /\ (4 <= v_short_sector_size (mt_volume m) \/ size <= 1073741824)
                   | _ => True
                   end) h.

(** The numbers of the files of a history are below [n]. *)
Definition files_below (n : nat) (h : list (reader * dokan_op)) : Prop :=
  Forall (fun x => match snd x with
                   | DkCreate k _ _ _ | DkOpenDirectory k _ | DkClose k | DkRead k _ _ => (k < n)%nat
                   | _ => True
                   end) h.

(** The number of files below [n] that are open. *)
Fixpoint open_files (c : nat -> option file_entry) (n : nat) : Z :=
  match n with
  | O => 0
  | S n' => (if c n' then 1 else 0) + open_files c n'
  end.

(** No call of the history closes the file [k]. *)
Definition wkeeps_open (k : nat) (h : list (reader * dokan_op)) : Prop :=
  Forall (fun x => snd x <> DkClose k) h.
