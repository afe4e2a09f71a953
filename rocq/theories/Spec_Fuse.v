(** What a mounted file should look like. *)
From Coq Require Import ZArith List Bool.
From Verif Require Import Base Spec_IO M_Table M_Load M_Stream M_Tree M_Open M_Item M_Mount M_Fuse
  Spec_Stream Spec_Tree Spec_Item Spec_Content Spec_Mount.
Import ListNotations.
Open Scope Z_scope.

(** The time [t] in nanoseconds as seconds and nanoseconds of the same sign. *)
Definition same_sign (t : Z) (x : Z * Z) : Prop :=
  t = fst x * 1000000000 + snd x /\ Z.abs (snd x) < 1000000000 /\ 0 <= t * snd x.

(** Nanoseconds since 1970 of a FILETIME; 0 stands for no time. *)
Definition unix_time (filetime : Z) : Z :=
  if filetime =? 0 then 0 else (filetime - 116444736000000000) * 100.

Definition fits (x : Z) : Prop := - 9223372036854775808 <= x < 9223372036854775808.

(** What an entry says about its item: a directory (040555) or a file
    (0100444), the size, the time of the mount, and the modification time. *)
Record describes (mounted_at : Z) (d : dirent) (s : stat) : Prop := {
  ds_size : st_size s = de_size d;
  ds_directory : de_type d = 1 \/ de_type d = 5 -> st_mode s = 16749 /\ st_nlink s = 2;
  ds_file : de_type d <> 1 -> de_type d <> 5 -> st_mode s = 33060 /\ st_nlink s = 1;
  ds_atime : same_sign mounted_at (st_atime s);
  ds_ctime : same_sign mounted_at (st_ctime s);
  ds_mtime : same_sign (unix_time (de_mtime d)) (st_mtime s)
}.

(** The stat structure that is given for "..". *)
Definition stat_zero : stat :=
  {| st_size := 0; st_mode := 0; st_nlink := 1; st_atime := (0, 0); st_ctime := (0, 0);
     st_mtime := (0, 0) |}.

(** The functions of libuna agree with each other, and the clock was set. *)
Record mount_ok (m : mounted) : Prop := {
  mo_codec : codec_ok (mt_codec m);
  mo_char : una_utf8_char (mt_una m) = cd_decode (mt_codec m);
  mo_time : 0 <= mt_time m < 9223372036854775808
}.

(** Values of an entry are in range; C35 and C50 prove it of opened files. *)
Definition entry_ok (d : dirent) : Prop :=
  is_u32 (de_size d) /\ 0 <= de_mtime d < 18446744073709551616.

(** The text of a path below the mount point. *)
Definition mount_path (fs : list (list Z)) : list Z :=
  match fs with [] => [47] | _ => path_of 47 fs end.

(** [fs] are the file names of the item names [ns], the texts [css], none of
    which has a backslash. *)
Definition file_names_of (m : mounted) (css ns fs : list (list Z)) : Prop :=
  Forall2 (text (mt_codec m)) css ns /\
  Forall (fun cs => cs <> [] /\ Forall (fun c => c <> 0 /\ c <> 92) cs) css /\
  Forall2 (fun n f => mount_file_name (mt_codec m) n = Ok f) ns fs /\
  zlen (mount_path fs) < SSIZE_MAX.

(** The names lead from the root to the item [k], to nothing, or to a name
    that cannot be compared. *)
Definition walk (m : mounted) (t : tree) (ns : list (list Z)) : res (option nat) :=
  lookup_names (sub_node_by_utf8_name (mt_una m) (v_byte_order (mt_volume m)) t) 0 ns.

(** The listing of a directory: itself, a blank line for its parent, and its
    sub items in order with the file names of their names. *)
Definition lists (m : mounted) (t : tree) (j : nat) (x : list Z * stat) : Prop :=
  exists d n f,
    item_entry t j d /\ mt_name m (de_name d) (v_byte_order (mt_volume m)) = Some n /\
    mount_file_name (mt_codec m) n = Ok f /\ fst x = c_string f /\
    fits (unix_time (de_mtime d)) /\ describes (mt_time m) d (snd x).

Definition full_listing (m : mounted) (t : tree) (k : nat) (l : listing) : Prop :=
  exists nd s0 rest,
    nth_error (tr_nodes t) k = Some nd /\
    l = ([46], s0) :: ([46; 46], stat_zero) :: rest /\
    fits (unix_time (de_mtime (n_entry nd))) /\ describes (mt_time m) (n_entry nd) s0 /\
    Forall2 (lists m t) (n_subs nd) rest.

(** Reading an open file as a program does: one call after the other, until a
    call gives nothing. *)
Fixpoint cat (fuel : nat) (read : file_entry -> Z -> reply (list Z) * file_entry)
         (f : file_entry) (offset : Z) : option (list Z) :=
  match fuel with
  | O => None
  | S fuel' =>
      match read f offset with
      | (Done [], _) => Some []
      | (Done l, f') => option_map (app l) (cat fuel' read f' (offset + zlen l))
      | _ => None
      end
  end.

(** The number of open handles. *)
Definition open_handles (s : fuse_state) : Z :=
  zlen (filter (fun x => match x with Some _ => true | None => false end) (fu_handles s)).

(** The number of directories that were closed in a history. *)
Fixpoint closed_directories (m : mounted) (h : list (reader * fuse_op)) (s : fuse_state) : Z :=
  match h with
  | [] => 0
  | (rd, op) :: h' =>
      (match op with
       | FuReleasedir k => match nth_error (fu_handles s) k with Some (Some _) => 1 | _ => 0 end
       | _ => 0
       end) + closed_directories m h' (snd (fuse_step rd m op s))
  end.

(** No call of the history closes the handle [k]. *)
Definition keeps_open (k : nat) (h : list (reader * fuse_op)) : Prop :=
  Forall (fun x => snd x <> FuRelease k /\ snd x <> FuReleasedir k) h.

(** [m] is the mount of an opened file. *)
Definition mount_of (m : mounted) (o : opened) (rd : reader) (t : trace) : Prop :=
  mount_ok m /\ una_ok (mt_una m) /\ io_bytes rd /\ open_read (mt_una m) rd [] = (Ok o, t) /\
  mt_volume m = opened_volume o /\ mt_tree m = o_tree o.

(** The calls of a history are on handles that FUSE has, and with sizes that
    the number of sectors of a stream allows. *)
Fixpoint proper (m : mounted) (h : list (reader * fuse_op)) (s : fuse_state) : Prop :=
  match h with
  | [] => True
  | (rd, op) :: h' =>
      (match op with
       | FuRead k size _ =>
           (k < length (fu_handles s))%nat /\ 0 <= size /\
           (4 <= v_short_sector_size (mt_volume m) \/ size <= 1073741824)
       | FuRelease k | FuReaddir k _ | FuReleasedir k => (k < length (fu_handles s))%nat
       | FuGetattr _ | FuOpen _ _ | FuOpendir _ => True
       end) /\ proper m h' (snd (fuse_step rd m op s))
  end.
