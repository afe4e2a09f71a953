(** What a run of olecfmount should do. *)
From Coq Require Import String ZArith List Bool.
From Verif Require Import Base Spec_IO M_Table M_Load M_Stream M_Tree M_Open M_Item M_File M_Mount M_Fuse M_Dokan
  Spec_Tree M_Getopt M_MountTool.
Import ListNotations.
Open Scope Z_scope.

(** Libraries: libuna and libbfio as elsewhere, and libclocale gives an
    answer. *)
Record host_ok (ho : mount_host) : Prop := {
  hk_una : una_ok (mh_una ho);
  hk_bytes : forall name, io_bytes (ev_reader (mh_file ho name));
  hk_codepage : forall c, mh_codepage ho c = Err \/ exists b, mh_codepage ho c = Ok b
}.

(** The source can be opened and holds what [o] says. *)
Definition source_opens (ho : mount_host) (name : list Z) (o : opened) : Prop :=
  mh_memory ho BFile = true /\ ev_is_open (mh_file ho name) = true /\ ev_open (mh_file ho name) = true /\
  exists t, open_read (mh_una ho) (ev_reader (mh_file ho name)) [] = (Ok o, t).

(** There is memory and a time for the handle, and the codepage is no error. *)
Definition handle_made (ho : mount_host) (st : settings) (time : Z) : Prop :=
  mh_memory ho BHandle = true /\ mh_memory ho BFileSystem = true /\ mh_clock ho = Some time /\
  forall c, st_codepage st = Some c -> mh_codepage ho c <> Err.

(** FUSE does what is asked of it before the loop. *)
Definition fuse_starts (ho : mount_host) (st : settings) : Prop :=
  (st_extended st <> None -> mh_add_arg ho 0 = true /\ mh_add_arg ho 1 = true /\ mh_add_arg ho 2 = true) /\
  mh_memory ho BFuse = true /\ mh_mount ho = true /\ (st_verbose st = false -> mh_daemonize ho = true).

(** The loop is reached, with this file and this time of mounting. *)
Definition serving (ho : mount_host) (st : settings) (o : opened) (time : Z) : Prop :=
  handle_made ho st time /\ source_opens ho (st_source st) o /\ fuse_starts ho st.

(** What the callbacks see. *)
Definition served (ho : mount_host) (o : opened) (time : Z) : mounted :=
  {| mt_una := mh_una ho; mt_codec := mh_codec ho; mt_name := mh_name ho;
     mt_volume := opened_volume o; mt_tree := o_tree o; mt_time := time |}.

(** The warning for an unknown codepage, and other lines. *)
Definition unknown_codepage : action :=
  Message (text_of "Unsupported ASCII codepage defaulting to: windows-1252.").
Definition warnings (ho : mount_host) (st : settings) : list action :=
  match st_codepage st with
  | Some c => match mh_codepage ho c with Ok false => [unknown_codepage] | _ => [] end
  | None => []
  end.

(** The words that FUSE gets. *)
Definition fuse_words (three : bool) (st : settings) : list (list Z) :=
  (if three then [text_of "olecfmount"] else []) ++
  match st_extended st with Some x => [[]; text_of "-o"; x] | None => [] end.

(** Everything that a run does that reaches the loop. *)
Definition fuse_actions (ho : mount_host) (three : bool) (st : settings) (answers : list fuse_result) : list action :=
  warnings ho st ++
  (if three then [FuseNew (fuse_words three st); FuseMount (st_mount_point st)]
   else [FuseMount (st_mount_point st); FuseNew (fuse_words three st)]) ++
  (if st_verbose st then [] else [Daemonize]) ++
  [FuseLoop answers] ++
  (if mh_loop ho =? 0 then [] else [Message (text_of "Unable to run fuse loop.")]).

Definition is_message (x : action) : Prop := match x with Message _ => True | _ => False end.
Definition calls_back (x : action) : Prop :=
  match x with FuseLoop _ | DokanMain _ _ => True | _ => False end.

Definition fuse_build (three : bool) : mount_system := if three then Fuse3 else Fuse2.

Definition with_codepage (st : settings) (c : option (list Z)) : settings :=
  {| st_allocation := st_allocation st; st_codepage := c; st_log := st_log st; st_target := st_target st;
     st_extended := st_extended st; st_verbose := st_verbose st; st_source := st_source st;
     st_mount_point := st_mount_point st |}.
