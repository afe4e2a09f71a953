(** Model of whole runs of olecfmount: main of olecftools/olecfmount.c, the
    life of the mount handle (olecftools/mount_handle.c lines 41-167 and
    267-359, olecftools/mount_file_system.c lines 50-241 and 285-306) and the
    callback mount_fuse_destroy, over the callbacks of M_Fuse.v and M_Dokan.v
    and the file object of M_File.v.

    Simplified: what is printed to stdout and the backtraces of errors are left
    out.  Of the settings that the tool gives to Dokan only the mount point is
    kept.  The build is one with FUSE of version 2 or 3 and narrow characters,
    one with Dokan, or one with neither.  The options are read as in M_Getopt.v. *)
From Coq Require Import String ZArith List Bool.
From Verif Require Import Base M_Table M_Load M_Stream M_Tree M_Open M_Item M_File M_Mount M_Fuse M_Dokan
  Spec_Tree M_Getopt.
From Verif Require M_Export.
Import ListNotations.
Open Scope Z_scope.

(** What the tool allocates itself or has libolecf or FUSE allocate. *)
Inductive block := BHandle | BFileSystem | BFile | BArguments | BFuse.

Definition block_eq_dec (a b : block) : {a = b} + {a <> b}.
Proof. decide equality. Defined.

(** What the tool does that can be seen: a line on stderr and the calls of FUSE
    or Dokan; the callbacks are called inside of fuse_loop and DokanMain. *)
Inductive action :=
| Message (text : list Z)
| FuseNew (arguments : list (list Z))
| FuseMount (point : list Z)
| Daemonize
| FuseLoop (answers : list fuse_result)
| DokanMain (point : list Z) (answers : list dokan_result).

(** The file system of a mount handle: mounted_timestamp and olecf_file,
    mount_file_system.h.  The ascii_codepage of the handle is written and never
    read, and left out. *)
Record file_system := { fy_time : Z; fy_file : option fstate }.

(** The blocks in use, the handles of libbfio, olecfmount_mount_handle (line
    55) and what it points to, the arguments for FUSE and whether
    olecfmount_fuse_handle is set, the file entries that are allocated, and
    the actions so far. *)
Record tool := {
  tl_live : list block;
  tl_world : world;
  tl_handle : option file_system;
  tl_arguments : list (list Z);
  tl_fuse : bool;
  tl_entries : Z;
  tl_actions : list action
}.

Inductive mount_system := Fuse2 | Fuse3 | Dokan (b : dokan_build) | NoSystem.

(** What the tool runs on.  FUSE calls the callback destroy [mh_destroys] times
    in the end, after all others, no matter whether that is in fuse_loop or in
    fuse_destroy. *)
Record mount_host := {
  mh_locale : bool;                         (* libclocale_initialize *)
  mh_output : bool;                         (* olecftools_output_initialize *)
  mh_memory : block -> bool;                (* whether the block can be allocated *)
  mh_clock : option Z;                      (* the time, in nanoseconds *)
  mh_codepage : list Z -> res bool;         (* libclocale_codepage_copy_from_string *)
  mh_file : list Z -> env;                  (* libbfio, for a file name *)
  mh_una : una;
  mh_codec : codec;
  mh_name : list Z -> endian -> option (list Z);
  mh_add_arg : nat -> bool;                 (* whether the n-th fuse_opt_add_arg succeeds *)
  mh_mount : bool;                          (* fuse_mount *)
  mh_daemonize : bool;
  mh_calls : list (reader * fuse_op);       (* the callbacks in fuse_loop *)
  mh_loop : Z;                              (* the result of fuse_loop *)
  mh_destroys : nat;
  mh_dokan_calls : list (reader * dokan_op);
  mh_dokan_result : Z
}.

(** Computations; [Err] is goto on_error, or -1. *)
Definition tm (A : Type) : Type := tool -> res A * tool.
Definition tret {A} (a : A) : tm A := fun s => (Ok a, s).
Definition tfail {A} : tm A := fun s => (Err, s).
Definition tbind {A B} (m : tm A) (k : A -> tm B) : tm B :=
  fun s => match m s with
           | (Ok a, s') => k a s'
           | (Err, s') => (Err, s')
           | (Undef, s') => (Undef, s')
           | (NoFuel, s') => (NoFuel, s')
           end.
Notation "'dt' x <- m ; k" := (tbind m (fun x => k))
  (at level 200, x pattern, m at level 100, k at level 200).

(** When [m] fails, [f] and then on_error. *)
Definition or_else {A} (m : tm A) (f : tm unit) : tm A :=
  fun s => match m s with
           | (Err, s') => match f s' with
                          | (Ok _, s'') => (Err, s'')
                          | (Err, s'') => (Err, s'')
                          | (Undef, s'') => (Undef, s'')
                          | (NoFuel, s'') => (NoFuel, s'')
                          end
           | r => r
           end.

Definition check (b : bool) : tm unit := if b then tret tt else tfail.

Definition set_live (s : tool) (l : list block) : tool :=
  {| tl_live := l; tl_world := tl_world s; tl_handle := tl_handle s; tl_arguments := tl_arguments s;
     tl_fuse := tl_fuse s; tl_entries := tl_entries s; tl_actions := tl_actions s |}.
Definition set_handle_to (s : tool) (h : option file_system) : tool :=
  {| tl_live := tl_live s; tl_world := tl_world s; tl_handle := h; tl_arguments := tl_arguments s;
     tl_fuse := tl_fuse s; tl_entries := tl_entries s; tl_actions := tl_actions s |}.
Definition set_world (s : tool) (w : world) : tool :=
  {| tl_live := tl_live s; tl_world := w; tl_handle := tl_handle s; tl_arguments := tl_arguments s;
     tl_fuse := tl_fuse s; tl_entries := tl_entries s; tl_actions := tl_actions s |}.
Definition set_arguments (s : tool) (l : list (list Z)) : tool :=
  {| tl_live := tl_live s; tl_world := tl_world s; tl_handle := tl_handle s; tl_arguments := l;
     tl_fuse := tl_fuse s; tl_entries := tl_entries s; tl_actions := tl_actions s |}.
Definition set_fuse (s : tool) (b : bool) : tool :=
  {| tl_live := tl_live s; tl_world := tl_world s; tl_handle := tl_handle s; tl_arguments := tl_arguments s;
     tl_fuse := b; tl_entries := tl_entries s; tl_actions := tl_actions s |}.
Definition set_entries (s : tool) (n : Z) : tool :=
  {| tl_live := tl_live s; tl_world := tl_world s; tl_handle := tl_handle s; tl_arguments := tl_arguments s;
     tl_fuse := tl_fuse s; tl_entries := n; tl_actions := tl_actions s |}.

Definition act (x : action) : tm unit :=
  fun s => (Ok tt, {| tl_live := tl_live s; tl_world := tl_world s; tl_handle := tl_handle s;
                      tl_arguments := tl_arguments s; tl_fuse := tl_fuse s; tl_entries := tl_entries s;
                      tl_actions := tl_actions s ++ [x] |}).
(** fprintf to stderr; the texts end with a newline in the code. *)
Definition message (t : string) : tm unit := act (Message (text_of t)).

Section Run.
Variable ho : mount_host.

(** memory_allocate_structure and the functions that create an object. *)
Definition take (b : block) : tm unit :=
  fun s => if mh_memory ho b then (Ok tt, set_live s (b :: tl_live s)) else (Err, s).
(** memory_free: of a block in use. *)
Definition give (b : block) : tm unit :=
  fun s => if in_dec block_eq_dec b (tl_live s)
           then (Ok tt, set_live s (remove block_eq_dec b (tl_live s)))
           else (Undef, s).

(** ** mount_file_system.c and mount_handle.c *)

(** mount_file_system_initialize, mount_file_system.c lines 50-210. *)
Definition file_system_initialize : tm file_system :=
  dt _ <- take BFileSystem;
  match mh_clock ho with
  | Some time => tret {| fy_time := time; fy_file := None |}
  | None => dt _ <- give BFileSystem; tfail                     (* 201-209 *)
  end.

(** mount_handle_initialize, mount_handle.c lines 41-123. *)
Definition handle_initialize : tm unit :=
  fun s =>
    match tl_handle s with
    | Some _ => (Err, s)                                        (* 58-68 *)
    | None =>
        (dt _ <- take BHandle;
         dt f <- or_else file_system_initialize (give BHandle); (* 114-122 *)
         fun s => (Ok tt, set_handle_to s (Some f))) s
    end.

(** mount_handle_free, mount_handle.c lines 128-167, with mount_file_system_free
    (mount_file_system.c lines 215-241), of olecfmount_mount_handle. *)
Definition handle_free : tm unit :=
  fun s =>
    match tl_handle s with
    | None => (Ok tt, s)
    | Some _ =>
        (dt _ <- give BFileSystem;
         dt _ <- give BHandle;
         fun s => (Ok tt, set_handle_to s None)) s
    end.

(** mount_handle_open, mount_handle.c lines 267-359; the flags are
    LIBOLECF_OPEN_READ. *)
Definition handle_open (name : list Z) : tm unit :=
  fun s =>
    match tl_handle s with
    | None => (Err, s)                                          (* 276-286 *)
    | Some f =>
        (dt _ <- take BFile;                                    (* 298-310 *)
         fun s =>
           match file_open (mh_una ho) (mh_file ho name) (tl_world s) new_file 1 with
           | (Ok _, x, w) =>                                    (* 335-347 *)
               (Ok tt, set_handle_to (set_world s w) (Some {| fy_time := fy_time f; fy_file := Some x |}))
           | (Err, x, w) =>                                     (* 324-334, 351-358 *)
               (dt _ <- give BFile; tfail) (set_world s (snd (file_free (mh_file ho name) w x)))
           | (Undef, _, w) => (Undef, set_world s w)
           | (NoFuel, _, w) => (NoFuel, set_world s w)
           end) s
    end.

(** What the callbacks see of the handle; there is no volume or tree without an
    open file. *)
Definition mounted_by (s : tool) : option mounted :=
  match tl_handle s with
  | Some f =>
      match fy_file f with
      | Some x =>
          match file_volume x with
          | Some v => Some {| mt_una := mh_una ho; mt_codec := mh_codec ho; mt_name := mh_name ho;
                              mt_volume := v; mt_tree := file_tree x; mt_time := fy_time f |}
          | None => None
          end
      | None => None
      end
  | None => None
  end.

(** ** olecfmount.c *)

(** mount_fuse_destroy, mount_fuse.c lines 1306-1349. *)
Fixpoint destroy_callbacks (n : nat) : tm unit :=
  match n with
  | O => tret tt
  | S n => dt _ <- handle_free; destroy_callbacks n
  end.

(** fuse_opt_add_arg, which copies the arguments there are when it is called
    for the first time. *)
Definition add_arg (n : nat) (a : list Z) : tm unit :=
  fun s =>
    if mh_add_arg ho n then
      let s := if in_dec block_eq_dec BArguments (tl_live s) then s else set_live s (BArguments :: tl_live s) in
      (Ok tt, set_arguments s (tl_arguments s ++ [a]))
    else (Err, s).
(** fuse_opt_free_args: nothing if nothing was allocated. *)
Definition free_args : tm unit :=
  fun s => if in_dec block_eq_dec BArguments (tl_live s)
           then (dt _ <- give BArguments; fun s => (Ok tt, set_arguments s [])) s
           else (Ok tt, set_arguments s []).

Definition fuse_new : tm unit :=
  dt _ <- (fun s => act (FuseNew (tl_arguments s)) s);
  dt _ <- take BFuse;
  fun s => (Ok tt, set_fuse s true).
Definition fuse_mount (point : list Z) : tm unit :=
  dt _ <- act (FuseMount point);
  check (mh_mount ho).
Definition fuse_destroy : tm unit :=
  dt _ <- destroy_callbacks (mh_destroys ho);
  dt _ <- give BFuse;
  fun s => (Ok tt, set_fuse s false).

(** fuse_loop: the callbacks one after the other; [Ok] is the result 0. *)
Definition fuse_loop : tm unit :=
  fun s =>
    match mounted_by s with
    | None => (Undef, s)
    | Some m =>
        let (rs, u) := fuse_run m (mh_calls ho) fuse_start in
        (dt _ <- act (FuseLoop rs); check (mh_loop ho =? 0)) (set_entries s (fu_live u))
    end.

(** Lines 322-460: FUSE. *)
Definition run_fuse (three : bool) (st : settings) : tm bool :=
  dt _ <- (fun s => (Ok tt, set_arguments s (if three then [text_of "olecfmount"] else [])));  (* 149-159 *)
  dt _ <- match st_extended st with
          | None => tret tt
          | Some x =>
              or_else (dt _ <- add_arg 0 []; dt _ <- add_arg 1 (text_of "-o"); add_arg 2 x)
                      (message "Unable add fuse arguments.")
          end;
  dt _ <- (if three then
             dt _ <- or_else fuse_new (message "Unable to create fuse handle.");
             or_else (fuse_mount (st_mount_point st)) (message "Unable to fuse mount file system.")
           else
             dt _ <- or_else (fuse_mount (st_mount_point st)) (message "Unable to create fuse channel.");
             or_else fuse_new (message "Unable to create fuse handle."));
  dt _ <- (if st_verbose st then tret tt
           else dt _ <- act Daemonize;
                or_else (check (mh_daemonize ho)) (message "Unable to daemonize fuse."));
  dt _ <- or_else fuse_loop (message "Unable to run fuse loop.");
  dt _ <- fuse_destroy;
  dt _ <- free_args;
  tret true.

(** Lines 573-622: the line for a result of DokanMain; dokan.h numbers the
    errors from -1 to -6. *)
Definition dokan_message (r : Z) : option (list Z) :=
  let say t := Some (text_of "Unable to run dokan main: " ++ text_of t) in
  if r =? 0 then None
  else if r =? -1 then say "generic error"%string
  else if r =? -2 then say "bad drive letter"%string
  else if r =? -3 then say "unable to load driver"%string
  else if r =? -4 then say "driver error"%string
  else if r =? -5 then say "unable to assign drive letter"%string
  else if r =? -6 then say "mount point error"%string
  else Some (text_of "Unable to run dokan main: unknown error: " ++
             (if r <? 0 then [45] else []) ++ M_Export.decimal 10 (Z.abs r)).

(** Lines 462-624: Dokan. *)
Definition run_dokan (b : dokan_build) (st : settings) : tm bool :=
  fun s =>
    match mounted_by s with
    | None => (Undef, s)
    | Some m =>
        let (rs, u) := dokan_run b m (mh_dokan_calls ho) dokan_start in
        (dt _ <- act (DokanMain (st_mount_point st) rs);
         dt _ <- match dokan_message (mh_dokan_result ho) with
                 | Some t => act (Message t)
                 | None => tret tt
                 end;
         tret true) (set_entries s (dk_live u))
    end.

(** Lines 279-633: after the options, up to on_error. *)
Definition mount_body (sys : mount_system) (st : settings) : tm bool :=
  dt _ <- or_else handle_initialize (message "Unable to initialize mount handle.");
  dt _ <- match st_codepage st with
          | None => tret tt
          | Some c =>
              dt b <- or_else (fun s => (mh_codepage ho c, s)) (message "Unable to set ASCII codepage in mount handle.");
              if b then tret tt else message "Unsupported ASCII codepage defaulting to: windows-1252."
          end;
  dt _ <- or_else (handle_open (st_source st)) (message "Unable to open source file");
  match sys with
  | Fuse2 => run_fuse false st
  | Fuse3 => run_fuse true st
  | Dokan b => run_dokan b st
  | NoSystem =>
      dt _ <- message "No sub system to mount Object Linking and Embedding (OLE) Compound File (CF) format.";
      tret false
  end.

(** Lines 635-659: on_error.  Without FUSE there is no fuse handle and there
    are no arguments. *)
Definition on_error_exit : tm bool :=
  dt _ <- (fun s => if tl_fuse s then fuse_destroy s else (Ok tt, s));
  dt _ <- free_args;
  dt _ <- handle_free;
  tret false.

Definition with_on_error (m : tm bool) : tm bool :=
  fun s => match m s with
           | (Err, s') => on_error_exit s'
           | r => r
           end.

Definition mount_start (sys : mount_system) (st : settings) : tm bool := with_on_error (mount_body sys st).

(** main, lines 129-660; true is EXIT_SUCCESS. *)
Definition mount_main (sys : mount_system) (fuel : nat) (argv : list (list Z)) : tm bool :=
  with_on_error
    (dt _ <- or_else (check (mh_locale ho)) (message "Unable to initialize locale values.");
     dt _ <- or_else (check (mh_output ho)) (message "Unable to initialize output settings.");
     dt r <- (fun s => (mount_options fuel argv, s));
     match r with
     | Usage ok _ => tret ok
     | Copyright => tret true
     | Start st => mount_body sys st
     end).

End Run.

(** The state when main begins. *)
Definition tool_start (w : world) : tool :=
  {| tl_live := []; tl_world := w; tl_handle := None; tl_arguments := []; tl_fuse := false;
     tl_entries := 0; tl_actions := [] |}.
