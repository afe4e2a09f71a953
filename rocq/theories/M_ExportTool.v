(** Model of whole runs of olecfexport: main of olecftools/olecfexport.c, what
    export_handle.c does before the export, log_handle.c, and the lines that
    are written to the log, in a build with narrow system characters and / as
    separator of paths.

    Simplified as in M_Export; what is printed to the terminal is left out.
    The log is written to its file when that is closed.  The source is read
    through its own reader: a log that is appended to the source (which the
    tool does not prevent) does not change what is read.  Relative paths begin
    at a directory that is a parameter; libcpath_path_get_full_path, lines
    335-347 of export_handle.c, also resolves . and .. in the target, which is
    left out. *)
From Coq Require Import String ZArith List Bool.
From Verif Require Import Base M_Table M_Load M_Stream M_Tree M_Open M_Item M_Mount M_Export Spec_Tree M_Getopt.
Import ListNotations.
Open Scope Z_scope.

(** ** The log *)

(** The lines of export_handle.c: 807-812, 1005-1008, 1078-1081 and 1557-1560,
    1149-1152, 1486-1489. *)
Inductive log_line :=
| Processing (index : Z) (path : list Z)
| Defaulting (name : list Z)
| Created (path : list Z)
| Skipping (path : list Z)
| Unable (number : Z).

(** The text of a number as %05d prints it, and as %d does; not negative. *)
Definition five_digits (n : Z) : list Z :=
  let ds := decimal 10 n in repeat 48 (5 - List.length ds) ++ ds.
Definition line_text (x : log_line) : list Z :=
  match x with
  | Processing index path =>
      text_of "Processing item: " ++ five_digits index ++ text_of " in path: " ++ path ++ [SLASH; 10]
  | Defaulting name => text_of "Item already exists defaulting to: " ++ name ++ [10]
  | Created path => text_of "Created directory: " ++ path ++ text_of "." ++ [10]
  | Skipping path => text_of "Skipping item: " ++ path ++ text_of " it already exists." ++ [10]
  | Unable number => text_of "Unable to export sub item: " ++ decimal 10 number ++ text_of "." ++ [10]
  end.

(** Computations that write to the log. *)
Definition lio (A : Type) := xstate -> res A * xstate * list log_line.
Definition quiet {A} (m : xio A) : lio A := fun w => (m w, []).
Definition say (x : log_line) : lio unit := fun w => (Ok tt, w, [x]).
Definition lbind {A B} (m : lio A) (k : A -> lio B) : lio B :=
  fun w => match m w with
           | (Ok a, w', l) => let (r, l') := k a w' in (r, l ++ l')
           | (Err, w', l) => (Err, w', l)
           | (Undef, w', l) => (Undef, w', l)
           | (NoFuel, w', l) => (NoFuel, w', l)
           end.

Notation "'dl' x <- m ; k" := (lbind m (fun x => k))
  (at level 200, x pattern, m at level 100, k at level 200).

Section Export.
Variable ho : host.
Variable rd : reader.
Variable v : volume.
Variable t : tree.

(** As in M_Export, with the log. *)
Definition choose_name_log (d : dirent) (index : Z) (dir : list Z) : lio (list Z) :=
  match ho_name ho (de_name d) (v_byte_order v) with
  | None => quiet (xlift Err)
  | Some raw =>
      match ho_sanitize ho raw with
      | None => quiet (xlift Err)
      | Some name =>
          dl there <- quiet (file_exists ho dir name);
          if there then
            dl name <- quiet (xlift (item_name_again (zlen name + 1) index));
            dl _ <- say (Defaulting name);
            quiet (xret name)
          else quiet (xret name)
      end
  end.

Fixpoint sub_items_loop_log (one : nat -> Z -> list Z -> lio unit) (index : Z) (subs : list nat)
         (dir : list Z) : lio unit :=
  match subs with
  | [] => quiet (xret tt)
  | k :: subs =>
      fun w =>
        match one k index dir w with
        | (Ok _, w', l) =>
            let (r, l') := sub_items_loop_log one (index + 1) subs dir w' in (r, l ++ l')
        | (Err, w', l) =>
            let (r, l') := sub_items_loop_log one (index + 1) subs dir w' in (r, l ++ Unable (index + 1) :: l')
        | r => r
        end
  end.

Fixpoint export_item_log (fuel : nat) (k : nat) (index : Z) (dir : list Z) : lio unit :=
  match fuel with
  | O => quiet (xlift NoFuel)
  | S fuel =>
      dl d <- quiet (xlift (node_value t k));
      dl _ <- say (Processing index dir);
      dl name <- choose_name_log d index dir;
      dl _ <- quiet (make_directory ho dir name);
      let path := path_join dir name in
      dl _ <- say (Created path);
      dl there <- quiet (file_exists ho path stream_data_name);
      let target := path_join path stream_data_name in
      if there then say (Skipping target)
      else
        dl _ <- quiet (open_write ho target);
        dl _ <- quiet (if 0 <? de_size d
                       then copy_loop ho rd v (Z.to_nat (de_size d / BUFFER_SIZE) + 2) d target 0 (de_size d)
                       else xret tt);
        dl _ <- quiet (close_file ho);
        dl subs <- quiet (xlift (sub_nodes t k));
        sub_items_loop_log (export_item_log fuel) 0 subs path
  end.

Definition export_sub_items_log (k : nat) (dir : list Z) : lio unit :=
  dl subs <- quiet (xlift (sub_nodes t k));
  sub_items_loop_log (export_item_log (List.length (tr_nodes t))) 0 subs dir.

End Export.

(** export_handle_export_file, lines 1512-1622. *)
Definition export_file_log (ho : host) (rd : reader) (v : volume) (o : option tree) (p n : list Z) : lio unit :=
  dl _ <- quiet (make_directory ho p n);
  dl _ <- say (Created (path_join p n));
  match o with
  | None => quiet (xret tt)
  | Some t => export_sub_items_log ho rd v t O (path_join p n)
  end.

(** ** olecfexport.c *)

(** What the tool runs on: the host, the directory where relative paths begin,
    the conversion of names of libuna, the readers of the files, and
    libclocale_codepage_copy_from_string (Ok false: not supported). *)
Record machine := {
  ma_host : host;
  ma_here : list Z;
  ma_una : una;
  ma_reader : list Z -> reader;
  ma_codepage : list Z -> res bool
}.

(** A path from the root. *)
Definition full_path (m : machine) (p : list Z) : list Z :=
  match p with
  | c :: _ => if c =? SLASH then p else path_join (ma_here m) p
  | [] => path_join (ma_here m) p
  end.

(** A path and its last name. *)
Fixpoint split_last (l : list Z) : list Z * list Z :=
  match l with
  | [] => ([], [])
  | c :: r =>
      if existsb (Z.eqb SLASH) r then let (p, n) := split_last r in (c :: p, n)
      else if c =? SLASH then ([], r)
      else ([], l)
  end.

(** ".export", export_handle.c lines 592-655 and 432-587; the target of length
    0 is a null pointer, lines 287-427, which is an error. *)
Definition items_export_path (target : list Z) : res (list Z) :=
  match target with
  | [] => Err
  | _ => Ok (target ++ text_of ".export")
  end.

(** log_handle_open, log_handle.c lines 145-187: a file that exists is
    appended to.  Directories cannot be opened. *)
Definition log_open (m : machine) (name : option (list Z)) : xio unit :=
  match name with
  | None => xret tt
  | Some f =>
      let f := full_path m f in
      call (ma_host m) (fun s fault =>
        match fault, on_disk s f with
        | Some _, _ | _, Some Directory => (Err, s)
        | None, Some (Data _) => (Ok tt, s)
        | None, None => (Ok tt, (f, Data []) :: s)
        end)
  end.

(** file_stream_close of the log, log_handle.c lines 192-226, which writes the
    text. *)
Definition log_close (m : machine) (name : option (list Z)) (text : list Z) : xio unit :=
  match name with
  | None => xret tt
  | Some f => write_buffer (ma_host m) (full_path m f) text
  end.

(** Lines 284-333: the directory is chosen before the log is opened. *)
Definition prepare (m : machine) (s : settings) : xio (list Z * list Z) :=
  match st_target s with
  | None => xlift Err
  | Some target =>
      dx e <- xlift (items_export_path target);
      let (p, n) := split_last (full_path m e) in
      dx there <- file_exists (ma_host m) p n;
      if there then xlift Err
      else
        dx _ <- log_open m (st_log s);
        xret (p, n)
  end.

(** Lines 334-387: the codepage, the source and the export. *)
Definition work (m : machine) (s : settings) (p n : list Z) : lio unit :=
  dl _ <- quiet (match st_codepage s with
                 | None => xret tt
                 | Some c => dx _ <- xlift (ma_codepage m c); xret tt
                 end);
  let rd := ma_reader m (full_path m (st_source s)) in
  dl o <- quiet (fun w =>
                   let (r, tr) := open_read (ma_una m) rd (x_trace w) in
                   (r, {| x_disk := x_disk w; x_calls := x_calls w; x_trace := tr |}));
  export_file_log (ma_host m) rd (opened_volume o) (o_tree o) p n.

(** Lines 264-428: Ok is EXIT_SUCCESS, Err is EXIT_FAILURE.  Closing and
    freeing the input file does not fail.  When closing the log fails, the log
    stream is kept and closed once more, lines 421-423 and 441-446, which is
    undefined; when that is the first time (after another error) it is not. *)
Definition export_start_run (m : machine) (s : settings) : lio unit :=
  dl (p, n) <- quiet (prepare m s);
  fun w =>
    match work m s p n w with
    | (Ok _, w', l) =>
        match log_close m (st_log s) (concat (map line_text l)) w' with
        | (Ok _, w'') => (Ok tt, w'', l)
        | (_, w'') => (Undef, w'', l)
        end
    | (Err, w', l) =>
        (Err, snd (log_close m (st_log s) (concat (map line_text l)) w'), l)
    | r => r
    end.

(** main, lines 115-457. *)
Definition export_main (m : machine) (fuel : nat) (argv : list (list Z)) : lio unit :=
  dl r <- quiet (xlift (export_options SLASH fuel argv));
  match r with
  | Usage ok _ => quiet (if ok then xret tt else xlift Err)
  | Copyright => quiet (xret tt)
  | Start s => export_start_run m s
  end.
