(** Model of the export tool: export_handle_export_item, _export_sub_items and
    _export_file of olecftools/export_handle.c, in a build with narrow system
    characters.

    Simplified: the host file system is a list of paths with what is there; it
    changes through the tool only.  Two paths with different texts are
    different files, but "." and ".." exist in every directory.  libcpath and
    libuna are parameters.  What is printed, running out of memory and the
    closing of the data file after a failure are not represented. *)
From Coq Require Import ZArith List Bool.
From Verif Require Import Base M_Table M_Load M_Stream M_Tree M_Open M_Item M_Mount.
Import ListNotations.
Open Scope Z_scope.

(** ** The host *)

Inductive file_entry := Directory | Data (l : list Z).
Definition disk := list (list Z * file_entry).

Fixpoint on_disk (s : disk) (p : list Z) : option file_entry :=
  match s with
  | [] => None
  | (q, x) :: r => if list_eq_dec Z.eq_dec p q then Some x else on_disk r p
  end.

(** libuna, libcpath and the operating system.
    [ho_name]: libolecf_item_get_utf8_name_size and libolecf_item_get_utf8_name
    (libolecf_item.c lines 254-404), the string without its end;
    [ho_sanitize]: libcpath_path_get_sanitized_filename, likewise;
    [ho_fault k]: whether call number [k] to libcfile or libcpath fails, and
    for a write after how many bytes. *)
Record host := {
  ho_name : list Z -> endian -> option (list Z);
  ho_sanitize : list Z -> option (list Z);
  ho_fault : nat -> option Z
}.

(** The disk, the number of calls so far and the reads of the input file. *)
Record xstate := { x_disk : disk; x_calls : nat; x_trace : trace }.

Definition xio (A : Type) := xstate -> res A * xstate.
Definition xret {A} (a : A) : xio A := fun w => (Ok a, w).
Definition xlift {A} (r : res A) : xio A := fun w => (r, w).
Definition xbind {A B} (m : xio A) (k : A -> xio B) : xio B :=
  fun w => match m w with
           | (Ok a, w') => k a w'
           | (Err, w') => (Err, w')
           | (Undef, w') => (Undef, w')
           | (NoFuel, w') => (NoFuel, w')
           end.

Notation "'dx' x <- m ; k" := (xbind m (fun x => k))
  (at level 200, x pattern, m at level 100, k at level 200).

(** A call to the host that may fail; it gets the state and the fault. *)
Definition call {A} (ho : host) (f : disk -> option Z -> res A * disk) : xio A :=
  fun w =>
    let (r, s) := f (x_disk w) (ho_fault ho (x_calls w)) in
    (r, {| x_disk := s; x_calls := S (x_calls w); x_trace := x_trace w |}).

(** libcpath_path_join; neither the path ends nor the name begins with a
    separator, of which it drops those. *)
Definition path_join (p n : list Z) : list Z := p ++ SLASH :: n.

(** "." and ".." *)
Definition dot_name (n : list Z) : bool :=
  if list_eq_dec Z.eq_dec n [46] then true
  else if list_eq_dec Z.eq_dec n [46; 46] then true else false.

(** libcfile_file_exists of the path joined of [p] and [n]. *)
Definition file_exists (ho : host) (p n : list Z) : xio bool :=
  call ho (fun s fault =>
    match fault with
    | Some _ => (Err, s)
    | None => (Ok (dot_name n || match on_disk s (path_join p n) with Some _ => true | None => false end), s)
    end).

(** libcpath_path_make_directory: fails if the path exists. *)
Definition make_directory (ho : host) (p n : list Z) : xio unit :=
  call ho (fun s fault =>
    match fault with
    | Some _ => (Err, s)
    | None =>
        if dot_name n then (Err, s)
        else match on_disk s (path_join p n) with
             | Some _ => (Err, s)
             | None => (Ok tt, (path_join p n, Directory) :: s)
             end
    end).

(** libcfile_file_open with LIBCFILE_OPEN_WRITE of a path that does not exist. *)
Definition open_write (ho : host) (p : list Z) : xio unit :=
  call ho (fun s fault =>
    match fault with
    | Some _ => (Err, s)
    | None => (Ok tt, (p, Data []) :: s)
    end).

(** What the file [p], open for writing, holds. *)
Definition written (s : disk) (p : list Z) : list Z :=
  match on_disk s p with Some (Data l) => l | _ => [] end.

(** libcfile_file_write_buffer followed by the comparison of the count. *)
Definition write_buffer (ho : host) (p data : list Z) : xio unit :=
  call ho (fun s fault =>
    match fault with
    | Some n => (Err, (p, Data (written s p ++ slice data 0 n)) :: s)
    | None => (Ok tt, (p, Data (written s p ++ data)) :: s)
    end).

(** libcfile_file_close. *)
Definition close_file (ho : host) : xio unit :=
  call ho (fun s fault => (match fault with Some _ => Err | None => Ok tt end, s)).

(** ** export_handle.c *)

(** Decimal digits as printed by %05d; [n] is not negative. *)
Fixpoint decimal (fuel : nat) (n : Z) : list Z :=
  match fuel with
  | O => []
  | S fuel => (if n <? 10 then [] else decimal fuel (n / 10)) ++ [48 + n mod 10]
  end.
Definition item_text (index : Z) : list Z :=
  let ds := decimal 10 (index + 1) in
  [73; 116; 101; 109] ++ repeat 48 (5 - length ds) ++ ds.

(** Lines 984-1003: "Item%05d" is printed into item_name, at most 10
    characters with the end of string, of which there are always 10 since
    the text has at least 9.  [size] is the size of the buffer item_name,
    sanitized_name_size. *)
Definition item_name_again (size index : Z) : res (list Z) :=
  if size <? 10 then Undef
  else if 12 <? zlen (item_text index) then Err
  else Ok (firstn 9 (item_text index)).

(** "StreamData.bin", lines 1086-1103. *)
Definition stream_data_name : list Z :=
  [83; 116; 114; 101; 97; 109; 68; 97; 116; 97; 46; 98; 105; 110].

Definition BUFFER_SIZE := 32768.                                (* line 37 *)

Section Export.
Variable ho : host.
Variable rd : reader.
Variable v : volume.
Variable t : tree.

(** libolecf_stream_read_buffer with the buffer of the tool, followed by the
    comparison of the count, lines 1242-1258. *)
Definition read_item (d : dirent) (c size : Z) : xio (list Z * Z) :=
  fun w =>
    let (r, tr) := stream_read_buffer rd v d c size BUFFER_SIZE (x_trace w) in
    (do (l, c') <- r; if zlen l =? size then Ok (l, c') else Err,
     {| x_disk := x_disk w; x_calls := x_calls w; x_trace := tr |}).

(** The loop of lines 1234-1278; [left] is stream_data_size. *)
Fixpoint copy_loop (fuel : nat) (d : dirent) (p : list Z) (c left : Z) : xio unit :=
  match fuel with
  | O => xlift NoFuel
  | S fuel =>
      if 0 <? left then
        let size := if left <? BUFFER_SIZE then left else BUFFER_SIZE in
        dx (l, c') <- read_item d c size;
        let left := u32 (left - size) in
        dx _ <- write_buffer ho p l;
        copy_loop fuel d p c' left
      else xret tt
  end.

(** Lines 827-1055: the name of the directory of an item, in [dir]. *)
Definition choose_name (d : dirent) (index : Z) (dir : list Z) : xio (list Z) :=
  match ho_name ho (de_name d) (v_byte_order v) with
  | None => xlift Err
  | Some raw =>
      match ho_sanitize ho raw with
      | None => xlift Err
      | Some name =>
          dx there <- file_exists ho dir name;
          if there then xlift (item_name_again (zlen name + 1) index) else xret name
      end
  end.

(** The loop of export_handle_export_sub_items, lines 1434-1505: items that
    cannot be exported are skipped.  [one] exports an item. *)
Fixpoint sub_items_loop (one : nat -> Z -> list Z -> xio unit) (index : Z) (subs : list nat)
         (dir : list Z) : xio unit :=
  match subs with
  | [] => xret tt
  | k :: subs =>
      fun w =>
        match one k index dir w with
        | (Ok _, w') | (Err, w') => sub_items_loop one (index + 1) subs dir w'
        | r => r
        end
  end.

(** export_handle_export_item, lines 744-1369, and
    export_handle_export_sub_items, lines 1374-1507, which call each other.
    The fuel bounds the depth of the tree.  The stream of a new item is at
    offset 0. *)
Fixpoint export_item (fuel : nat) (k : nat) (index : Z) (dir : list Z) : xio unit :=
  match fuel with
  | O => xlift NoFuel
  | S fuel =>
      dx d <- xlift (node_value t k);
      dx name <- choose_name d index dir;
      dx _ <- make_directory ho dir name;
      let path := path_join dir name in
      dx there <- file_exists ho path stream_data_name;
      if there then xret tt
      else
        let target := path_join path stream_data_name in
        dx _ <- open_write ho target;
        dx _ <- (if 0 <? de_size d
                 then copy_loop (Z.to_nat (de_size d / BUFFER_SIZE) + 2) d target 0 (de_size d)
                 else xret tt);
        dx _ <- close_file ho;
        dx subs <- xlift (sub_nodes t k);
        sub_items_loop (export_item fuel) 0 subs path
  end.

Definition export_sub_items (k : nat) (dir : list Z) : xio unit :=
  dx subs <- xlift (sub_nodes t k);
  sub_items_loop (export_item (length (tr_nodes t))) 0 subs dir.

End Export.

(** export_handle_export_file, lines 1512-1622: the sub items of the root into
    the new directory [p], items_export_path; nothing but the directory is
    made if there is no tree. *)
Definition export_file (ho : host) (rd : reader) (v : volume) (o : option tree) (p n : list Z)
  : xio unit :=
  dx _ <- make_directory ho p n;
  match o with
  | None => xret tt
  | Some t => export_sub_items ho rd v t O (path_join p n)
  end.
