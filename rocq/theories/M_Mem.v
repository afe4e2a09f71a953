(** Model of libolecf_file_open_read and libolecf_file_close when requests for
    memory can fail: every allocation and every release, of all kinds of
    objects, with the error paths.  What is computed from the file is shared
    with M_Load.v, M_Header.v and M_Tree.v. *)
From Coq Require Import ZArith List Bool.
From Verif Require Import Base M_Table M_Header M_Load M_Stream M_Tree M_Open.
Import ListNotations.
Open Scope Z_scope.

(** What a request is for. *)
Inductive kind :=
| RHeader                                   (* libolecf_file_header_initialize *)
| RTable                                    (* libolecf_allocation_table_initialize *)
| RMsat | RSat | RSsat                      (* growth of a table, and the sector buffer *)
| RDirectory                                (* list, sector buffer, range list, entries *)
| RTree                                     (* nodes *)
| RSet | RSection                           (* structures and arrays of property sets and their sections *)
| RProperties                               (* values of property sets, see M_PropMem.v *)
| RTool.                                    (* objects and buffers of olecfinfo, see M_InfoTool.v *)

(** The requests so far and whether they were granted, the blocks in use, and
    the requests to the I/O layer.  A block is named by the number of the
    request that created it. *)
Record mst := {
  m_requests : list (kind * bool);
  m_live : list Z;
  m_trace : trace
}.

Definition mm (A : Type) : Type := mst -> res A * mst.

Definition mret {A} (a : A) : mm A := fun s => (Ok a, s).
Definition mlift {A} (r : res A) : mm A := fun s => (r, s).
Definition mbind {A B} (m : mm A) (k : A -> mm B) : mm B :=
  fun s => match m s with
           | (Ok a, s') => k a s'
           | (Err, s') => (Err, s')
           | (Undef, s') => (Undef, s')
           | (NoFuel, s') => (NoFuel, s')
           end.

Notation "'dm' x <- m ; k" := (mbind m (fun x => k))
  (at level 200, x pattern, m at level 100, k at level 200, right associativity).

(** Calls that only read the file.  [None] is -1. *)
Definition mio {A} (m : io A) : mm (option A) :=
  fun s => let '(r, t) := m (m_trace s) in
           (match r with Ok a => Ok (Some a) | Err => Ok None | Undef => Undef | NoFuel => NoFuel end,
            {| m_requests := m_requests s; m_live := m_live s; m_trace := t |}).

(** The outcome of the n-th request for memory. *)
Definition memory : Type := nat -> bool.

(** A call of libcdata that may need memory for what it keeps inside of a list,
    range list or tree node; that memory belongs to the container. *)
Definition grant (mem : memory) (k : kind) : mm bool :=
  fun s => let b := mem (length (m_requests s)) in
           (Ok b, {| m_requests := m_requests s ++ [(k, b)]; m_live := m_live s; m_trace := m_trace s |}).

(** memory_allocate and the initialize functions of libcdata; [None] is NULL. *)
Definition alloc (mem : memory) (k : kind) : mm (option Z) :=
  fun s => let b := mem (length (m_requests s)) in
           let p := zlen (m_requests s) in
           (Ok (if b then Some p else None),
            {| m_requests := m_requests s ++ [(k, b)];
               m_live := if b then p :: m_live s else m_live s;
               m_trace := m_trace s |}).

(** memory_free: the pointer has to be one of a block in use. *)
Definition release (p : Z) : mm unit :=
  fun s => if existsb (Z.eqb p) (m_live s)
           then (Ok tt, {| m_requests := m_requests s;
                           m_live := remove Z.eq_dec p (m_live s);
                           m_trace := m_trace s |})
           else (Undef, s).

Fixpoint release_all (ps : list Z) : mm unit :=
  match ps with
  | [] => mret tt
  | p :: ps' => dm _ <- release p; release_all ps'
  end.

Definition opt_list (o : option Z) : list Z := match o with Some p => [p] | None => [] end.

(** ** Allocation tables *)

(** libolecf_allocation_table_t, libolecf/libolecf_allocation_table.h lines
    34-44: the structure, the block of sector_identifiers (NULL if there are
    none) and its values. *)
Record mtable := {
  mt_struct : Z;
  mt_ids : option Z;
  mt_vals : list Z
}.

(** libolecf_allocation_table.c libolecf_allocation_table_initialize, lines 33-158. *)
Definition mt_initialize (mem : memory) (n : Z) : mm (option mtable) :=
  match table_initialize n with
  | Ok vals =>
      dm s <- alloc mem RTable;                                  (* 75-88 *)
      match s with
      | None => mret None
      | Some s =>
          if 0 <? n then                                         (* 108-140 *)
            dm b <- alloc mem RTable;
            match b with
            | None => dm _ <- release s; mret None               (* 144-156 *)
            | Some b => mret (Some {| mt_struct := s; mt_ids := Some b; mt_vals := vals |})
            end
          else mret (Some {| mt_struct := s; mt_ids := None; mt_vals := vals |})
      end
  | _ => mret None
  end.

(** libolecf_allocation_table.c libolecf_allocation_table_free, lines 163-193. *)
Definition mt_blocks (t : mtable) : list Z := opt_list (mt_ids t) ++ [mt_struct t].
Definition mt_free (t : mtable) : mm unit := release_all (mt_blocks t).

(** libolecf_allocation_table.c libolecf_allocation_table_resize, lines 198-268.  realloc leaves the block
    as it is if it fails, and releases it if it does not. *)
Definition mt_resize (mem : memory) (k : kind) (t : mtable) (n : Z) : mm (bool * mtable) :=
  match table_resize (mt_vals t) n with
  | Ok vals =>
      if zlen (mt_vals t) <? n then
        dm b <- alloc mem k;                                     (* 233-248 *)
        match b with
        | None => mret (false, t)
        | Some b =>
            dm _ <- release_all (opt_list (mt_ids t));
            mret (true, {| mt_struct := mt_struct t; mt_ids := Some b; mt_vals := vals |})
        end
      else mret (true, t)
  | _ => mret (false, t)
  end.

Definition set_vals (t : mtable) (vals : list Z) : mtable :=
  {| mt_struct := mt_struct t; mt_ids := mt_ids t; mt_vals := vals |}.

(** The pattern of the three functions below: the table grows if it is smaller
    than [n], then the sector buffer is allocated, used and released.  The
    table is returned in any case, it belongs to the caller; the boolean is
    false if on_error was reached. *)
Definition with_table (mem : memory) (k : kind) (t : mtable) (n : Z)
           (load : list Z -> io (list Z)) : mm (bool * mtable) :=
  dm (ok, t1) <- (if zlen (mt_vals t) <? n then mt_resize mem k t n else mret (true, t));
  if negb ok then mret (false, t1)
  else
    dm b <- alloc mem k;
    match b with
    | None => mret (false, t1)
    | Some b =>
        dm r <- mio (load (mt_vals t1));
        dm _ <- release b;
        mret (match r with Some vals => (true, set_vals t1 vals) | None => (false, t1) end)
    end.

(** libolecf_io_handle.c libolecf_io_handle_read_msat, lines 201-490.  After -1 the values of the
    table are not used. *)
Definition mm_read_msat (mem : memory) (rd : reader) (e : endian) (ss : Z) (t : mtable)
           (id n : Z) : mm (bool * mtable) :=
  if (ss =? 0) || (MEMORY_MAXIMUM_ALLOCATION_SIZE <? ss) then mret (false, t)
  else if zlen (mt_vals t) <? 109 then mret (false, t)
  else if (id =? END_OF_CHAIN) && (n =? 0) then mret (true, t)
  else if id =? END_OF_CHAIN then mret (false, t)
  else
    let n := if n =? 0 then 1 else n in
    let entries := ss / 4 in
    if entries =? 0 then mret (false, t)
    else
      let entries := entries - 1 in
      with_table mem RMsat t (s32 (109 + n * entries))
                 (fun vals => msat_loop 258 rd e ss entries vals 109 id 0).

(** libolecf_io_handle.c libolecf_io_handle_read_sat, lines 496-721: everything that goes to
    on_error, a failing request for memory too, returns 1. *)
Definition mm_read_sat (mem : memory) (rd : reader) (e : endian) (ss : Z) (msat : list Z)
           (t : mtable) (n : Z) : mm (bool * mtable) :=
  if (ss =? 0) || (MEMORY_MAXIMUM_ALLOCATION_SIZE <? ss) then mret (false, t)
  else
    let entries := ss / 4 in
    dm (_, t1) <- with_table mem RSat t (s32 (n * entries))
                             (fun vals => sat_loop rd e ss entries msat vals 0);
    mret (true, t1).

(** libolecf_io_handle.c libolecf_io_handle_read_ssat, lines 727-1010, likewise. *)
Definition mm_read_ssat (mem : memory) (rd : reader) (e : endian) (ss : Z) (sat : list Z)
           (t : mtable) (id n : Z) : mm (bool * mtable) :=
  if (ss =? 0) || (MEMORY_MAXIMUM_ALLOCATION_SIZE <? ss) then mret (false, t)
  else
    let entries := ss / 4 in
    dm (_, t1) <- with_table mem RSsat t (s32 (n * entries))
                             (fun vals => ssat_loop 258 rd e ss entries sat vals 0 id n 0 0);
    mret (true, t1).

(** ** Directory entries *)

(** A libolecf_directory_entry_t: the structure, the block of its name and the
    values. *)
Record melement := {
  el_struct : Z;
  el_name : option Z;
  el_entry : dirent
}.

(** libolecf_directory_entry.c libolecf_directory_entry_free, lines 115-145. *)
Definition el_blocks (x : melement) : list Z := opt_list (el_name x) ++ [el_struct x].
Definition el_free (x : melement) : mm unit := release_all (el_blocks x).

(** libcdata_list_empty with libolecf_directory_entry_free. *)
Fixpoint els_free (l : list melement) : mm unit :=
  match l with
  | [] => mret tt
  | x :: l' => dm _ <- el_free x; els_free l'
  end.

(** libolecf_io_handle.c libolecf_io_handle_read_directory_entries lines 1216-1302 and, for a slot
    that fails, 1383-1388.  The name is allocated in lines 309-350 of
    libolecf_directory_entry.c, if it is not empty.  The boolean is false if
    on_error was reached. *)
Fixpoint mm_sector_loop (n : nat) (mem : memory) (e : endian) (sector : list Z) (pos : Z)
         (acc : list melement) (index : Z) : mm (bool * list melement * Z) :=
  match n with
  | O => mret (true, acc, index)
  | S n' =>
      dm p <- alloc mem RDirectory;                              (* 1222 *)
      match p with
      | None => mret (false, acc, index)
      | Some p =>
          match dirent_read e index (slice sector pos 128) with
          | Ok None =>                                           (* 1267 *)
              dm _ <- release p;
              mm_sector_loop n' mem e sector (pos + 128) acc (index + 1)
          | Ok (Some d) =>
              dm (ok, nm) <- (match de_name d with
                              | [] => mret (true, None)
                              | _ => dm b <- alloc mem RDirectory;
                                     mret (match b with Some b => (true, Some b) | None => (false, None) end)
                              end);
              if negb ok then dm _ <- release p; mret (false, acc, index)
              else
                let x := {| el_struct := p; el_name := nm; el_entry := d |} in
                dm ok <- grant mem RDirectory;                   (* 1283 *)
                if negb ok then dm _ <- el_free x; mret (false, acc, index)
                else mm_sector_loop n' mem e sector (pos + 128) (acc ++ [x]) (index + 1)
          | Err => dm _ <- release p; mret (false, acc, index)
          | Undef => mlift Undef
          | NoFuel => mlift NoFuel
          end
      end
  end.

(** libolecf_io_handle.c lines 1126-1360; libcdata_range_list_insert_range is called in line 1315. *)
Fixpoint mm_dir_loop (fuel : nat) (mem : memory) (rd : reader) (e : endian) (ss entries : Z)
         (sat : list Z) (acc : list melement) (index id : Z) (visited : list Z)
         (depth : Z) : mm (bool * list melement) :=
  match fuel with
  | O => mlift NoFuel
  | S fuel' =>
      if (id =? END_OF_CHAIN) || (id =? UNUSED) then mret (true, acc)
      else if MAX_DIRECTORY_DEPTH <? depth then mret (false, acc)
      else if existsb (Z.eqb id) visited then mret (true, acc)
      else
        dm r <- mio (read_exact rd (sector_offset id ss) ss);
        match r with
        | None => mret (false, acc)
        | Some sector =>
            dm (ok, acc', index') <-
              mm_sector_loop (Z.to_nat entries) mem e sector 0 acc index;
            if negb ok then mret (false, acc')
            else
              dm ok <- grant mem RDirectory;
              if negb ok then mret (false, acc')
              else match table_next sat id with
                   | Ok id' => mm_dir_loop fuel' mem rd e ss entries sat acc' index' id'
                                           (id :: visited) (depth + 1)
                   | Err => mret (false, acc')
                   | Undef => mlift Undef
                   | NoFuel => mlift NoFuel
                   end
        end
  end.

(** libolecf_io_handle.c libolecf_io_handle_read_directory_entries, lines 1016-1407.  [None] is -1;
    the list is empty then (line 1401). *)
Definition mm_read_directory (mem : memory) (rd : reader) (e : endian) (ss : Z) (sat : list Z)
           (root : Z) : mm (option (list melement)) :=
  if (ss =? 0) || (MEMORY_MAXIMUM_ALLOCATION_SIZE <? ss)
     || negb (ss mod 128 =? 0) then mret None
  else if root =? END_OF_CHAIN then mret None
  else
    dm b <- alloc mem RDirectory;                                (* 1097 *)
    match b with
    | None => mret None
    | Some b =>
        dm r <- alloc mem RDirectory;                            (* 1111 *)
        match r with
        | None => dm _ <- release b; mret None
        | Some r =>
            dm (ok, l) <- mm_dir_loop 1026 mem rd e ss (ss / 128) sat [] 0 root [] 0;
            dm _ <- release r;                                   (* 1361, 1391 *)
            dm _ <- release b;                                   (* 1375, 1398 *)
            if ok then mret (Some l)
            else dm _ <- els_free l; mret None
        end
    end.

(** ** The tree *)

(** The state of the construction and the blocks of the nodes, in order of
    their creation. *)
Definition mtree : Type := tstate * list Z.

(** libolecf_directory_tree.c libolecf_directory_tree_create_process_entry, lines 276-777, as in
    M_Tree.v.  The boolean is false if -1 is returned: a node that could not
    be inserted is released (lines 768-775), those that were inserted are left
    to the caller.  libcdata_tree_node_insert_node may fail too. *)
Section Process.
  Variable mem : memory.
  Variable process : mtree -> nat -> dirent -> mm (bool * mtree).

  (** Lines 414-503, 530-633 and 660-763. *)
  Definition mm_process_link (st : mtree) (p : option nat) (s : dirent) : mm (bool * mtree) :=
    if is_set (fst st) s then mret (false, st)
    else
      dm b <- alloc mem RTree;
      match b with
      | None => mret (false, st)
      | Some b =>
          dm ok <- grant mem RTree;
          match add_node (fst st) p s with
          | Ok (st1, k) =>
              if negb ok then dm _ <- release b; mret (false, st)
              else process (set_flag st1 s, snd st ++ [b]) k s
          | Err => dm _ <- release b; mret (false, st)
          | Undef => mlift Undef
          | NoFuel => mlift NoFuel
          end
      end.
End Process.

Fixpoint mm_process_entry (fuel : nat) (mem : memory) (u : una) (e : endian) (root_id : Z)
         (l : list dirent) (st : mtree) (k : nat) (d : dirent) : mm (bool * mtree) :=
  match fuel with
  | O => mlift NoFuel
  | S fuel' =>
      let process := mm_process_entry fuel' mem u e root_id l in
      match check_summary_name u e d with
      | Ok _ =>
          dm (ok, st1) <-                                       (* 388-505 *)
            (if negb (de_sub d =? UNUSED) && negb (de_sub d =? 0) && (root_id =? 0)
             then match find_entry l (de_sub d) with
                  | None => mret (true, st)
                  | Some s => mm_process_link mem process st (Some k) s
                  end
             else mret (true, st));
          if negb ok then mret (false, st1)
          else
            let parent st := match nth_error (t_nodes (fst st)) k with
                             | Some n => n_parent n
                             | None => None
                             end in
            dm (ok, st2) <-                                     (* 506-635 *)
              (if negb (de_prev d =? UNUSED)
               then match find_entry l (u32 (s32 (de_prev d))) with
                    | None => mret (true, st1)
                    | Some s => mm_process_link mem process st1 (parent st1) s
                    end
               else mret (true, st1));
            if negb ok then mret (false, st2)
            else if negb (de_next d =? UNUSED)                  (* 636-765 *)
            then match find_entry l (u32 (s32 (de_next d))) with
                 | None => mret (false, st2)
                 | Some s => mm_process_link mem process st2 (parent st2) s
                 end
            else mret (true, st2)
      | Err => mret (false, st)
      | Undef => mlift Undef
      | NoFuel => mlift NoFuel
      end
  end.

(** libolecf_directory_tree.c libolecf_directory_tree_create, lines 39-271.  [None] is -1; the tree
    comes with the blocks of its nodes.  libcdata_tree_node_free (lines
    260-269) releases the nodes, not their values; M_Free.v has the order. *)
Definition mm_create_tree (mem : memory) (u : una) (e : endian) (l : list dirent)
  : mm (option (option tree * list Z)) :=
  match l with
  | [] => mret (Some (None, []))
  | _ =>
      match find_root l with
      | None => mret None
      | Some root =>
          if de_sub root =? UNUSED then mret (Some (None, []))
          else
            dm b <- alloc mem RTree;                             (* 208 *)
            match b with
            | None => mret None
            | Some b =>
                dm (ok, st) <-
                  mm_process_entry (length l + 2) mem u e (de_id root) l
                    ({| t_nodes := [{| n_entry := root; n_parent := None; n_subs := [] |}];
                        t_flags := [] |}, [b]) O root;
                if ok
                then mret (Some (Some {| tr_nodes := t_nodes (fst st);
                                         tr_flags := de_id root :: t_flags (fst st);
                                         tr_container_start := de_sector root |}, snd st))
                else dm _ <- release_all (snd st); mret None
            end
      end
  end.

(** ** The file *)

(** What libolecf_file_open_read leaves behind: what M_Open.v says, the tables,
    the blocks of the nodes and all elements of the list, of which those that
    are values of nodes are still in use. *)
Record mfile := {
  mf_opened : opened;
  mf_msat : mtable;
  mf_sat : mtable;
  mf_ssat : mtable;
  mf_nodes : list Z;
  mf_entries : list melement
}.

Definition in_tree (o : option tree) (x : melement) : bool :=
  match o with
  | Some tr => existsb (Z.eqb (de_id (el_entry x))) (tr_flags tr)
  | None => false
  end.

(** libolecf_file.c libolecf_file_open_read lines 1141-1188, on_error: the list, if there is
    one, is given by its block and its elements.  There is no tree. *)
Fixpoint tables_free (ts : list mtable) : mm unit :=
  match ts with
  | [] => mret tt
  | t :: ts' => dm _ <- mt_free t; tables_free ts'
  end.

Definition on_error (lst : option (Z * list melement)) (ts : list mtable) (hdr : option Z)
  : mm (option mfile) :=
  dm _ <- (match lst with
           | Some (b, l) => dm _ <- els_free l; release b
           | None => mret tt
           end);
  dm _ <- tables_free ts;
  dm _ <- release_all (opt_list hdr);
  mret None.

(** libolecf_file.c libolecf_file_open_read, lines 805-1189.  [None] is -1. *)
Definition mm_open_read (mem : memory) (u : una) (rd : reader) : mm (option mfile) :=
  dm b <- alloc mem RHeader;                                     (* 899-911 *)
  match b with
  | None => mret None
  | Some b =>
  dm r <- mt_initialize mem 109;                                 (* 912-925 *)
  match r with
  | None => on_error None [] (Some b)
  | Some msat0 =>
  dm r <- mio (header_read rd (mt_vals msat0));                  (* 926-940 *)
  match r with
  | None => on_error None [msat0] (Some b)
  | Some (h, vals) =>
  let e := fh_byte_order h in
  let ss := fh_sector_size h in
  dm (ok, msat) <- mm_read_msat mem rd e ss (set_vals msat0 vals) (fh_msat_sector_identifier h)
                                (fh_number_of_msat_sectors h);   (* 955-971 *)
  if negb ok then on_error None [msat] (Some b)
  else
  dm r <- mt_initialize mem 0;                                   (* 979-992 *)
  match r with
  | None => on_error None [msat] (Some b)
  | Some sat0 =>
  dm (ok, sat) <- mm_read_sat mem rd e ss (mt_vals msat) sat0 (fh_number_of_sat_sectors h);
  if negb ok then on_error None [sat; msat] (Some b)
  else
  dm r <- mt_initialize mem 0;                                   (* 1017-1030 *)
  match r with
  | None => on_error None [sat; msat] (Some b)
  | Some ssat0 =>
  dm (ok, ssat) <- mm_read_ssat mem rd e ss (mt_vals sat) ssat0 (fh_ssat_sector_identifier h)
                                (fh_number_of_ssat_sectors h);
  if negb ok then on_error None [ssat; sat; msat] (Some b)
  else
  dm lb <- alloc mem RDirectory;                                 (* 1053-1065 *)
  match lb with
  | None => on_error None [ssat; sat; msat] (Some b)
  | Some lb =>
  dm r <- mm_read_directory mem rd e ss (mt_vals sat) (fh_root_directory_sector_identifier h);
  match r with
  | None => on_error (Some (lb, [])) [ssat; sat; msat] (Some b)
  | Some l =>
  dm _ <- release b;                                             (* 1084-1096 *)
  dm r <- mm_create_tree mem u e (map el_entry l);               (* 1106-1125 *)
  match r with
  | None => on_error (Some (lb, l)) [ssat; sat; msat] None
  | Some (tr, nodes) =>
  dm _ <- els_free (filter (fun x => negb (in_tree tr x)) l);    (* 1126-1139 *)
  dm _ <- release lb;
  mret (Some {| mf_opened := {| o_header := h; o_msat := mt_vals msat; o_sat := mt_vals sat;
                                o_ssat := mt_vals ssat; o_entries := map el_entry l;
                                o_tree := tr |};
                mf_msat := msat; mf_sat := sat; mf_ssat := ssat;
                mf_nodes := nodes; mf_entries := l |})
  end end end end end end end end.

(** The element that is the value of a node: the one with its identifier. *)
Fixpoint element_of (l : list melement) (id : Z) : res melement :=
  match l with
  | [] => Undef
  | x :: l' => if de_id (el_entry x) =? id then Ok x else element_of l' id
  end.

(** libcdata_tree_node_free with libolecf_directory_entry_free: the values. *)
Fixpoint values_free (l : list melement) (nodes : list node) : mm unit :=
  match nodes with
  | [] => mret tt
  | n :: nodes' =>
      dm x <- mlift (element_of l (de_id (n_entry n)));
      dm _ <- el_free x;
      values_free l nodes'
  end.

(** libolecf_file.c libolecf_file_close lines 729-798: the tables and the tree with its
    entries. *)
Definition mm_close (f : mfile) : mm unit :=
  dm _ <- tables_free [mf_msat f; mf_sat f; mf_ssat f];
  dm _ <- values_free (mf_entries f) (match o_tree (mf_opened f) with
                                      | Some tr => tr_nodes tr
                                      | None => []
                                      end);
  release_all (mf_nodes f).
