(** Model of the lifetime of directory entries in memory: which call allocates
    and which releases them, from libolecf_file_open_read to
    libolecf_file_close.  The functions are those of M_Load.v and M_Open.v with
    a log of the calls of libolecf_directory_entry_initialize
    (libolecf/libolecf_directory_entry.c lines 43-110) and
    libolecf_directory_entry_free (lines 115-145). *)
From Coq Require Import ZArith List Bool.
From Verif Require Import Base M_Table M_Header M_Load M_Stream M_Tree M_Open.
Import ListNotations.
Open Scope Z_scope.

(** A pointer to an entry is named by the directory_entry_index at the time of
    the allocation.  That no index is used twice is proved, not assumed. *)
Inductive event :=
| Alloc (p : Z)
| Release (p : Z).

(** An element of directory_entry_list: the pointer and the entry. *)
Definition element : Type := Z * dirent.

(** libcdata_list_empty and libcdata_list_free with
    libolecf_directory_entry_free. *)
Definition release_list (l : list element) : list event := map (fun x => Release (fst x)) l.

(** libolecf_io_handle_read_directory_entries lines 1218-1302 and, for a slot
    that fails, 1382-1406. *)
Fixpoint m_sector_loop (n : nat) (e : endian) (sector : list Z) (pos : Z)
         (acc : list element) (index : Z) (m : list event)
  : res (list element * Z) * list event :=
  match n with
  | O => (Ok (acc, index), m)
  | S n' =>
      let m1 := m ++ [Alloc index] in                            (* 1222 *)
      match dirent_read e index (slice sector pos 128) with
      | Ok (Some d) =>                                           (* 1283-1297 *)
          m_sector_loop n' e sector (pos + 128) (acc ++ [(index, d)]) (index + 1) m1
      | Ok None =>                                               (* 1267 *)
          m_sector_loop n' e sector (pos + 128) acc (index + 1) (m1 ++ [Release index])
      | Err => (Err, (m1 ++ [Release index]) ++ release_list acc) (* 1383-1404 *)
      | Undef => (Undef, m1)
      | NoFuel => (NoFuel, m1)
      end
  end.

(** Lines 1126-1406.  directory_entry is NULL outside of the loop over the
    slots. *)
Fixpoint m_dir_loop (fuel : nat) (rd : reader) (e : endian) (ss entries : Z)
         (sat : list Z) (acc : list element) (index id : Z) (visited : list Z)
         (depth : Z) (m : list event) (t : trace)
  : (res (list element) * list event) * trace :=
  match fuel with
  | O => ((NoFuel, m), t)
  | S fuel' =>
      if (id =? END_OF_CHAIN) || (id =? UNUSED) then ((Ok acc, m), t)
      else if MAX_DIRECTORY_DEPTH <? depth then ((Err, m ++ release_list acc), t)
      else if existsb (Z.eqb id) visited then ((Ok acc, m), t)
      else
        match read_exact rd (sector_offset id ss) ss t with
        | (Ok sector, t1) =>
            match m_sector_loop (Z.to_nat entries) e sector 0 acc index m with
            | (Ok (acc', index'), m1) =>
                match table_next sat id with
                | Ok id' =>
                    m_dir_loop fuel' rd e ss entries sat acc' index' id' (id :: visited)
                               (depth + 1) m1 t1
                | Err => ((Err, m1 ++ release_list acc'), t1)
                | Undef => ((Undef, m1), t1)
                | NoFuel => ((NoFuel, m1), t1)
                end
            | (Err, m1) => ((Err, m1), t1)
            | (Undef, m1) => ((Undef, m1), t1)
            | (NoFuel, m1) => ((NoFuel, m1), t1)
            end
        | (Err, t1) => ((Err, m ++ release_list acc), t1)
        | (Undef, t1) => ((Undef, m), t1)
        | (NoFuel, t1) => ((NoFuel, m), t1)
        end
  end.

(** libolecf_io_handle_read_directory_entries, lines 1016-1407.  The list is
    empty on entry. *)
Definition m_read_directory (rd : reader) (e : endian) (ss : Z) (sat : list Z)
           (root : Z) (t : trace) : (res (list element) * list event) * trace :=
  if (ss =? 0) || (MEMORY_MAXIMUM_ALLOCATION_SIZE <? ss)
     || negb (ss mod 128 =? 0) then ((Err, []), t)
  else if root =? END_OF_CHAIN then ((Err, []), t)
  else m_dir_loop 1026 rd e ss (ss / 128) sat [] 0 root [] 0 [] t.

(** libcdata_list_free with libolecf_directory_entry_free_not_in_tree
    (libolecf/libolecf_directory_entry.c lines 150-181); [flags] are the
    identifiers of the entries of which set_in_tree is not 0. *)
Definition release_not_in_tree (flags : list Z) (l : list element) : list event :=
  release_list (filter (fun x => negb (existsb (Z.eqb (de_id (snd x))) flags)) l).

Definition flags_of (o : option tree) : list Z :=
  match o with Some tr => tr_flags tr | None => [] end.

(** libolecf_file_open_read lines 1032-1189, the part with entries.
    libolecf_directory_tree_create gives nodes the pointers of the list and
    frees none (lines 260-269 and 768-775 of libolecf_directory_tree.c free
    nodes without a function for the value).  After a failing
    libolecf_io_handle_read_directory_entries the list is empty. *)
Definition m_entries (u : una) (rd : reader) (h : file_header) (sat : list Z) (t : trace)
  : (res (list element * option tree) * list event) * trace :=
  match m_read_directory rd (fh_byte_order h) (fh_sector_size h) sat
                         (fh_root_directory_sector_identifier h) t with
  | ((Ok l, m), t1) =>
      match create_tree u (fh_byte_order h) (map snd l) with
      | Ok o => ((Ok (l, o), m ++ release_not_in_tree (flags_of o) l), t1)   (* 1126 *)
      | Err => ((Err, m ++ release_list l), t1)                  (* 1157-1163 *)
      | Undef => ((Undef, m), t1)
      | NoFuel => ((NoFuel, m), t1)
      end
  | ((Err, m), t1) => ((Err, m), t1)
  | ((Undef, m), t1) => ((Undef, m), t1)
  | ((NoFuel, m), t1) => ((NoFuel, m), t1)
  end.

(** libolecf_file_open_read, lines 805-1189: the opened file, the list of the
    pointers (ghost) and the log. *)
Definition m_open_read (u : una) (rd : reader) (t : trace)
  : (res (opened * list element) * list event) * trace :=
  match (dio msat0 <- ilift (table_initialize 109);
         dio (h, msat1) <- header_read rd msat0;
         dio msat <- read_msat rd (fh_byte_order h) (fh_sector_size h) msat1
                               (fh_msat_sector_identifier h) (fh_number_of_msat_sectors h);
         dio sat0 <- ilift (table_initialize 0);
         dio sat <- read_sat rd (fh_byte_order h) (fh_sector_size h) msat sat0
                             (fh_number_of_sat_sectors h);
         dio ssat0 <- ilift (table_initialize 0);
         dio ssat <- read_ssat rd (fh_byte_order h) (fh_sector_size h) sat ssat0
                               (fh_ssat_sector_identifier h) (fh_number_of_ssat_sectors h);
         iret (h, msat, sat, ssat)) t with
  | (Ok (h, msat, sat, ssat), t1) =>
      match m_entries u rd h sat t1 with
      | ((Ok (l, tr), m), t2) =>
          ((Ok ({| o_header := h; o_msat := msat; o_sat := sat; o_ssat := ssat;
                   o_entries := map snd l; o_tree := tr |}, l), m), t2)
      | ((Err, m), t2) => ((Err, m), t2)
      | ((Undef, m), t2) => ((Undef, m), t2)
      | ((NoFuel, m), t2) => ((NoFuel, m), t2)
      end
  | (Err, t1) => ((Err, []), t1)
  | (Undef, t1) => ((Undef, []), t1)
  | (NoFuel, t1) => ((NoFuel, []), t1)
  end.

Fixpoint rseq {A B} (f : A -> res (list B)) (l : list A) : res (list B) :=
  match l with
  | [] => Ok []
  | a :: l' => do b <- f a; do bs <- rseq f l'; Ok (b ++ bs)
  end.

(** libcdata_tree_node_free: the nodes that a call on the node [k] frees, the
    sub nodes first. *)
Fixpoint node_free (fuel : nat) (nodes : list node) (k : nat) : res (list nat) :=
  match fuel with
  | O => NoFuel
  | S fuel' =>
      match nth_error nodes k with
      | None => Undef
      | Some n => do below <- rseq (node_free fuel' nodes) (n_subs n); Ok (below ++ [k])
      end
  end.

(** The pointer that is the value of a node: that of the element of the list
    with the identifier of the entry. *)
Fixpoint pointer_of (l : list element) (id : Z) : res Z :=
  match l with
  | [] => Undef
  | (p, d) :: l' => if de_id d =? id then Ok p else pointer_of l' id
  end.

(** libolecf_file_close lines 782-798. *)
Definition m_close (l : list element) (o : option tree) : res (list event) :=
  match o with
  | None => Ok []
  | Some tr =>
      do order <- node_free (length (tr_nodes tr)) (tr_nodes tr) 0;
      rseq (fun k => match nth_error (tr_nodes tr) k with
                     | None => Undef
                     | Some n => do p <- pointer_of l (de_id (n_entry n)); Ok [Release p]
                     end) order
  end.
