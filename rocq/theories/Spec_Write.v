(** A writer of complete files, after the documentation of the format, as a
    specification of what open, the item tree and stream reads give back.
    There is no writer in the library.

    Layout: the header, the sectors of the sector allocation table, of the
    short sector allocation table, of the directory and of the short sectors,
    then the sectors of the other streams.  All chains are contiguous; the sub
    items of a storage are linked by their next links. *)
From Coq Require Import ZArith List Bool.
From Verif Require Import Base Spec_IO M_Header M_Table M_Load M_Stream M_Tree M_Open M_Item
  Spec_Stream Spec_Load Spec_Tree Spec_Content.
Import ListNotations.
Open Scope Z_scope.

(** The items of a storage, in order. *)
Inductive forest :=
| Empty
| AddStream (name : list Z) (ctime mtime : Z) (data : list Z) (rest : forest)
| AddStorage (name : list Z) (ctime mtime : Z) (subs rest : forest).

(** A document: the name and the times of the root and its items. *)
Record document := {
  doc_name : list Z;
  doc_ctime : Z;
  doc_mtime : Z;
  doc_items : forest
}.

(** Choices of the writer. *)
Record format := {
  fm_order : endian;
  fm_sector : Z;                   (* exponents of the sizes *)
  fm_short : Z;
  fm_minimum : Z                   (* smallest stream that is not in short sectors *)
}.

Fixpoint count (fo : forest) : nat :=
  match fo with
  | Empty => O
  | AddStream _ _ _ _ r => S (count r)
  | AddStorage _ _ _ a r => S (count a + count r)
  end.

(** The contents of the streams, in the order of the directory. *)
Fixpoint streams (fo : forest) : list (list Z) :=
  match fo with
  | Empty => []
  | AddStream _ _ _ s r => s :: streams r
  | AddStorage _ _ _ a r => streams a ++ streams r
  end.

(** The number of blocks of [k] that [n] needs, and [l] filled up to blocks. *)
Definition blocks (k n : Z) : Z := (n + k - 1) / k.
Definition fill (x k : Z) (l : list Z) : list Z :=
  l ++ repeat x (Z.to_nat (blocks k (zlen l) * k - zlen l)).

Section Writer.
Variable fm : format.
Variable doc : document.

Definition w_ss : Z := 2 ^ fm_sector fm.
Definition w_sss : Z := 2 ^ fm_short fm.
Definition w_small (s : list Z) : bool := zlen s <? fm_minimum fm.

Definition w_shorts (fo : forest) : list (list Z) := filter w_small (streams fo).
Definition w_longs (fo : forest) : list (list Z) := filter (fun s => negb (w_small s)) (streams fo).

(** The number of blocks of [k] of a list of streams. *)
Definition w_blocks (k : Z) (l : list (list Z)) : Z :=
  fold_right (fun s n => blocks k (zlen s) + n) 0 l.

(** The bytes of a list of streams, each filled up to blocks of [k]. *)
Definition w_data (k : Z) (l : list (list Z)) : list Z := flat_map (fill 0 k) l.

(** A chain of [n] sectors from [base] on, and the chains of streams. *)
Fixpoint w_chain (base : Z) (n : nat) : list Z :=
  match n with
  | O => []
  | S O => [EOC]
  | S n' => base + 1 :: w_chain (base + 1) n'
  end.

Fixpoint w_chains (k base : Z) (l : list (list Z)) : list Z :=
  match l with
  | [] => []
  | s :: r => w_chain base (Z.to_nat (blocks k (zlen s))) ++ w_chains k (base + blocks k (zlen s)) r
  end.

(** Directory entries from the identifier [id] on; [ns] and [nb] are the next
    short sector and the next sector. *)
Fixpoint w_entries (id ns nb : Z) (fo : forest) : list dirent :=
  match fo with
  | Empty => []
  | AddStream n c m s r =>
      let b := blocks (if w_small s then w_sss else w_ss) (zlen s) in
      {| de_id := id; de_type := 2; de_name := n; de_prev := FREE;
         de_next := match r with Empty => FREE | _ => id + 1 end; de_sub := FREE;
         de_ctime := c; de_mtime := m;
         de_sector := if b =? 0 then EOC else if w_small s then ns else nb;
         de_size := zlen s |} ::
      w_entries (id + 1) (if w_small s then ns + b else ns) (if w_small s then nb else nb + b) r
  | AddStorage n c m a r =>
      {| de_id := id; de_type := 1; de_name := n; de_prev := FREE;
         de_next := match r with Empty => FREE | _ => id + 1 + Z.of_nat (count a) end;
         de_sub := match a with Empty => FREE | _ => id + 1 end;
         de_ctime := c; de_mtime := m; de_sector := 0; de_size := 0 |} ::
      w_entries (id + 1) ns nb a ++
      w_entries (id + 1 + Z.of_nat (count a)) (ns + w_blocks w_sss (w_shorts a))
                (nb + w_blocks w_ss (w_longs a)) r
  end.

Definition w_items := doc_items doc.

(** Numbers of sectors. *)
Definition w_short_bytes : list Z := w_data w_sss (w_shorts w_items).
Definition w_n_ssat : Z := blocks (w_ss / 4) (w_blocks w_sss (w_shorts w_items)).
Definition w_n_dir : Z := blocks w_ss (128 * (1 + Z.of_nat (count w_items))).
Definition w_n_con : Z := blocks w_ss (zlen w_short_bytes).
Definition w_n_big : Z := w_blocks w_ss (w_longs w_items).
Definition w_n_sat : Z := blocks (w_ss / 4 - 1) (w_n_ssat + w_n_dir + w_n_con + w_n_big).

(** The first sector of each part. *)
Definition w_ssat_at : Z := w_n_sat.
Definition w_dir_at : Z := w_ssat_at + w_n_ssat.
Definition w_con_at : Z := w_dir_at + w_n_dir.
Definition w_big_at : Z := w_con_at + w_n_con.

Definition w_directory : list dirent :=
  {| de_id := 0; de_type := 5; de_name := doc_name doc; de_prev := FREE; de_next := FREE;
     de_sub := match w_items with Empty => FREE | _ => 1 end;
     de_ctime := doc_ctime doc; de_mtime := doc_mtime doc;
     de_sector := if w_n_con =? 0 then EOC else w_con_at;
     de_size := zlen w_short_bytes |} :: w_entries 1 0 w_big_at w_items.

(** The tables; 0xfffffffd marks the sectors of the table itself. *)
Definition w_sat : list Z :=
  fill FREE (w_ss / 4)
       (repeat 4294967293 (Z.to_nat w_n_sat) ++ w_chain w_ssat_at (Z.to_nat w_n_ssat) ++
        w_chain w_dir_at (Z.to_nat w_n_dir) ++ w_chain w_con_at (Z.to_nat w_n_con) ++
        w_chains w_ss w_big_at (w_longs w_items)).

Definition w_ssat : list Z := fill FREE (w_ss / 4) (w_chains w_sss 0 (w_shorts w_items)).

Definition w_table (l : list Z) : list Z := concat (map (bytes_of (fm_order fm) 4) l).

(** A directory slot, after the documentation. *)
Definition w_slot (d : dirent) : list Z :=
  let e := fm_order fm in
  concat [de_name d; zeros (64 - zlen (de_name d)); bytes_of e 2 (zlen (de_name d)); [de_type d]; [0];
          bytes_of e 4 (de_prev d); bytes_of e 4 (de_next d); bytes_of e 4 (de_sub d); zeros 16; zeros 4;
          bytes_of e 8 (de_ctime d); bytes_of e 8 (de_mtime d); bytes_of e 4 (de_sector d);
          bytes_of e 4 (de_size d); zeros 4].

Definition w_header_values : header_values :=
  {| hv_minor := 62; hv_major := 3; hv_sector_exponent := fm_sector fm; hv_short_exponent := fm_short fm;
     hv_sat_sectors := w_n_sat; hv_root := w_dir_at; hv_minimum := fm_minimum fm;
     hv_ssat := if w_n_ssat =? 0 then EOC else w_ssat_at; hv_ssat_sectors := w_n_ssat;
     hv_msat := EOC; hv_msat_sectors := 0;
     hv_msat_values := map Z.of_nat (seq 0 (Z.to_nat w_n_sat)) ++ repeat FREE (109 - Z.to_nat w_n_sat) |}.

Definition w_header : list Z :=
  encode_header (fm_order fm) [0xd0; 0xcf; 0x11; 0xe0; 0xa1; 0xb1; 0x1a; 0xe1] (zeros 16) (zeros 10) (zeros 4) []
                w_header_values.

Definition write : list Z :=
  fill 0 w_ss w_header ++ w_table w_sat ++ w_table w_ssat ++
  fill 0 w_ss (flat_map w_slot w_directory) ++ fill 0 w_ss w_short_bytes ++ w_data w_ss (w_longs w_items).

(** What can be written: names of at most 64 bytes, times and sizes that the
    fields hold, and as many sectors of each kind as the header and the
    library allow. *)
Fixpoint names_ok (P : list Z -> Prop) (fo : forest) : Prop :=
  match fo with
  | Empty => True
  | AddStream n _ _ _ r => P n /\ names_ok P r
  | AddStorage n _ _ a r => P n /\ names_ok P a /\ names_ok P r
  end.

Fixpoint times_ok (fo : forest) : Prop :=
  match fo with
  | Empty => True
  | AddStream _ c m _ r => 0 <= c < 2 ^ 64 /\ 0 <= m < 2 ^ 64 /\ times_ok r
  | AddStorage _ c m a r => 0 <= c < 2 ^ 64 /\ 0 <= m < 2 ^ 64 /\ times_ok a /\ times_ok r
  end.

Definition name_fits (n : list Z) : Prop := zlen n <= 64 /\ Forall is_byte n.

Record writable : Prop := {
  wr_sector : 9 <= fm_sector fm <= 15;
  wr_short : 0 <= fm_short fm <= fm_sector fm;
  wr_minimum : is_u32 (fm_minimum fm);
  wr_name : name_fits (doc_name doc);
  wr_names : names_ok name_fits w_items;
  wr_time : 0 <= doc_ctime doc < 2 ^ 64 /\ 0 <= doc_mtime doc < 2 ^ 64;
  wr_times : times_ok w_items;
  wr_data : Forall (fun s => Forall is_byte s /\ zlen s < 2 ^ 32) (streams w_items);
  wr_container : zlen w_short_bytes < 2 ^ 32;
  wr_n_sat : w_n_sat <= 109;
  wr_n_ssat : w_n_ssat <= 257;
  wr_n_dir : w_n_dir <= 1025
}.
End Writer.

(** The comparison of a name with those of the summary streams does not fail. *)
Definition comparable (u : una) (e : endian) (n : list Z) : Prop :=
  (zlen n = 28 -> una_utf8_compare u document_summary_stream_name n e <> Err) /\
  (zlen n = 20 -> una_utf8_compare u summary_stream_name n e <> Err).

(** The items [js] of an opened file are those of [fo], in order: they have the
    names and the times, the storages have the sub items, and the streams can
    be read and have the bytes. *)
Inductive shows (rd : reader) (v : volume) (t : tree) : list nat -> forest -> Prop :=
| sh_empty : shows rd v t [] Empty
| sh_stream j js nd n c m s r :
    nth_error (tr_nodes t) j = Some nd -> n_subs nd = [] ->
    de_type (n_entry nd) = 2 -> de_name (n_entry nd) = n ->
    de_ctime (n_entry nd) = c -> de_mtime (n_entry nd) = m ->
    is_readable_stream rd v (n_entry nd) s ->
    shows rd v t js r -> shows rd v t (j :: js) (AddStream n c m s r)
| sh_storage j js nd n c m a r :
    nth_error (tr_nodes t) j = Some nd -> shows rd v t (n_subs nd) a ->
    de_type (n_entry nd) = 1 -> de_name (n_entry nd) = n ->
    de_ctime (n_entry nd) = c -> de_mtime (n_entry nd) = m ->
    shows rd v t js r -> shows rd v t (j :: js) (AddStorage n c m a r).

(** A client that walks over the items of an opened file through the API and
    reads every stream whole.  [items_from] gives the last [m] of the [n] sub
    items of the item [k]. *)
Section Client.
Variable rd : reader.
Variable v : volume.
Variable t : tree.

Fixpoint items_from (below : nat -> option forest) (k : nat) (n : Z) (m : nat) : option forest :=
  match m with
  | O => Some Empty
  | S m' =>
      match get_sub_item t k (n - Z.of_nat m) with
      | Ok j =>
          match node_value t j, items_from below k n m' with
          | Ok d, Some r =>
              if de_type d =? 2 then
                match stream_read_buffer rd v d 0 (de_size d) (de_size d) [] with
                | (Ok (s, _), _) => Some (AddStream (de_name d) (de_ctime d) (de_mtime d) s r)
                | _ => None
                end
              else
                match below j with
                | Some a => Some (AddStorage (de_name d) (de_ctime d) (de_mtime d) a r)
                | None => None
                end
          | _, _ => None
          end
      | _ => None
      end
  end.

(** The items below the item [k], at most [fuel] levels. *)
Fixpoint items_below (fuel : nat) (k : nat) : option forest :=
  match fuel with
  | O => None
  | S fuel' =>
      match get_number_of_sub_items t k with
      | Ok n => items_from (items_below fuel') k n (Z.to_nat n)
      | _ => None
      end
  end.
End Client.

Fixpoint depth (fo : forest) : nat :=
  match fo with
  | Empty => 1
  | AddStream _ _ _ _ r => depth r
  | AddStorage _ _ _ a r => Nat.max (S (depth a)) (depth r)
  end.

(** The document of an opened file.  A file without items has no root item. *)
Definition read_back (fuel : nat) (rd : reader) (o : opened) : option document :=
  match o_tree o with
  | None => None
  | Some t =>
      match get_root_item (o_tree o) with
      | Ok (Some k) =>
          match node_value t k, items_below rd (opened_volume o) t fuel k with
          | Ok d, Some x => Some {| doc_name := de_name d; doc_ctime := de_ctime d; doc_mtime := de_mtime d; doc_items := x |}
          | _, _ => None
          end
      | _ => None
      end
  end.

(** The number of sectors of a read fits an int: sectors of at least 4 bytes or
    streams of at most 1 GiB. *)
Definition few_blocks (fm : format) (doc : document) : Prop :=
  2 <= fm_short fm \/ Forall (fun s => zlen s <= 2 ^ 30) (streams (doc_items doc)).
