(** Specification of the tables and the directory of a file, in terms of the
    sectors of the file. *)
From Coq Require Import ZArith List Bool Sorted.
From Verif Require Import Base M_Header M_Load M_Tree Spec_Stream Spec_Load Spec_Tree.
Import ListNotations.
Open Scope Z_scope.

(** The 32-bit values of sectors of the file [f], one after the other. *)
Definition words_of_sectors (e : endian) (f : list Z) (ss : Z) (ids : list Z) : list Z :=
  flat_map (fun id => words e (sector_at f ss id)) ids.

(** The values of sectors of the master chain: all but the last of each. *)
Definition master_values (e : endian) (f : list Z) (ss : Z) (ids : list Z) : list Z :=
  flat_map (fun id => removelast (words e (sector_at f ss id))) ids.

(** [master_chain e f ss first ids last]: the sectors [ids] are linked by
    their last values, the first is [first], and the last value of the last
    is [last]. *)
Inductive master_chain (e : endian) (f : list Z) (ss : Z) : Z -> list Z -> Z -> Prop :=
| mch_end id : master_chain e f ss id [] id
| mch_sector id ids last :
    id <> EOC ->
    master_chain e f ss (last_word e (sector_at f ss id)) ids last ->
    master_chain e f ss id (id :: ids) last.

(** The contents of sectors of the file. *)
Definition bytes_of_sectors (f : list Z) (ss : Z) (ids : list Z) : list Z :=
  flat_map (sector_at f ss) ids.

(** The sector is inside the file. *)
Definition sector_inside (f : list Z) (ss id : Z) : Prop :=
  fst (request ss id) + ss <= zlen f.

(** [ids] are the first sectors of the chain that starts at [first]. *)
Definition chain_start (sat : list Z) (first : Z) (ids : list Z) : Prop :=
  forall k id, nth_error ids k = Some id -> nth_sector sat first k id.

(** A slot with a name that is too long. *)
Definition long_name (e : endian) (slot : list Z) : Prop :=
  ~ slot_empty slot /\ 128 < value_at e slot 64 2.

(** ** What a file says
    The 109 values of the master table in the header. *)
Definition header_values_of (e : endian) (f : list Z) : list Z :=
  map (fun k => value_at e (slice f 0 512) (76 + 4 * Z.of_nat k) 4) (seq 0 109).

(** The master table: the values of the header and those of the [ids] sectors
    of the master chain, filled up with zeros.  [n] is the number of sectors
    of the master chain in the header; 0 counts as 1. *)
Definition master_table (e : endian) (f : list Z) (ss id n : Z) (msat : list Z) : Prop :=
  (id = EOC /\ n = 0 /\ msat = header_values_of e f) \/
  (id <> EOC /\
   let m := if n =? 0 then 1 else n in
   109 + m * (ss / 4 - 1) <= 33554432 /\
   exists ids last,
     master_chain e f ss id ids last /\ Forall (sector_inside f ss) ids /\
     zlen ids <= m /\
     ((last = EOC /\ zlen ids <= 257) \/ (zlen ids = m /\ m <= 256)) /\
     msat = header_values_of e f ++ master_values e f ss ids ++
            zeros ((m - zlen ids) * (ss / 4 - 1))).

(** The sector allocation table: the values of the sectors [ids] up to the
    first that is not inside the file or to the number of sectors in the
    header, filled up with zeros. *)
Definition allocation_table (e : endian) (f : list Z) (ss : Z) (ids : list Z) (n : Z)
           (sat : list Z) : Prop :=
  let room := if n * (ss / 4) <=? 33554432 then n else 0 in
  exists k : nat,
    Z.of_nat k <= room /\ (k <= length ids)%nat /\
    Forall (sector_inside f ss) (firstn k ids) /\
    (Z.of_nat k = room \/ k = length ids \/
     exists id, nth_error ids k = Some id /\ ~ sector_inside f ss id) /\
    sat = words_of_sectors e f ss (firstn k ids) ++ zeros ((room - Z.of_nat k) * (ss / 4)).

(** The short sector allocation table: the values of the sectors [ids] of the
    chain that starts at [first], at most 257 of them and up to the first that
    is not inside the file, filled up with zeros. *)
Definition short_table (e : endian) (f : list Z) (ss : Z) (sat : list Z) (first n : Z)
           (ssat : list Z) : Prop :=
  let room := if n * (ss / 4) <=? 33554432 then n else 0 in
  exists ids,
    zlen ids <= room /\ zlen ids <= 257 /\
    chain_start sat first ids /\ Forall (fun id => id <> EOC /\ id <> FREE) ids /\
    Forall (sector_inside f ss) ids /\
    (zlen ids = room \/ zlen ids = 257 \/
     (forall x, ~ nth_sector sat first (length ids) x) \/
     exists x, nth_sector sat first (length ids) x /\
               (x = EOC \/ x = FREE \/ ~ sector_inside f ss x)) /\
    ssat = words_of_sectors e f ss ids ++ zeros ((room - zlen ids) * (ss / 4)).

(** The directory: the entries of the sectors [ids] of the chain that starts
    at [first]; [last] ends it. *)
Definition directory (e : endian) (f : list Z) (ss : Z) (sat : list Z) (first : Z)
           (l : list dirent) : Prop :=
  first <> EOC /\
  exists ids last,
    chain_start sat first ids /\ nth_sector sat first (length ids) last /\
    NoDup ids /\ Forall (fun id => id <> EOC /\ id <> FREE) ids /\
    Forall (sector_inside f ss) ids /\
    (((last = EOC \/ last = FREE) /\ zlen ids <= 1025) \/ (In last ids /\ zlen ids <= 1024)) /\
    (forall k, (k < length ids * Z.to_nat (ss / 128))%nat ->
       ~ long_name e (slot_of (bytes_of_sectors f ss ids) k)) /\
    map fields_of l = slots_entries e (bytes_of_sectors f ss ids) (length ids * Z.to_nat (ss / 128)).

(** Header, tables and directory of a file. *)
Definition file_says (f : list Z) (h : file_header) (msat sat ssat : list Z) (l : list dirent) : Prop :=
  let e := fh_byte_order h in
  let ss := fh_sector_size h in
  header_acceptable (slice f 0 512) e /\ h = decoded e (slice f 0 512) /\ 128 <= ss /\
  master_table e f ss (fh_msat_sector_identifier h) (fh_number_of_msat_sectors h) msat /\
  allocation_table e f ss (used_ids msat) (fh_number_of_sat_sectors h) sat /\
  short_table e f ss sat (fh_ssat_sector_identifier h) (fh_number_of_ssat_sectors h) ssat /\
  directory e f ss sat (fh_root_directory_sector_identifier h) l.

(** The tables declared in the header fit the types of the library. *)
Definition moderate (h : file_header) : Prop :=
  let entries := fh_sector_size h / 4 in
  109 + Z.max 1 (fh_number_of_msat_sectors h) * (entries - 1) < 2147483648 /\
  fh_number_of_sat_sectors h * entries < 2147483648 /\
  fh_number_of_ssat_sectors h * entries < 2147483648.

(** The first entry of type 5. *)
Definition first_root (l : list dirent) (root : dirent) : Prop :=
  de_type root = 5 /\
  exists pre post, l = pre ++ root :: post /\ Forall (fun d => de_type d <> 5) pre.

(** The links of the directory are those of a tree the library accepts: no
    directory at all, a root without sub items, or links from the root that
    unfold to a finite tree with distinct entries.  A root that is not in slot
    0 must not have siblings. *)
Definition links_ok (u : una) (e : endian) (l : list dirent) : Prop :=
  l = [] \/
  exists root, first_root l root /\
    (de_sub root = FREE \/
     (de_id root = 0 /\
      exists t, unfolds l [root] t /\ NoDup (map de_id (unfolded t)) /\
        prev_targets l root = [] /\ next_targets l root = [] /\
        Forall (fun d => ~ dangling_next l d /\ name_comparable u e d) (unfolded t)) \/
     (de_id root <> 0 /\ name_comparable u e root /\
      prev_targets l root = [] /\ de_next root = FREE)).
