(** Model of the functions of libolecf/libolecf_io_handle.c that load the
    allocation tables and the directory, and of
    libolecf_directory_entry_read_data. *)
From Coq Require Import ZArith List Bool.
From Verif Require Import Base M_Table.
Import ListNotations.
Open Scope Z_scope.

(** LIBOLECF_MAXIMUM_ALLOCATION_TABLE_RECURSION_DEPTH and
    LIBOLECF_MAXIMUM_DIRECTORY_ENTRIES_RECURSION_DEPTH,
    libolecf/libolecf_definitions.h.in lines 145-146. *)
Definition MAX_TABLE_DEPTH : Z := 256.
Definition MAX_DIRECTORY_DEPTH : Z := 1024.

(** Offset of a sector, as computed in lines 364, 625, 870, 1172 and 1662 of
    libolecf_io_handle.c: the identifier is an uint32_t, so the addition of 1
    wraps around; the product is computed in a size_t (64-bit). *)
Definition sector_offset (id ss : Z) : Z := u32 (id + 1) * ss.

(** ** Master sector allocation table *)

(** libolecf_io_handle_read_msat lines 408-452: the entries of one sector.
    Yields the table, msat_index and the position after the last entry. *)
Fixpoint msat_sector_loop (n : nat) (e : endian) (sector : list Z) (pos : Z)
         (msat : list Z) (msat_index : Z) : res (list Z * Z * Z) :=
  match n with
  | O => Ok (msat, msat_index, pos)
  | S n' =>
      if (msat_index <? 0) || (zlen msat <=? msat_index) then Err
      else
        do v <- get_u32 e sector pos;
        do msat' <- arr_set msat msat_index v;
        msat_sector_loop n' e sector (pos + 4) msat' (msat_index + 1)
  end.

(** libolecf_io_handle_read_msat lines 345-476. *)
Fixpoint msat_loop (fuel : nat) (rd : reader) (e : endian) (ss entries : Z)
         (msat : list Z) (msat_index id depth : Z) : io (list Z) :=
  match fuel with
  | O => ilift NoFuel
  | S fuel' =>
      if id =? END_OF_CHAIN then iret msat
      else if MAX_TABLE_DEPTH <? depth then ierr
      else if zlen msat <=? msat_index then iret msat
      else
        dio sector <- read_exact rd (sector_offset id ss) ss;
        dio (msat', msat_index', pos) <-
          ilift (msat_sector_loop (Z.to_nat entries) e sector 0 msat msat_index);
        dio id' <- ilift (get_u32 e sector pos);
        msat_loop fuel' rd e ss entries msat' msat_index' id' (depth + 1)
  end.

(** libolecf_io_handle_read_msat, lines 201-490.  Line 312 computes the number
    of entries in a size_t and stores it in an int. *)
Definition read_msat (rd : reader) (e : endian) (ss : Z) (msat : list Z)
           (id n : Z) : io (list Z) :=
  if (ss =? 0) || (MEMORY_MAXIMUM_ALLOCATION_SIZE <? ss) then ierr
  else if zlen msat <? 109 then ierr
  else if (id =? END_OF_CHAIN) && (n =? 0) then iret msat
  else if id =? END_OF_CHAIN then ierr
  else
    let n := if n =? 0 then 1 else n in
    let entries := ss / 4 in
    if entries =? 0 then ierr
    else
      let entries := entries - 1 in
      let number_of_msat_entries := s32 (109 + n * entries) in
      dio msat1 <- ilift (if zlen msat <? number_of_msat_entries
                          then table_resize msat number_of_msat_entries
                          else Ok msat);
      msat_loop 258 rd e ss entries msat1 109 id 0.

(** ** Sector allocation table *)

(** libolecf_io_handle_read_sat lines 669-700: there is no bounds check. *)
Fixpoint sat_sector_loop (n : nat) (e : endian) (sector : list Z) (pos : Z)
         (sat : list Z) (sat_index : Z) : res (list Z * Z) :=
  match n with
  | O => Ok (sat, sat_index)
  | S n' =>
      do v <- get_u32 e sector pos;
      do sat' <- arr_set sat sat_index v;
      sat_sector_loop n' e sector (pos + 4) sat' (sat_index + 1)
  end.

(** libolecf_io_handle_read_sat lines 594-708.  [msat] is what is left of the
    master table.  A failed read goes to on_error, which returns 1 with the
    table as it is at that point (lines 714-720). *)
Fixpoint sat_loop (rd : reader) (e : endian) (ss entries : Z)
         (msat : list Z) (sat : list Z) (sat_index : Z) : io (list Z) :=
  match msat with
  | [] => iret sat
  | id :: msat' =>
      if id =? UNUSED then sat_loop rd e ss entries msat' sat sat_index
      else if zlen sat <=? sat_index then iret sat
      else
        dio r <- read_at rd (sector_offset id ss) ss;
        match r with
        | None => iret sat
        | Some sector =>
            dio (sat', sat_index') <-
              ilift (sat_sector_loop (Z.to_nat entries) e sector 0 sat sat_index);
            sat_loop rd e ss entries msat' sat' sat_index'
        end
  end.

(** libolecf_io_handle_read_sat, lines 496-721.  A failure to resize also goes
    to on_error, that is, success with the table unchanged. *)
Definition read_sat (rd : reader) (e : endian) (ss : Z) (msat sat : list Z)
           (n : Z) : io (list Z) :=
  if (ss =? 0) || (MEMORY_MAXIMUM_ALLOCATION_SIZE <? ss) then ierr
  else
    let entries := ss / 4 in
    let number_of_sat_entries := s32 (n * entries) in
    match (if zlen sat <? number_of_sat_entries
           then table_resize sat number_of_sat_entries
           else Ok sat) with
    | Ok sat1 => sat_loop rd e ss entries msat sat1 0
    | _ => iret sat
    end.

(** ** Short sector allocation table *)

(** libolecf_io_handle_read_ssat lines 914-958.  The boolean is false if the
    index got out of bounds; the entries stored before are kept. *)
Fixpoint ssat_sector_loop (n : nat) (e : endian) (sector : list Z) (pos : Z)
         (ssat : list Z) (ssat_index : Z) : res (list Z * Z * bool) :=
  match n with
  | O => Ok (ssat, ssat_index, true)
  | S n' =>
      if (ssat_index <? 0) || (zlen ssat <=? ssat_index)
      then Ok (ssat, ssat_index, false)
      else
        do v <- get_u32 e sector pos;
        do ssat' <- arr_set ssat ssat_index v;
        ssat_sector_loop n' e sector (pos + 4) ssat' (ssat_index + 1)
  end.

(** libolecf_io_handle_read_ssat lines 827-997.  Everything that goes to
    on_error returns 1 with the table as it is (lines 1003-1009). *)
Fixpoint ssat_loop (fuel : nat) (rd : reader) (e : endian) (ss entries : Z)
         (sat ssat : list Z) (ssat_index id n sector_index depth : Z)
  : io (list Z) :=
  match fuel with
  | O => ilift NoFuel
  | S fuel' =>
      if id =? END_OF_CHAIN then iret ssat
      else if MAX_TABLE_DEPTH <? depth then iret ssat
      else if n <=? sector_index then iret ssat
      else if id =? UNUSED then
        ssat_loop fuel' rd e ss entries sat ssat ssat_index id n
                  (sector_index + 1) (depth + 1)
      else
        dio r <- read_at rd (sector_offset id ss) ss;
        match r with
        | None => iret ssat
        | Some sector =>
            dio (ssat', ssat_index', ok) <-
              ilift (ssat_sector_loop (Z.to_nat entries) e sector 0 ssat ssat_index);
            if negb ok then iret ssat'
            else match table_next sat id with
                 | Ok id' =>
                     ssat_loop fuel' rd e ss entries sat ssat' ssat_index' id' n
                               (sector_index + 1) (depth + 1)
                 | Err => iret ssat'
                 | Undef => ilift Undef
                 | NoFuel => ilift NoFuel
                 end
        end
  end.

(** libolecf_io_handle_read_ssat, lines 727-1010. *)
Definition read_ssat (rd : reader) (e : endian) (ss : Z) (sat ssat : list Z)
           (id n : Z) : io (list Z) :=
  if (ss =? 0) || (MEMORY_MAXIMUM_ALLOCATION_SIZE <? ss) then ierr
  else
    let entries := ss / 4 in
    let number_of_ssat_entries := s32 (n * entries) in
    match (if zlen ssat <? number_of_ssat_entries
           then table_resize ssat number_of_ssat_entries
           else Ok ssat) with
    | Ok ssat1 => ssat_loop 258 rd e ss entries sat ssat1 0 id n 0 0
    | _ => iret ssat
    end.

(** ** Directory entries *)

(** LIBOLECF_ITEM_TYPE_*, include/libolecf/definitions.h.in. *)
Definition TYPE_EMPTY : Z := 0.
Definition TYPE_STORAGE : Z := 1.
Definition TYPE_STREAM : Z := 2.
Definition TYPE_ROOT_STORAGE : Z := 5.

(** libolecf_directory_entry_t, libolecf/libolecf_directory_entry.h lines
    36-79.  name_size is the length of the name; the set_in_tree flag is part
    of the state of the tree construction, see M_Tree.v. *)
Record dirent := {
  de_id : Z;
  de_type : Z;
  de_name : list Z;
  de_prev : Z;
  de_next : Z;
  de_sub : Z;
  de_ctime : Z;
  de_mtime : Z;
  de_sector : Z;
  de_size : Z
}.

(** libolecf_directory_entry_read_data, lines 229-577, on one 128-byte entry of
    olecf_directory_entry_t (libolecf/olecf_directory.h lines 34-106).
    [None] is the result 0 (empty entry).  The name is copied from the first
    64-byte field, but up to 128 bytes are accepted (lines 309-350). *)
Definition dirent_read (e : endian) (index : Z) (data : list Z)
  : res (option dirent) :=
  if zlen data <? 128 then Err
  else
    do type <- arr_get data 66;
    if type =? TYPE_EMPTY then Ok None
    else
      do name_data_size <- get_u16 e data 64;
      if 128 <? name_data_size then Err
      else
        do prev <- get_u32 e data 68;
        do next <- get_u32 e data 72;
        do sub <- get_u32 e data 76;
        do ctime <- get_u64 e data 100;
        do mtime <- get_u64 e data 108;
        do sector <- get_u32 e data 116;
        do size <- get_u32 e data 120;
        Ok (Some {| de_id := u32 index;
                    de_type := type;
                    de_name := slice data 0 name_data_size;
                    de_prev := prev;
                    de_next := next;
                    de_sub := sub;
                    de_ctime := ctime;
                    de_mtime := mtime;
                    de_sector := sector;
                    de_size := size |}).

(** libolecf_io_handle_read_directory_entries lines 1216-1302: the entries of
    one sector.  [pos] is directory_entry_data - directory_sector. *)
Fixpoint dir_sector_loop (n : nat) (e : endian) (sector : list Z) (pos : Z)
         (acc : list dirent) (index : Z) : res (list dirent * Z) :=
  match n with
  | O => Ok (acc, index)
  | S n' =>
      do o <- dirent_read e index (slice sector pos 128);
      dir_sector_loop n' e sector (pos + 128)
                      (match o with Some d => acc ++ [d] | None => acc end)
                      (index + 1)
  end.

(** libolecf_io_handle_read_directory_entries lines 1126-1360.  The range list
    of visited sectors (libcdata) is the list of their identifiers. *)
Fixpoint dir_loop (fuel : nat) (rd : reader) (e : endian) (ss entries : Z)
         (sat : list Z) (acc : list dirent) (index id : Z) (visited : list Z)
         (depth : Z) : io (list dirent) :=
  match fuel with
  | O => ilift NoFuel
  | S fuel' =>
      if (id =? END_OF_CHAIN) || (id =? UNUSED) then iret acc
      else if MAX_DIRECTORY_DEPTH <? depth then ierr
      else if existsb (Z.eqb id) visited then iret acc
      else
        dio sector <- read_exact rd (sector_offset id ss) ss;
        dio (acc', index') <-
          ilift (dir_sector_loop (Z.to_nat entries) e sector 0 acc index);
        dio id' <- ilift (table_next sat id);
        dir_loop fuel' rd e ss entries sat acc' index' id' (id :: visited)
                 (depth + 1)
  end.

(** libolecf_io_handle_read_directory_entries, lines 1016-1407. *)
Definition read_directory (rd : reader) (e : endian) (ss : Z) (sat : list Z)
           (root : Z) : io (list dirent) :=
  if (ss =? 0) || (MEMORY_MAXIMUM_ALLOCATION_SIZE <? ss)
     || negb (ss mod 128 =? 0) then ierr
  else if root =? END_OF_CHAIN then ierr
  else dir_loop 1026 rd e ss (ss / 128) sat [] 0 root [] 0.
