(** Model of libolecf_file_open_read (libolecf/libolecf_file.c). *)
From Coq Require Import ZArith List Bool.
From Verif Require Import Base M_Table M_Header M_Load M_Stream M_Tree.
Import ListNotations.
Open Scope Z_scope.

(** What libolecf_file_open_read leaves in libolecf_internal_file_t and its
    io_handle.  [o_entries] is the directory entry list, which is local to the
    function; it is kept to speak about the entries. *)
Record opened := {
  o_header : file_header;
  o_msat : list Z;
  o_sat : list Z;
  o_ssat : list Z;
  o_entries : list dirent;
  o_tree : option tree
}.

(** libolecf_file_open_read lines 941-1140: everything after the header. *)
Definition open_tables (u : una) (rd : reader) (h : file_header) (msat0 : list Z)
  : io opened :=
  let e := fh_byte_order h in
  let ss := fh_sector_size h in
  dio msat <- read_msat rd e ss msat0 (fh_msat_sector_identifier h)
                        (fh_number_of_msat_sectors h);           (* 955-971 *)
  dio sat0 <- ilift (table_initialize 0);                        (* 979-992 *)
  dio sat <- read_sat rd e ss msat sat0 (fh_number_of_sat_sectors h);
  dio ssat0 <- ilift (table_initialize 0);                       (* 1017-1030 *)
  dio ssat <- read_ssat rd e ss sat ssat0 (fh_ssat_sector_identifier h)
                        (fh_number_of_ssat_sectors h);
  dio l <- read_directory rd e ss sat (fh_root_directory_sector_identifier h);
  dio tr <- ilift (create_tree u e l);                           (* 1106-1125 *)
  iret {| o_header := h; o_msat := msat; o_sat := sat; o_ssat := ssat;
          o_entries := l; o_tree := tr |}.

(** libolecf_file_open_read, lines 805-1189. *)
Definition open_read (u : una) (rd : reader) : io opened :=
  dio msat0 <- ilift (table_initialize 109);                     (* 912-925 *)
  dio (h, msat1) <- header_read rd msat0;                        (* 926-940 *)
  open_tables u rd h msat1.

(** The volume that stream reads use.  Without a tree the start of the chain
    of the short sectors is what the field held before; there are no items
    then. *)
Definition opened_volume (o : opened) : volume :=
  {| v_byte_order := fh_byte_order (o_header o);
     v_sector_size := fh_sector_size (o_header o);
     v_short_sector_size := fh_short_sector_size (o_header o);
     v_minimum_size := fh_sector_stream_minimum_data_size (o_header o);
     v_container_start := match o_tree o with
                          | Some t => tr_container_start t
                          | None => 0
                          end;
     v_sat := o_sat o;
     v_ssat := o_ssat o |}.
