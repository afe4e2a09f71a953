(** Model of libolecf/libolecf_file_header.c and of the signature check of
    libolecf/libolecf_support.c. *)
From Coq Require Import ZArith List Bool.
From Verif Require Import Base M_Table.
Import ListNotations.
Open Scope Z_scope.

(** olecf_file_signature and olecf_beta_file_signature,
    libolecf/libolecf_io_handle.c lines 44-45. *)
Definition file_signature : list Z := [208; 207; 17; 224; 161; 177; 26; 225].
Definition beta_file_signature : list Z := [14; 17; 252; 13; 208; 207; 17; 14].

(** libolecf_file_header_t, libolecf/libolecf_file_header.h. *)
Record file_header := {
  fh_byte_order : endian;
  fh_minor_format_version : Z;
  fh_major_format_version : Z;
  fh_number_of_sat_sectors : Z;
  fh_root_directory_sector_identifier : Z;
  fh_sector_stream_minimum_data_size : Z;
  fh_ssat_sector_identifier : Z;
  fh_number_of_ssat_sectors : Z;
  fh_msat_sector_identifier : Z;
  fh_number_of_msat_sectors : Z;
  fh_sector_size : Z;
  fh_short_sector_size : Z
}.

(** memory_compare of the first 8 bytes of the data with a constant. *)
Fixpoint list_eqb (a b : list Z) : bool :=
  match a, b with
  | [], [] => true
  | x :: a', y :: b' => (x =? y) && list_eqb a' b'
  | _, _ => false
  end.

(** libolecf_file_header_read_data lines 525-552: reads the 109 entries of the
    master table that are part of the header. *)
Fixpoint header_msat_loop (n : nat) (e : endian) (data : list Z) (pos : Z)
         (msat : list Z) (msat_index : Z) : res (list Z) :=
  match n with
  | O => Ok msat
  | S n' =>
      do v <- get_u32 e data pos;
      do msat' <- arr_set msat msat_index v;
      header_msat_loop n' e data (pos + 4) msat' (msat_index + 1)
  end.

(** libolecf_file_header_read_data, lines 144-561.  Offsets are those of
    olecf_file_header_t, libolecf/olecf_file_header.h. *)
Definition header_read_data (data : list Z) (msat : list Z)
  : res (file_header * list Z) :=
  if zlen data <? 512 then Err                                  (* 179-189 *)
  else if negb (list_eqb (slice data 0 8) file_signature)
       && negb (list_eqb (slice data 0 8) beta_file_signature)
       then Err                                                 (* 225-242 *)
  else
    do o0 <- arr_get data 28;
    do o1 <- arr_get data 29;
    do e <- (if (o0 =? 254) && (o1 =? 255) then Ok Little       (* 243-265 *)
             else if (o0 =? 255) && (o1 =? 254) then Ok Big
             else Err);
    do minor <- get_u16 e data 24;                              (* 266-357 *)
    do major <- get_u16 e data 26;
    do sector_size <- get_u16 e data 30;
    do short_sector_size <- get_u16 e data 32;
    do number_of_sat_sectors <- get_u32 e data 44;
    do root_directory <- get_u32 e data 48;
    do minimum_data_size <- get_u32 e data 56;
    do ssat_sector <- get_u32 e data 60;
    do number_of_ssat_sectors <- get_u32 e data 64;
    do msat_sector <- get_u32 e data 68;
    do number_of_msat_sectors <- get_u32 e data 72;
    if 15 <? sector_size then Err                               (* 468-478 *)
    else if 15 <? short_sector_size then Err                    (* 479-489 *)
    else
      do msat1 <- (if zlen msat <? 109 then table_resize msat 109 (* 506-522 *)
                   else Ok msat);
      do msat2 <- header_msat_loop 109 e data 76 msat1 0;       (* 523-552 *)
      Ok ({| fh_byte_order := e;
             fh_minor_format_version := minor;
             fh_major_format_version := major;
             fh_number_of_sat_sectors := number_of_sat_sectors;
             fh_root_directory_sector_identifier := root_directory;
             fh_sector_stream_minimum_data_size := minimum_data_size;
             fh_ssat_sector_identifier := ssat_sector;
             fh_number_of_ssat_sectors := number_of_ssat_sectors;
             fh_msat_sector_identifier := msat_sector;
             fh_number_of_msat_sectors := number_of_msat_sectors;
             fh_sector_size := Z.shiftl 1 sector_size;          (* 490-491 *)
             fh_short_sector_size := Z.shiftl 1 short_sector_size |},
          msat2).

(** libolecf_file_header_read_file_io_handle, lines 566-631. *)
Definition header_read (rd : reader) (msat : list Z)
  : io (file_header * list Z) :=
  dio data <- read_exact rd 0 512;
  ilift (header_read_data data msat).

(** libolecf_check_file_signature_file_io_handle,
    libolecf/libolecf_support.c lines 324-435.  The handling of the open state
    of the I/O handle is in M_File.v; the result 1 or 0 is a boolean. *)
Definition check_signature (rd : reader) : io bool :=
  dio data <- read_exact rd 0 8;
  iret (list_eqb data file_signature || list_eqb data beta_file_signature).
