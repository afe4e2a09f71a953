(** Specification of the file format: header, tables and directory, after
    documentation/OLE Compound File format.asciidoc. *)
From Coq Require Import ZArith List Bool.
From Verif Require Import Base M_Header M_Load Spec_Stream.
Import ListNotations.
Open Scope Z_scope.

(** ** Values in a byte order *)
Fixpoint le_value (l : list Z) : Z :=
  match l with
  | [] => 0
  | b :: l' => b + 256 * le_value l'
  end.

Definition value (e : endian) (l : list Z) : Z :=
  match e with Little => le_value l | Big => le_value (rev l) end.

(** The value of [n] bytes at offset [p]. *)
Definition value_at (e : endian) (l : list Z) (p n : Z) : Z := value e (slice l p n).

(** The bytes of a value. *)
Fixpoint le_bytes (n : nat) (x : Z) : list Z :=
  match n with
  | O => []
  | S n' => x mod 256 :: le_bytes n' (x / 256)
  end.

Definition bytes_of (e : endian) (n : nat) (x : Z) : list Z :=
  match e with Little => le_bytes n x | Big => rev (le_bytes n x) end.

(** The 32-bit values of a block. *)
Definition words (e : endian) (l : list Z) : list Z :=
  map (fun k => value_at e l (4 * Z.of_nat k) 4) (seq 0 (length l / 4)).

(** ** Sectors
    Sector 0 follows the header of one sector.  Offsets are computed modulo
    2^32 sectors, which only matters for the identifier 0xffffffff. *)
Definition sector_at (f : list Z) (ss id : Z) : list Z :=
  slice f (((id + 1) mod 4294967296) * ss) ss.

Definition request (ss id : Z) : Z * Z := (((id + 1) mod 4294967296) * ss, ss).

Definition EOC : Z := 4294967294.
Definition FREE : Z := 4294967295.

(** [delivered rd ss id s]: at some point the I/O layer delivered [s] as the
    contents of sector [id]; [refused rd ss id tr]: it did not after [tr]. *)
Definition delivered (rd : reader) (ss id : Z) (s : list Z) : Prop :=
  exists tr, rd tr (fst (request ss id)) ss = Some s /\ zlen s = ss.

Definition refused (rd : reader) (ss id : Z) (tr : trace) : Prop :=
  forall s, rd tr (fst (request ss id)) ss = Some s -> zlen s <> ss.

(** The identifiers of the master table that are in use. *)
Definition used_ids (msat : list Z) : list Z :=
  filter (fun id => negb (id =? FREE)) msat.

(** ** Chains
    The sectors of the master chain: the last value of a sector is the
    identifier of the next sector.  [secs] are the contents; [last] is the
    link after the last sector. *)
Definition last_word (e : endian) (s : list Z) : Z := value_at e s (zlen s - 4) 4.

Inductive msat_chain (e : endian) : Z -> list Z -> list (list Z) -> Z -> Prop :=
| mc_end id : msat_chain e id [] [] id
| mc_sector id s ids secs last :
    id <> EOC -> msat_chain e (last_word e s) ids secs last ->
    msat_chain e id (id :: ids) (s :: secs) last.

(** The values of a sector of the master chain: all but the last. *)
Definition msat_values (e : endian) (s : list Z) : list Z := removelast (words e s).

(** ** Directory entries, after the layout of the documentation. *)
Record entry_fields := {
  ef_id : Z;
  ef_type : Z;
  ef_name : list Z;
  ef_prev : Z;
  ef_next : Z;
  ef_sub : Z;
  ef_ctime : Z;
  ef_mtime : Z;
  ef_sector : Z;
  ef_size : Z
}.

Definition slot_fields (e : endian) (index : Z) (slot : list Z) : entry_fields :=
  {| ef_id := index;
     ef_type := value_at e slot 66 1;
     ef_name := slice slot 0 (value_at e slot 64 2);
     ef_prev := value_at e slot 68 4;
     ef_next := value_at e slot 72 4;
     ef_sub := value_at e slot 76 4;
     ef_ctime := value_at e slot 100 8;
     ef_mtime := value_at e slot 108 8;
     ef_sector := value_at e slot 116 4;
     ef_size := value_at e slot 120 4 |}.

Definition slot_empty (slot : list Z) : Prop := value_at Little slot 66 1 = 0.

(** The entries of the slots of a directory, each numbered by its slot. *)
Definition slot_of (bytes : list Z) (k : nat) : list Z := slice bytes (128 * Z.of_nat k) 128.

Definition slots_entries (e : endian) (bytes : list Z) (n : nat) : list entry_fields :=
  flat_map (fun k => if value_at Little (slot_of bytes k) 66 1 =? 0 then []
                     else [slot_fields e (Z.of_nat k) (slot_of bytes k)])
           (seq 0 n).

(** The fields of an entry of the library. *)
Definition fields_of (d : dirent) : entry_fields :=
  {| ef_id := de_id d; ef_type := de_type d; ef_name := de_name d;
     ef_prev := de_prev d; ef_next := de_next d; ef_sub := de_sub d;
     ef_ctime := de_ctime d; ef_mtime := de_mtime d;
     ef_sector := de_sector d; ef_size := de_size d |}.

(** ** The file header, after the layout of the documentation *)
Record header_values := {
  hv_minor : Z;
  hv_major : Z;
  hv_sector_exponent : Z;
  hv_short_exponent : Z;
  hv_sat_sectors : Z;
  hv_root : Z;
  hv_minimum : Z;
  hv_ssat : Z;
  hv_ssat_sectors : Z;
  hv_msat : Z;
  hv_msat_sectors : Z;
  hv_msat_values : list Z
}.

(** The parts of a header, in order; [sig] is the signature, [clsid], [r1],
    [r2] and [rest] are bytes the library does not look at. *)
Definition header_parts (e : endian) (sig clsid r1 r2 rest : list Z) (h : header_values)
  : list (list Z) :=
  [sig; clsid;
   bytes_of e 2 (hv_minor h); bytes_of e 2 (hv_major h);
   bytes_of e 2 65534;                          (* the byte order mark 0xfffe *)
   bytes_of e 2 (hv_sector_exponent h); bytes_of e 2 (hv_short_exponent h);
   r1;
   bytes_of e 4 (hv_sat_sectors h); bytes_of e 4 (hv_root h);
   r2;
   bytes_of e 4 (hv_minimum h);
   bytes_of e 4 (hv_ssat h); bytes_of e 4 (hv_ssat_sectors h);
   bytes_of e 4 (hv_msat h); bytes_of e 4 (hv_msat_sectors h);
   concat (map (bytes_of e 4) (hv_msat_values h));
   rest].

Definition encode_header e sig clsid r1 r2 rest h : list Z :=
  concat (header_parts e sig clsid r1 r2 rest h).

Record header_values_ok (h : header_values) : Prop := {
  hk_minor : 0 <= hv_minor h < 65536;
  hk_major : 0 <= hv_major h < 65536;
  hk_sector : 0 <= hv_sector_exponent h < 65536;
  hk_short : 0 <= hv_short_exponent h < 65536;
  hk_sat_sectors : is_u32 (hv_sat_sectors h);
  hk_root : is_u32 (hv_root h);
  hk_minimum : is_u32 (hv_minimum h);
  hk_ssat : is_u32 (hv_ssat h);
  hk_ssat_sectors : is_u32 (hv_ssat_sectors h);
  hk_msat : is_u32 (hv_msat h);
  hk_msat_sectors : is_u32 (hv_msat_sectors h);
  hk_values : Forall is_u32 (hv_msat_values h);
  hk_count : length (hv_msat_values h) = 109%nat
}.

(** The two signatures: D0 CF 11 E0 A1 B1 1A E1 and 0E 11 FC 0D D0 CF 11 0E. *)
Definition signature_bytes (l : list Z) : Prop :=
  l = [0xd0; 0xcf; 0x11; 0xe0; 0xa1; 0xb1; 0x1a; 0xe1] \/
  l = [0x0e; 0x11; 0xfc; 0x0d; 0xd0; 0xcf; 0x11; 0x0e].

(** The byte order of a header: FE FF and FF FE at offset 28. *)
Definition order_mark (data : list Z) (e : endian) : Prop :=
  slice data 28 2 = match e with Little => [0xfe; 0xff] | Big => [0xff; 0xfe] end.

(** What the library accepts. *)
Definition header_acceptable (data : list Z) (e : endian) : Prop :=
  512 <= zlen data /\ signature_bytes (slice data 0 8) /\ order_mark data e /\
  value_at e data 30 2 <= 15 /\ value_at e data 32 2 <= 15.

(** The header of a file with the byte order [e], after the layout of the
    documentation. *)
Definition decoded (e : endian) (data : list Z) : file_header :=
  {| fh_byte_order := e;
     fh_minor_format_version := value_at e data 24 2;
     fh_major_format_version := value_at e data 26 2;
     fh_number_of_sat_sectors := value_at e data 44 4;
     fh_root_directory_sector_identifier := value_at e data 48 4;
     fh_sector_stream_minimum_data_size := value_at e data 56 4;
     fh_ssat_sector_identifier := value_at e data 60 4;
     fh_number_of_ssat_sectors := value_at e data 64 4;
     fh_msat_sector_identifier := value_at e data 68 4;
     fh_number_of_msat_sectors := value_at e data 72 4;
     fh_sector_size := 2 ^ value_at e data 30 2;
     fh_short_sector_size := 2 ^ value_at e data 32 2 |}.


(** The header of given values. *)
Definition header_of_values (e : endian) (h : header_values) : file_header :=
  {| fh_byte_order := e;
     fh_minor_format_version := hv_minor h;
     fh_major_format_version := hv_major h;
     fh_number_of_sat_sectors := hv_sat_sectors h;
     fh_root_directory_sector_identifier := hv_root h;
     fh_sector_stream_minimum_data_size := hv_minimum h;
     fh_ssat_sector_identifier := hv_ssat h;
     fh_number_of_ssat_sectors := hv_ssat_sectors h;
     fh_msat_sector_identifier := hv_msat h;
     fh_number_of_msat_sectors := hv_msat_sectors h;
     fh_sector_size := 2 ^ hv_sector_exponent h;
     fh_short_sector_size := 2 ^ hv_short_exponent h |}.
