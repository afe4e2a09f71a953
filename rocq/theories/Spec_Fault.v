(** Files that are cut off, and I/O that fails now and then, while a document
    is read. *)
From Coq Require Import ZArith List Bool.
From Verif Require Import Base Spec_IO M_Header M_Table M_Load M_Stream M_Tree M_Open
  Spec_Stream Spec_Load Spec_Open Spec_Content.
Import ListNotations.
Open Scope Z_scope.

(** The first [n] bytes of a file. *)
Definition cut (n : Z) (f : list Z) : list Z := firstn (Z.to_nat n) f.

(** The [n] bytes at [off] are delivered whenever they are asked for. *)
Definition always_read (rd : reader) (off n : Z) : Prop :=
  forall t, exists l, rd t off n = Some l /\ zlen l = n.

(** The sectors of the two allocation tables of an opened file: those of the
    master table, and the chain of the short table. *)
Definition table_sector (o : opened) (id : Z) : Prop :=
  In id (used_ids (o_msat o)) \/
  exists k, nth_sector (o_sat o) (fh_ssat_sector_identifier (o_header o)) k id /\ id <> EOC /\ id <> FREE.

(** Those inside the file [f] are always delivered. *)
Definition tables_read (rd : reader) (f : list Z) (o : opened) : Prop :=
  let ss := fh_sector_size (o_header o) in
  forall id, table_sector o id -> sector_inside f ss id -> always_read rd (fst (request ss id)) ss.

(** All bytes of a stream are before the offset [n] of the file. *)
Definition stream_before (v : volume) (d : dirent) (n : Z) : Prop :=
  forall i p, 0 <= i < de_size d -> stream_position v d i p -> p < n.

(** The sectors that opening a file looks at: those of the tables, of the
    master chain and of the directory. *)
Definition needed_sector (f : list Z) (o : opened) (id : Z) : Prop :=
  let h := o_header o in
  table_sector o id \/
  (exists ids last, master_chain (fh_byte_order h) f (fh_sector_size h) (fh_msat_sector_identifier h) ids last /\ In id ids) \/
  (exists k, nth_sector (o_sat o) (fh_root_directory_sector_identifier h) k id).

(** Those inside the file end before the offset [n]; so does the header. *)
Definition needed_before (f : list Z) (o : opened) (n : Z) : Prop :=
  let ss := fh_sector_size (o_header o) in
  512 <= n /\ forall id, needed_sector f o id -> sector_inside f ss id -> fst (request ss id) + ss <= n.

Definition tables_before (f : list Z) (o : opened) (n : Z) : Prop :=
  let ss := fh_sector_size (o_header o) in
  forall id, table_sector o id -> sector_inside f ss id -> fst (request ss id) + ss <= n.
