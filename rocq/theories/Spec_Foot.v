(** The bytes of a file that count: those that opening the file and reading
    its streams depend on. *)
From Coq Require Import ZArith List Bool.
From Verif Require Import Base Spec_IO M_Header M_Table M_Load M_Stream M_Tree M_Open
  Spec_Stream Spec_Load Spec_Open Spec_Content Spec_Write Spec_Fault.
Import ListNotations.
Open Scope Z_scope.

(** The bytes of the header, but for the class identifier and what the format
    reserves. *)
Definition header_byte (p : Z) : Prop :=
  0 <= p < 8 \/ 24 <= p < 34 \/ 44 <= p < 52 \/ 56 <= p < 512.

(** The bytes of a directory slot: of an unused one the type, of a used one
    the name, the type, the links, the times, the sector and the lower half of
    the size. *)
Definition slot_byte (e : endian) (slot : list Z) (j : Z) : Prop :=
  j = 66 \/
  (~ slot_empty slot /\
   (64 <= j < 67 \/ 68 <= j < 80 \/ 100 <= j < 124 \/ 0 <= j < Z.min 128 (value_at e slot 64 2))).

(** The offset [p] is in the sector [id]. *)
Definition in_sector (ss id p : Z) : Prop :=
  fst (request ss id) <= p < fst (request ss id) + ss.

(** Opening the file [f] depends on the byte at [p]: it is one of the header, of
    a sector of the master chain or of a table, or of a directory slot. *)
Definition looked_at (f : list Z) (o : opened) (p : Z) : Prop :=
  let h := o_header o in
  let e := fh_byte_order h in
  let ss := fh_sector_size h in
  header_byte p \/
  (exists id, (table_sector o id \/
               exists ids last, master_chain e f ss (fh_msat_sector_identifier h) ids last /\ In id ids) /\
     sector_inside f ss id /\ in_sector ss id p) \/
  (exists k id j, nth_sector (o_sat o) (fh_root_directory_sector_identifier h) k id /\
     sector_inside f ss id /\ 0 <= j /\ 128 * (j + 1) <= ss /\
     slot_byte e (slice (sector_at f ss id) (128 * j) 128) (p - fst (request ss id) - 128 * j)).

(** The byte at [p] is one of a stream. *)
Definition stream_byte (v : volume) (d : dirent) (p : Z) : Prop :=
  exists i, 0 <= i < de_size d /\ stream_position v d i p.

(** The byte of [f] at [p], if there is one, is also in [f']. *)
Definition keeps (f f' : list Z) (p : Z) : Prop := forall b, znth f p = Some b -> znth f' p = Some b.

(** [f'] is like [f] for opening: it has the same bytes where they count, and
    the same sectors are inside. *)
Definition opens_alike (f f' : list Z) (o : opened) : Prop :=
  (forall p, looked_at f o p -> keeps f f' p) /\
  (512 <= zlen f -> 512 <= zlen f') /\
  (forall id, needed_sector f o id ->
     (sector_inside f (fh_sector_size (o_header o)) id <-> sector_inside f' (fh_sector_size (o_header o)) id)).

(** And the bytes of all streams are the same. *)
Definition reads_alike (f f' : list Z) (o : opened) : Prop :=
  opens_alike f f' o /\
  forall d p, In d (o_entries o) -> de_type d = 2 -> stream_byte (opened_volume o) d p -> keeps f f' p.

(** Documents with the same items, whatever the bytes of their streams are. *)
Inductive same_items : forest -> forest -> Prop :=
| si_empty : same_items Empty Empty
| si_stream n c m s s' r r' :
    zlen s = zlen s' -> same_items r r' -> same_items (AddStream n c m s r) (AddStream n c m s' r')
| si_storage n c m a a' r r' :
    same_items a a' -> same_items r r' -> same_items (AddStorage n c m a r) (AddStorage n c m a' r').

Definition same_document (doc doc' : document) : Prop :=
  doc_name doc = doc_name doc' /\ doc_ctime doc = doc_ctime doc' /\ doc_mtime doc = doc_mtime doc' /\
  same_items (doc_items doc) (doc_items doc').
