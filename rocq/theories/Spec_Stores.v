(** When a file holds a document: what its sectors, tables and directory slots
    say, however they are laid out.  The writer of Spec_Write is one of many
    ways to lay out a document. *)
From Coq Require Import ZArith List Bool Sorted.
From Verif Require Import Base Spec_IO M_Header M_Table M_Load M_Stream M_Tree
  Spec_Stream Spec_Load Spec_Tree Spec_Open Spec_Content Spec_Write.
Import ListNotations.
Open Scope Z_scope.

(** The volume that the header, the tables and the root entry tell of: the
    short sectors are in the stream of the root. *)
Definition volume_of (h : file_header) (sat ssat : list Z) (root : dirent) : volume :=
  {| v_byte_order := fh_byte_order h;
     v_sector_size := fh_sector_size h;
     v_short_sector_size := fh_short_sector_size h;
     v_minimum_size := fh_sector_stream_minimum_data_size h;
     v_container_start := de_sector root;
     v_sat := sat;
     v_ssat := ssat |}.

(** The sub items of [d] among the entries [l], in the order of their slots. *)
Definition children (l : list dirent) (d : dirent) (ds : list dirent) : Prop :=
  StronglySorted (fun a b => de_id a < de_id b) ds /\ forall s, In s ds <-> sub_item l d s.

(** The entries [ds] of a storage hold the items of a forest.  The chains of
    the streams are complete. *)
Inductive contains (f : list Z) (v : volume) (l : list dirent) : list dirent -> forest -> Prop :=
| co_empty : contains f v l [] Empty
| co_stream d ds n c m s r :
    de_type d = 2 -> de_name d = n -> de_ctime d = c -> de_mtime d = m -> children l d [] ->
    contents f v d s -> intact v d -> short_ok v d ->
    contains f v l ds r -> contains f v l (d :: ds) (AddStream n c m s r)
| co_storage d ds ds' n c m a r :
    de_type d = 1 -> de_name d = n -> de_ctime d = c -> de_mtime d = m -> de_size d = 0 -> children l d ds' ->
    contains f v l ds' a ->
    contains f v l ds r -> contains f v l (d :: ds) (AddStorage n c m a r).

(** The file [f] with the header [h] and the root entry [root] in slot 0 holds
    the document [doc]. *)
Definition stores (u : una) (f : list Z) (h : file_header) (root : dirent) (doc : document) : Prop :=
  exists msat sat ssat l ds,
    Forall is_byte f /\ file_says f h msat sat ssat l /\ moderate h /\ links_ok u (fh_byte_order h) l /\
    first_root l root /\ de_id root = 0 /\
    de_name root = doc_name doc /\ de_ctime root = doc_ctime doc /\ de_mtime root = doc_mtime doc /\
    children l root ds /\ contains f (volume_of h sat ssat root) l ds (doc_items doc).
