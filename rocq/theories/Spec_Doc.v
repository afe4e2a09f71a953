(** What clients and tools find in a file that holds a document of Spec_Stores:
    items by their names, the mounted file system, the exported directories. *)
From Coq Require Import ZArith List Bool.
From Verif Require Import Base Spec_IO M_Header M_Table M_Load M_Stream M_Tree M_Open M_Item
  Spec_Stream Spec_Load Spec_Tree Spec_Content Spec_Item Spec_Write Spec_Stores.
Import ListNotations.
Open Scope Z_scope.

(** A file with a document that has items, behind an I/O layer that reads it. *)
Record holds (u : una) (rd : reader) (h : file_header) (root : dirent) (doc : document) : Prop := {
  hd_una : una_ok u;
  hd_bytes : io_bytes rd;
  hd_file : exists f, stores u f h root doc /\ io_sound rd f /\ io_total rd f;
  hd_items : doc_items doc <> Empty
}.

(** The number of sectors of a read fits an int. *)
Definition few_sectors (h : file_header) (doc : document) : Prop :=
  4 <= fh_short_sector_size h \/ Forall (fun s => zlen s <= 2 ^ 30) (streams (doc_items doc)).

(** * Items by name *)
Inductive item :=
| Stream (name : list Z) (ctime mtime : Z) (data : list Z)
| Storage (name : list Z) (ctime mtime : Z) (subs : forest).

Definition name_of (i : item) : list Z :=
  match i with Stream n _ _ _ | Storage n _ _ _ => n end.

(** The items of a forest. *)
Fixpoint members (fo : forest) : list item :=
  match fo with
  | Empty => []
  | AddStream n c m s r => Stream n c m s :: members r
  | AddStorage n c m a r => Storage n c m a :: members r
  end.

(** A place in a document: the root or an item. *)
Inductive place := Top | At (i : item).

Definition below (doc : document) (p : place) : forest :=
  match p with
  | Top => doc_items doc
  | At (Stream _ _ _ _) => Empty
  | At (Storage _ _ _ a) => a
  end.

(** The place that names lead to: each is that of the first item for which
    [same] says so. *)
Fixpoint reached (doc : document) (same : list Z -> list Z -> bool) (p : place) (names : list (list Z))
  : option place :=
  match names with
  | [] => Some p
  | q :: names' =>
      match find (fun i => same q (name_of i)) (members (below doc p)) with
      | Some i => reached doc same (At i) names'
      | None => None
      end
  end.

(** The entry of the root or of an item. *)
Definition entry_of (doc : document) (p : place) (d : dirent) : Prop :=
  match p with
  | Top => de_type d = 5 /\ de_name d = doc_name doc /\ de_ctime d = doc_ctime doc /\ de_mtime d = doc_mtime doc
  | At (Stream n c m s) => de_type d = 2 /\ de_name d = n /\ de_ctime d = c /\ de_mtime d = m /\ de_size d = zlen s
  | At (Storage n c m _) => de_type d = 1 /\ de_name d = n /\ de_ctime d = c /\ de_mtime d = m /\ de_size d = 0
  end.

(** The item [k] of an opened file is the one at [p]: it has the values, the
    sub items are those of the document, and a stream can be read. *)
Definition item_at (rd : reader) (v : volume) (t : tree) (doc : document) (p : place) (k : nat) : Prop :=
  exists nd, nth_error (tr_nodes t) k = Some nd /\ entry_of doc p (n_entry nd) /\
    shows rd v t (n_subs nd) (below doc p) /\
    match p with At (Stream _ _ _ s) => is_readable_stream rd v (n_entry nd) s | _ => True end.

(** The answer of a lookup, for what the names lead to. *)
Definition answer (rd : reader) (v : volume) (t : tree) (doc : document) (p : option place)
           (r : res (option nat)) : Prop :=
  match p with
  | Some p => exists k, r = Ok (Some k) /\ item_at rd v t doc p k
  | None => r = Ok None
  end.

(** [compare] is decided by [same] for the names of a document. *)
Definition compares (compare : list Z -> list Z -> res bool) (same : list Z -> list Z -> bool)
           (names : list (list Z)) (doc : document) : Prop :=
  names_ok (fun n => forall q, In q names -> compare q n = Ok (same q n)) (doc_items doc).
