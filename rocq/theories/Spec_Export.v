(** Specification of the export of items into the host file system. *)
From Coq Require Import ZArith List Bool.
From Verif Require Import Base Spec_IO M_Table M_Load M_Stream M_Tree M_Item Spec_Stream Spec_Content
  Spec_Tree M_Export.
Import ListNotations.
Open Scope Z_scope.

(** The tree of an opened file: sub items come later in the list of nodes, and
    every item is in one list of sub items at most, once. *)
Record tree_shape (t : tree) : Prop := {
  ts_later : forall k j, item_sub t k j -> (k < j < length (tr_nodes t))%nat;
  ts_one : forall k k' j, item_sub t k j -> item_sub t k' j -> k = k';
  ts_nodup : forall k n, nth_error (tr_nodes t) k = Some n -> NoDup (n_subs n)
}.

(** The name of the directory made for an entry. *)
Definition safe_name (ho : host) (e : endian) (d : dirent) (n : list Z) : Prop :=
  exists raw, ho_name ho (de_name d) e = Some raw /\ ho_sanitize ho raw = Some n.

(** What libcpath guarantees: a sanitized name has no separator. *)
Definition host_ok (ho : host) : Prop :=
  forall raw n, ho_sanitize ho raw = Some n -> ~ In 47 n.

(** There is nothing at the path [p] and nothing below it. *)
Definition vacant (s : disk) (p : list Z) : Prop :=
  on_disk s p = None /\ forall q, on_disk s (p ++ 47 :: q) = None.

(** Nothing is in a directory that is not there. *)
Definition no_stray (s : disk) : Prop :=
  forall p q, on_disk s p = None -> on_disk s (p ++ 47 :: q) = None.

(** The data of an item: the bytes of a stream, nothing for an item without
    size. *)
Definition item_data (rd : reader) (v : volume) (d : dirent) (s : list Z) : Prop :=
  (de_size d = 0 /\ s = []) \/ is_stream rd v d s.

(** [placed ... k p j q]: if the directory of item [k] is [p] then the one of
    item [j], below [k], is [q]: the names of the items on the way. *)
Inductive placed (ho : host) (e : endian) (t : tree) (k : nat) (p : list Z)
  : nat -> list Z -> Prop :=
| pl_self : placed ho e t k p k p
| pl_sub j q i d n :
    placed ho e t k p j q -> item_sub t j i -> item_entry t i d -> safe_name ho e d n ->
    placed ho e t k p i (q ++ 47 :: n).

(** "StreamData.bin" *)
Definition data_path (p : list Z) : list Z :=
  p ++ [47; 83; 116; 114; 101; 97; 109; 68; 97; 116; 97; 46; 98; 105; 110].

(** The tree can be exported: every item has a name of its own among its
    siblings, other than that of the data file and than "." and "..", and a
    stream that can be read, or no data. *)
Definition exportable (ho : host) (rd : reader) (v : volume) (t : tree) : Prop :=
  tree_shape t /\
  (forall k j d, item_sub t k j -> item_entry t j d ->
     (exists n, safe_name ho (v_byte_order v) d n /\ ~ In 47 n /\
        ~ In n [[46]; [46; 46]; [83; 116; 114; 101; 97; 109; 68; 97; 116; 97; 46; 98; 105; 110]]) /\
     (de_size d = 0 \/ exists s, is_readable_stream rd v d s)) /\
  (forall k i j d d' n, item_sub t k i -> item_sub t k j -> item_entry t i d -> item_entry t j d' ->
     safe_name ho (v_byte_order v) d n -> safe_name ho (v_byte_order v) d' n -> i = j).

(** The outcome of exporting the tree below the item [k], of which the
    directory is [p]. *)
Definition expected (ho : host) (rd : reader) (v : volume) (t : tree) (k : nat) (p : list Z)
           (q : list Z) (x : file_entry) : Prop :=
  exists j r d,
    placed ho (v_byte_order v) t k p j r /\ j <> k /\ item_entry t j d /\
    ((q = r /\ x = Directory) \/
     (q = data_path r /\ exists s, item_data rd v d s /\ x = Data s)).
