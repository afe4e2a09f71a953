(** What a mounted document looks like. *)
From Coq Require Import ZArith List Bool.
From Verif Require Import Base Spec_IO M_Header M_Table M_Load M_Stream M_Tree M_Open M_Item
  Spec_Stream Spec_Load Spec_Tree Spec_Content Spec_Item M_Mount M_Fuse Spec_Mount Spec_Fuse Spec_Write Spec_Doc.
Import ListNotations.
Open Scope Z_scope.

Definition same_list (a b : list Z) : bool := if list_eq_dec Z.eq_dec a b then true else false.

(** Characters that names in paths can have. *)
Definition path_name (cs : list Z) : Prop := cs <> [] /\ Forall (fun c => c <> 0 /\ c <> 92) cs.

(** [m] is the mount of a file with the document [doc].  The characters of the
    stored name [n] are [chars n], and libuna finds a name equal to another if
    the characters are the same. *)
Record mounts (m : mounted) (rd : reader) (h : file_header) (root : dirent) (doc : document) (chars : list Z -> list Z) : Prop := {
  ms_holds : holds (mt_una m) rd h root doc;
  ms_ok : mount_ok m;
  ms_mounted : forall o t, open_read (mt_una m) rd [] = (Ok o, t) ->
      mt_volume m = opened_volume o /\ mt_tree m = o_tree o;
  ms_names : names_ok (fun n => path_name (chars n) /\
      exists l, mt_name m n (fh_byte_order h) = Some l /\ text (mt_codec m) (chars n) l /\ zlen l <= 922337203685477580)
      (doc_items doc);
  ms_compare : forall cs l, path_name cs -> text (mt_codec m) cs l ->
      names_ok (fun n => una_utf8_compare (mt_una m) l n (fh_byte_order h) = Ok (same_list cs (chars n))) (doc_items doc)
}.

(** The path of names below the mount point: [f] is the text for [cs] in which
    characters that cannot be in a file name are escaped. *)
Definition mount_path_of (m : mounted) (css : list (list Z)) (path : list Z) : Prop :=
  Forall path_name css /\
  Forall (fun cs => exists l, text (mt_codec m) cs l /\ zlen l <= 922337203685477580) css /\
  exists fs, Forall2 (file_name_text (mt_codec m)) css fs /\ path = mount_path fs /\ zlen path < SSIZE_MAX.

(** The stat structure of a place. *)
Definition place_size (root : dirent) (p : place) : Z :=
  match p with
  | Top => de_size root
  | At (Stream _ _ _ s) => zlen s
  | At (Storage _ _ _ _) => 0
  end.

Definition place_mtime (doc : document) (p : place) : Z :=
  match p with
  | Top => doc_mtime doc
  | At (Stream _ _ t _) | At (Storage _ _ t _) => t
  end.

Definition is_stream_place (p : place) : bool :=
  match p with At (Stream _ _ _ _) => true | _ => false end.

Record looks (m : mounted) (root : dirent) (doc : document) (p : place) (s : stat) : Prop := {
  lk_size : st_size s = place_size root p;
  lk_mode : st_mode s = if is_stream_place p then 33060 else 16749;
  lk_nlink : st_nlink s = if is_stream_place p then 1 else 2;
  lk_atime : same_sign (mt_time m) (st_atime s);
  lk_ctime : same_sign (mt_time m) (st_ctime s);
  lk_mtime : same_sign (unix_time (place_mtime doc p)) (st_mtime s)
}.

(** The time of the place is one that the mount tool can convert. *)
Definition timely (doc : document) (p : place) : Prop := fits (unix_time (place_mtime doc p)).

(** The listing of a place: the items in order, with the file names. *)
Definition listed (m : mounted) (root : dirent) (doc : document) (chars : list Z -> list Z) (p : place) (l : listing) : Prop :=
  exists s rest, l = ([46], s) :: ([46; 46], stat_zero) :: rest /\ looks m root doc p s /\
    Forall2 (fun i x => file_name_text (mt_codec m) (chars (name_of i)) (fst x) /\ looks m root doc (At i) (snd x))
            (members (below doc p)) rest.
