(** Model of the lookup of items: libolecf/libolecf_item.c, the lookup
    functions of libolecf/libolecf_directory_tree.c and of
    libolecf/libolecf_file.c. *)
From Coq Require Import ZArith List Bool.
From Verif Require Import Base M_Table M_Load M_Stream M_Tree M_Open.
Import ListNotations.
Open Scope Z_scope.

(** An item refers to a node of the tree, by its position in [tr_nodes].  The
    functions that return an item return the node; libolecf_item_initialize
    (lines 41-165) stores it, the directory entry that is its value and the
    stream offset 0. *)

(** libcdata_tree_node_get_number_of_sub_nodes *)
Definition sub_nodes (t : tree) (k : nat) : res (list nat) :=
  match nth_error (tr_nodes t) k with
  | None => Undef
  | Some n => Ok (n_subs n)
  end.

(** libcdata_tree_node_get_value *)
Definition node_value (t : tree) (k : nat) : res dirent :=
  match nth_error (tr_nodes t) k with
  | None => Undef
  | Some n => Ok (n_entry n)
  end.

(** libolecf_item_get_number_of_sub_items, lines 698-734. *)
Definition get_number_of_sub_items (t : tree) (k : nat) : res Z :=
  do subs <- sub_nodes t k; Ok (zlen subs).

(** libolecf_item_get_sub_item, lines 739-841.
    libcdata_tree_node_get_sub_node_by_index fails for an index outside. *)
Definition get_sub_item (t : tree) (k : nat) (index : Z) : res nat :=
  do subs <- sub_nodes t k;
  match znth subs index with
  | None => Err
  | Some j => Ok j
  end.

(** libolecf_directory_tree_get_sub_node_by_utf8_name lines 835-909 and
    _by_utf16_name lines 968-1042: [compare] is the comparison of libuna with
    the string looked for.  [None] is the result 0. *)
Fixpoint sub_node_loop (t : tree) (compare : list Z -> res bool) (subs : list nat)
  : res (option nat) :=
  match subs with
  | [] => Ok None
  | j :: subs' =>
      do d <- node_value t j;
      do equal <- compare (de_name d);
      if equal then Ok (Some j) else sub_node_loop t compare subs'
  end.

(** libolecf_directory_tree_get_sub_node_by_utf8_name, lines 782-910. *)
Definition sub_node_by_utf8_name (u : una) (e : endian) (t : tree) (k : nat)
           (name : list Z) : res (option nat) :=
  do subs <- sub_nodes t k;
  sub_node_loop t (fun n => una_utf8_compare u name n e) subs.

(** libolecf_directory_tree_get_sub_node_by_utf16_name, lines 915-1043. *)
Definition sub_node_by_utf16_name (u : una) (e : endian) (t : tree) (k : nat)
           (name : list Z) : res (option nat) :=
  do subs <- sub_nodes t k;
  sub_node_loop t (fun n => una_utf16_compare u name n e) subs.

(** LIBOLECF_SEPARATOR, line 62 of libolecf_definitions.h.in: the backslash. *)
Definition SEPARATOR := 92.

(** libolecf_item_get_sub_item_by_utf8_path lines 1159-1184: the index after
    the segment and whether it ended at a separator or at a character 0.
    [char] is libuna_unicode_character_copy_from_utf8 or _utf16. *)
Fixpoint path_segment (fuel : nat) (char : list Z -> Z -> res (Z * Z)) (s : list Z)
         (index : Z) : res (Z * bool) :=
  match fuel with
  | O => NoFuel
  | S fuel' =>
      if index <? zlen s then
        do (c, index') <- char s index;
        if (c =? SEPARATOR) || (c =? 0) then Ok (index', true)
        else path_segment fuel' char s index'
      else Ok (index, false)
  end.

(** libolecf_item_get_sub_item_by_utf8_path lines 1154-1217.  The length of the
    segment is of type size_t. *)
Fixpoint path_loop (fuel : nat) (char : list Z -> Z -> res (Z * Z))
         (by_name : nat -> list Z -> res (option nat)) (s : list Z) (index : Z)
         (k : nat) : res (option nat) :=
  match fuel with
  | O => NoFuel
  | S fuel' =>
      if index <? zlen s then
        do (index', ended) <- path_segment (length s + 1) char s index;
        let len := u64 (index' - (index + if ended then 1 else 0)) in
        if len =? 0 then Ok None
        else
          do o <- by_name k (slice s index len);
          match o with
          | None => Ok None
          | Some k' => path_loop fuel' char by_name s index' k'
          end
      else Ok (Some k)
  end.

(** libolecf_item_get_sub_item_by_utf8_path lines 1138-1217, and likewise
    libolecf_item_get_sub_item_by_utf16_path lines 1308-1387. *)
Definition sub_item_by_path (char : list Z -> Z -> res (Z * Z))
           (by_name : nat -> list Z -> res (option nat)) (s : list Z) (k : nat)
  : res (option nat) :=
  let index := match znth s 0 with
               | Some c => if c =? SEPARATOR then 1 else 0
               | None => 0
               end in
  if (zlen s =? 0) || (zlen s =? 1) then Ok (Some k)
  else path_loop (length s + 1) char by_name s index k.

(** libolecf_item_get_sub_item_by_utf8_path, lines 1075-1239. *)
Definition sub_item_by_utf8_path (u : una) (e : endian) (t : tree) (k : nat)
           (s : list Z) : res (option nat) :=
  sub_item_by_path (una_utf8_char u) (sub_node_by_utf8_name u e t) s k.

(** libolecf_item_get_sub_item_by_utf16_path, lines 1245-1409. *)
Definition sub_item_by_utf16_path (u : una) (e : endian) (t : tree) (k : nat)
           (s : list Z) : res (option nat) :=
  sub_item_by_path (una_utf16_char u) (sub_node_by_utf16_name u e t) s k.

(** libolecf_file_get_root_item, lines 1605-1670 of libolecf_file.c. *)
Definition get_root_item (o : option tree) : res (option nat) :=
  match o with
  | None => Ok None
  | Some _ => Ok (Some O)
  end.

(** libolecf_file_get_item_by_utf8_path, lines 1676-1840 of libolecf_file.c,
    and _by_utf16_path, lines 1846-2010: the loop is the one of
    libolecf_item.c started at the root node.  Without a tree a lookup of a
    name and libolecf_item_initialize fail, so only a path that starts with
    two separators gives 0. *)
Definition item_by_utf8_path (u : una) (e : endian) (o : option tree) (s : list Z)
  : res (option nat) :=
  match o with
  | Some t => sub_item_by_utf8_path u e t O s
  | None =>
      do k <- sub_item_by_path (una_utf8_char u) (fun _ _ => Err) s O;
      match k with Some _ => Err | None => Ok None end
  end.
Definition item_by_utf16_path (u : una) (e : endian) (o : option tree) (s : list Z)
  : res (option nat) :=
  match o with
  | Some t => sub_item_by_utf16_path u e t O s
  | None =>
      do k <- sub_item_by_path (una_utf16_char u) (fun _ _ => Err) s O;
      match k with Some _ => Err | None => Ok None end
  end.
