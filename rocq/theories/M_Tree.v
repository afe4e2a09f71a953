(** Model of libolecf/libolecf_directory_list.c and of the construction of the
    tree of items in libolecf/libolecf_directory_tree.c. *)
From Coq Require Import ZArith List Bool.
From Verif Require Import Base M_Table M_Load.
Import ListNotations.
Open Scope Z_scope.

(** ** The libraries libuna and libcdata *)

(** The functions of libuna that the library uses on names and paths.  The
    results [Ok true], [Ok false] and [Err] of a comparison stand for
    LIBUNA_COMPARE_EQUAL, the other comparison results and -1.  The character
    functions take the string and the index of the character and yield the
    code point and the index after it. *)
Record una := {
  una_utf8_compare : list Z -> list Z -> endian -> res bool;
  una_utf16_compare : list Z -> list Z -> endian -> res bool;
  una_utf8_char : list Z -> Z -> res (Z * Z);
  una_utf16_char : list Z -> Z -> res (Z * Z)
}.

(** A node of a libcdata tree: the directory entry that is its value, the
    position of the parent node in the list of all nodes and the positions of
    the sub nodes, in order. *)
Record node := {
  n_entry : dirent;
  n_parent : option nat;
  n_subs : list nat
}.

(** State of the construction: the nodes in order of creation and the
    identifiers of the entries of which set_in_tree is 1. *)
Record tstate := {
  t_nodes : list node;
  t_flags : list Z
}.

Definition entry_of (nodes : list node) (k : nat) : option dirent :=
  option_map n_entry (nth_error nodes k).

(** libcdata_tree_node_insert_node with libolecf_directory_entry_compare
    (libolecf/libolecf_directory_entry.c lines 186-224) and
    LIBCDATA_INSERT_FLAG_UNIQUE_ENTRIES: the node goes before the first sub
    node with a larger identifier; [None] if the identifier is present. *)
Fixpoint insert_sub (nodes : list node) (k : nat) (id : Z) (subs : list nat)
  : option (list nat) :=
  match subs with
  | [] => Some [k]
  | j :: subs' =>
      match entry_of nodes j with
      | None => None
      | Some d =>
          if id =? de_id d then None
          else if id <? de_id d then Some (k :: subs)
          else option_map (cons j) (insert_sub nodes k id subs')
      end
  end.

(** libcdata_tree_node_initialize, _set_value and _insert_node: a new node for
    [d] below the node [p].  A parent that is NULL (the parent of the root
    node) is an error of _insert_node, and so is a duplicate. *)
Definition add_node (st : tstate) (p : option nat) (d : dirent)
  : res (tstate * nat) :=
  match p with
  | None => Err
  | Some p =>
      match nth_error (t_nodes st) p with
      | None => Undef
      | Some np =>
          let k := length (t_nodes st) in
          match insert_sub (t_nodes st) k (de_id d) (n_subs np) with
          | None => Err
          | Some subs =>
              Ok ({| t_nodes :=
                       set_nth (t_nodes st) p
                               {| n_entry := n_entry np;
                                  n_parent := n_parent np;
                                  n_subs := subs |}
                       ++ [{| n_entry := d; n_parent := Some p; n_subs := [] |}];
                     t_flags := t_flags st |}, k)
          end
      end
  end.

Definition set_flag (st : tstate) (d : dirent) : tstate :=
  {| t_nodes := t_nodes st; t_flags := de_id d :: t_flags st |}.

Definition is_set (st : tstate) (d : dirent) : bool :=
  existsb (Z.eqb (de_id d)) (t_flags st).

(** ** libolecf_directory_list_get_element_by_identifier, lines 33-128.
    [None] is the result 0. *)
Fixpoint find_entry (l : list dirent) (id : Z) : option dirent :=
  match l with
  | [] => None
  | d :: l' => if de_id d =? id then Some d else find_entry l' id
  end.

(** "\005DocumentSummaryInformation" and "\005SummaryInformation" with their
    end of string character. *)
Definition str_document_summary : list Z :=
  [5; 68; 111; 99; 117; 109; 101; 110; 116; 83; 117; 109; 109; 97; 114; 121;
   73; 110; 102; 111; 114; 109; 97; 116; 105; 111; 110; 0].
Definition str_summary : list Z :=
  [5; 83; 117; 109; 109; 97; 114; 121; 73; 110; 102; 111; 114; 109; 97; 116;
   105; 111; 110; 0].

(** libolecf_directory_tree_create_process_entry lines 336-387: the name is
    compared with the names of the summary streams.  The pointers stored on
    equality are not used anywhere in the library and not modelled; a failing
    comparison is an error. *)
Definition check_summary_name (u : una) (e : endian) (d : dirent) : res unit :=
  if zlen (de_name d) =? 28 then
    do _ <- una_utf8_compare u str_document_summary (de_name d) e; Ok tt
  else if zlen (de_name d) =? 20 then
    do _ <- una_utf8_compare u str_summary (de_name d) e; Ok tt
  else Ok tt.

(** libolecf_directory_tree_create_process_entry, lines 276-777.  [k] is the
    position of directory_tree_node, [d] the entry.  One block of the three
    for the sub, previous and next identifier: [p] is the node in which the
    entry found is inserted. *)
Section Process.
  Variable process : tstate -> nat -> dirent -> res tstate.

  (** Lines 414-503, 530-633 and 660-763. *)
  Definition process_link (st : tstate) (p : option nat) (s : dirent)
    : res tstate :=
    if is_set st s then Err
    else
      do (st1, k) <- add_node st p s;
      process (set_flag st1 s) k s.
End Process.

Fixpoint process_entry (fuel : nat) (u : una) (e : endian) (root_id : Z)
         (l : list dirent) (st : tstate) (k : nat) (d : dirent) : res tstate :=
  match fuel with
  | O => NoFuel
  | S fuel' =>
      let process := process_entry fuel' u e root_id l in
      do _ <- check_summary_name u e d;
      do st1 <-                                                 (* 388-505 *)
        (if negb (de_sub d =? UNUSED) && negb (de_sub d =? 0) && (root_id =? 0)
         then match find_entry l (de_sub d) with
              | None => Ok st
              | Some s => process_link process st (Some k) s
              end
         else Ok st);
      let parent st := match nth_error (t_nodes st) k with
                       | Some n => n_parent n
                       | None => None
                       end in
      do st2 <-                                                 (* 506-635 *)
        (if negb (de_prev d =? UNUSED)
         then match find_entry l (u32 (s32 (de_prev d))) with
              | None => Ok st1
              | Some s => process_link process st1 (parent st1) s
              end
         else Ok st1);
      if negb (de_next d =? UNUSED)                             (* 636-765 *)
      then match find_entry l (u32 (s32 (de_next d))) with
           | None => Err
           | Some s => process_link process st2 (parent st2) s
           end
      else Ok st2
  end.

(** Lines 119-169: the first entry of type root storage. *)
Fixpoint find_root (l : list dirent) : option dirent :=
  match l with
  | [] => None
  | d :: l' => if de_type d =? TYPE_ROOT_STORAGE then Some d else find_root l'
  end.

(** Result of libolecf_directory_tree_create: the nodes (the root is the first
    one), the entries with set_in_tree and the start of the chain of the short
    sector stream.  [None] is the result 0: there is no tree and the start of
    the chain is not set. *)
Record tree := {
  tr_nodes : list node;
  tr_flags : list Z;
  tr_container_start : Z
}.

(** libolecf_directory_tree_create, lines 39-271. *)
Definition create_tree (u : una) (e : endian) (l : list dirent)
  : res (option tree) :=
  match l with
  | [] => Ok None                                               (* 101-104 *)
  | _ =>
      match find_root l with
      | None => Err                                             (* 170-180 *)
      | Some root =>
          if de_sub root =? UNUSED then Ok None                 (* 204-207 *)
          else
            do st <- process_entry (length l + 2) u e (de_id root) l
                       {| t_nodes := [{| n_entry := root; n_parent := None;
                                         n_subs := [] |}];
                          t_flags := [] |} O root;
            Ok (Some {| tr_nodes := t_nodes st;
                        tr_flags := de_id root :: t_flags st;   (* 256 *)
                        tr_container_start := de_sector root |})
      end
  end.
