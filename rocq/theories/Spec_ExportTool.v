(** What a run of olecfexport should do. *)
From Coq Require Import String ZArith List Bool.
From Verif Require Import Base Spec_IO M_Table M_Load M_Stream M_Tree M_Open M_Item Spec_Stream Spec_Content
  Spec_Tree M_Export Spec_Export M_Getopt Spec_Getopt M_ExportTool.
Import ListNotations.
Open Scope Z_scope.

(** The item [k] is stored in the directory [p], with its data and with all
    items below it, every one in a directory of its own; [named] tells which
    names may be used. *)
Inductive stored (rd : reader) (v : volume) (t : tree) (named : dirent -> list Z -> Prop) (s : disk)
  : nat -> list Z -> Prop :=
| stored_item k p d l (name : nat -> list Z) :
    item_entry t k d ->
    on_disk s p = Some Directory ->
    on_disk s (data_path p) = Some (Data l) -> (forall b, item_data rd v d b -> l = b) ->
    (forall j, item_sub t k j -> stored rd v t named s j (p ++ 47 :: name j)) ->
    (forall j d', item_sub t k j -> item_entry t j d' -> named d' (name j)) ->
    (forall i j, item_sub t k i -> item_sub t k j -> name i = name j -> i = j) ->
    stored rd v t named s k p.

(** The items below the root are stored in the directory [p]. *)
Definition all_stored (rd : reader) (v : volume) (t : tree) (named : dirent -> list Z -> Prop) (s : disk)
           (p : list Z) : Prop :=
  exists name : nat -> list Z,
    (forall j, item_sub t 0 j -> stored rd v t named s j (p ++ 47 :: name j)) /\
    (forall j d, item_sub t 0 j -> item_entry t j d -> named d (name j)) /\
    (forall i j, item_sub t 0 i -> item_sub t 0 j -> name i = name j -> i = j).

(** A log that tells of no trouble. *)
Definition untroubled (l : list log_line) : Prop :=
  forall x, In x l -> match x with Unable _ | Skipping _ => False | _ => True end.

(** A log that tells of items and directories only. *)
Definition plain_lines (l : list log_line) : Prop :=
  forall x, In x l -> match x with Processing _ _ | Created _ => True | _ => False end.

(** The directories in a log. *)
Definition created (l : list log_line) : list (list Z) :=
  flat_map (fun x => match x with Created p => [p] | _ => [] end) l.

(** The directory that a target stands for. *)
Definition export_directory (m : machine) (target : list Z) : list Z :=
  full_path m (target ++ text_of ".export").

(** The name of an item, or a default that the log tells of. *)
Definition told_name (ho : host) (e : endian) (l : list log_line) (d : dirent) (n : list Z) : Prop :=
  safe_name ho e d n \/ In (Defaulting n) l.
