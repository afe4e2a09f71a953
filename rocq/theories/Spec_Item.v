(** Specification of the lookup of items by name and by path. *)
From Coq Require Import ZArith List Bool.
From Verif Require Import Base M_Load M_Tree M_Item Spec_Tree.
Import ListNotations.
Open Scope Z_scope.

(** The comparisons of a string with the names of items, in order: equal for
    the first time at [j], after [pre]. *)
Definition name_differs (compare : list Z -> res bool) (t : tree) (j : nat) : Prop :=
  exists d, item_entry t j d /\ compare (de_name d) = Ok false.
Definition name_equals (compare : list Z -> res bool) (t : tree) (j : nat) : Prop :=
  exists d, item_entry t j d /\ compare (de_name d) = Ok true.
Definition name_fails (compare : list Z -> res bool) (t : tree) (j : nat) : Prop :=
  exists d, item_entry t j d /\ compare (de_name d) = Err.

(** Looking up names one after the other with the lookup by name. *)
Fixpoint lookup_names (by_name : nat -> list Z -> res (option nat)) (k : nat)
         (names : list (list Z)) : res (option nat) :=
  match names with
  | [] => Ok (Some k)
  | n :: names' =>
      match by_name k n with
      | Ok (Some k') => lookup_names by_name k' names'
      | r => r
      end
  end.

(** A character: some units that decode to one code point wherever they are
    in a string. *)
Definition is_char (char : list Z -> Z -> res (Z * Z)) (units : list Z) (c : Z) : Prop :=
  units <> [] /\
  forall pre post, char (pre ++ units ++ post) (zlen pre) = Ok (c, zlen pre + zlen units).

(** A name: one or more characters, no separator and no character 0. *)
Inductive is_text (char : list Z -> Z -> res (Z * Z)) : list Z -> Prop :=
| it_nil : is_text char []
| it_char units c rest :
    is_char char units c -> c <> 92 -> c <> 0 -> is_text char rest ->
    is_text char (units ++ rest).
Definition is_name char name : Prop := is_text char name /\ name <> [].

(** The names joined by separators. *)
Fixpoint join (names : list (list Z)) : list Z :=
  match names with
  | [] => []
  | [n] => n
  | n :: names' => n ++ 92 :: join names'
  end.

(** The functions of libuna that decode a character advance, stay inside the
    string and return. *)
Definition char_ok (char : list Z -> Z -> res (Z * Z)) : Prop :=
  forall s i, 0 <= i < zlen s ->
    char s i = Err \/ exists c i', char s i = Ok (c, i') /\ i < i' <= zlen s.
