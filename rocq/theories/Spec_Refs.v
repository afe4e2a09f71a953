(** Specification of the lifetime of Python objects. *)
From Coq Require Import List.
From Verif Require Import Base M_Refs.
Import ListNotations.

Definition alive (h : heap) (i : nat) : Prop := exists o, nth_error (objects h) i = Some (Some o).
Definition in_memory (h : heap) (n : nat) : Prop := nth_error (blocks h) n = Some true.

(** [i] is [j], its parent, the parent of that, ... *)
Inductive ancestor (h : heap) : nat -> nat -> Prop :=
| anc_self i : ancestor h i i
| anc_parent j o p i : nth_error (objects h) j = Some (Some o) -> parent (o_body o) = Some p ->
    ancestor h p i -> ancestor h j i.

(** The file object [f] does not have the tree [t]: it is closed, or it was
    closed and opened again. *)
Definition not_tree (h : heap) (f t : nat) : Prop :=
  forall o b source, nth_error (objects h) f = Some (Some o) -> o_body o <> BFile b (Some (t, source)).

(** [i] is an item, or a sequence of the sub items of one, of such a file. *)
Definition closed_item (h : heap) (i : nat) : Prop :=
  exists o, nth_error (objects h) i = Some (Some o) /\
    match o_body o with
    | BItem _ t f => not_tree h f t
    | BItems p => exists q n t f, nth_error (objects h) p = Some (Some q) /\
        o_body q = BItem n t f /\ not_tree h f t
    | _ => False
    end.
