(** C71: reference counts of the Python objects. *)
From Coq Require Import List.
From Verif Require Import Base M_Refs Spec_Refs L_Refs.
Import ListNotations.

(** Whatever a program does, a step touches and releases only what is still
    there, with one exception: a method of an item, or of its sequence of sub
    items, after its file was closed. *)
Theorem C71_safe : forall l h s, heap_run empty_heap l = Ok h ->
  match heap_step h s with
  | Ok _ => True
  | Undef => (exists i w ok, s = Method i w ok /\ closed_item h i) /\ exists f, In (Close f) l
  | _ => False
  end.
Proof. exact run_safe. Qed.
Print Assumptions C71_safe.

(** An object that the program refers to is there, and so are its parents. *)
Theorem C71_kept : forall l h, heap_run empty_heap l = Ok h ->
  forall j i, In j (held h) -> ancestor h j i -> alive h i.
Proof. exact run_held. Qed.
Print Assumptions C71_kept.

(** Nothing else is. *)
Theorem C71_no_leak : forall l h, heap_run empty_heap l = Ok h ->
  (forall i, alive h i -> exists j, In j (held h) /\ ancestor h j i) /\
  (forall n, in_memory h n ->
     exists i o, nth_error (objects h) i = Some (Some o) /\ In n (owned (o_body o))).
Proof. exact run_no_leak. Qed.
Print Assumptions C71_no_leak.

Theorem C71_released : forall l h, heap_run empty_heap l = Ok h -> held h = [] ->
  (forall i, ~ alive h i) /\ (forall n, ~ in_memory h n).
Proof. exact run_released. Qed.
Print Assumptions C71_released.

(** A program that reads a value of a property set and forgets all the rest. *)
Definition read_value : list rstep :=
  [NewSource; NewFile; Open 1 (Some 0) true;
   Method 1 WantItem true;                      (* 2: the root item *)
   Method 2 WantItems true;                     (* 3 *)
   Copy 3; Method 3 WantItem true; Forget 3;    (* 4: a sub item; iter() *)
   Method 4 WantSet true;                       (* 5 *)
   Method 5 WantSections true; Method 6 WantSection true;   (* 6, 7 *)
   Method 7 WantValues true; Method 8 WantValue true;       (* 8, 9 *)
   Forget 0; Forget 1; Forget 2; Forget 3; Forget 4; Forget 5; Forget 6; Forget 7; Forget 8].

Definition body_of (x : option pobj) : option (nat * body) :=
  match x with Some o => Some (o_refs o, o_body o) | None => None end.

Example C71_case :
  (exists h, heap_run empty_heap read_value = Ok h /\ held h = [9] /\
     map body_of (objects h) =
       [Some (1, BSource); Some (1, BFile 0 (Some (1, Some 0))); None; None;
        Some (1, BItem 3 1 1); Some (1, BSet 4 4); None; Some (1, BSection 4 5); None; Some (1, BValue 4 7)] /\
     blocks h = [true; true; false; true; true] /\
     heap_step h (Method 9 WantNothing true) = Ok h) /\
  (exists h, heap_run empty_heap (read_value ++ [Forget 9]) = Ok h /\ held h = [] /\
     objects h = repeat None 10 /\ blocks h = repeat false 5).
Proof. split; eexists; (split; [vm_compute; reflexivity|]); vm_compute; auto 10. Qed.

(** The value can be used after the file was closed, and the file opened again. *)
Example C71_value_after_close :
  exists h, heap_run empty_heap
    [NewFile; Open 0 None true; Method 0 WantItem true; Method 1 WantSet true;
     Method 2 WantSection true; Method 3 WantValue true; Close 0;
     Method 4 WantNothing true; Open 0 None true; Method 2 WantSections true] = Ok h /\
    length (held h) = 6.
Proof. eexists. split; [vm_compute; reflexivity|reflexivity]. Qed.

(** Finding: the item object keeps the file object, not the tree of the open
    file.  After close() every method of the item reads released memory, also
    if the file was opened again. *)
Theorem C71_item_after_close_refuted :
  exists l h, heap_run empty_heap l = Ok h /\ In 1 (held h) /\ closed_item h 1 /\
    (forall w ok, heap_step h (Method 1 w ok) = Undef) /\
    exists h', heap_step h (Open 0 None true) = Ok h' /\ (forall w ok, heap_step h' (Method 1 w ok) = Undef).
Proof.
  exists [NewFile; Open 0 None true; Method 0 WantItem true; Close 0]. eexists. split; [vm_compute; reflexivity|].
  split; [cbn; auto|]. split.
  { eexists. split; [reflexivity|]. cbn. intros o b s H. injection H as <-. discriminate. }
  split; [intros [] []; reflexivity|]. eexists. split; [vm_compute; reflexivity|]. intros [] []; reflexivity.
Qed.
Print Assumptions C71_item_after_close_refuted.
