(** Specification of the lifetime of the parts of a property set. *)
From Coq Require Import ZArith List.
From Verif Require Import Base M_Prop M_PropFree.
Import ListNotations.
Open Scope Z_scope.

Definition part_dec (p q : part) : {p = q} + {p <> q}.
Proof. repeat decide equality. Defined.

(** The parts that are in memory after the events, if there are [live] before:
    [None] if a part is made a second time, or released though it is not in
    memory. *)
Fixpoint heap (live : list part) (log : list pevent) : option (list part) :=
  match log with
  | [] => Some live
  | Make p :: log' => if in_dec part_dec p live then None else heap (p :: live) log'
  | Drop p :: log' => if in_dec part_dec p live then heap (remove part_dec p live) log' else None
  end.

(** [p] is the section [k] with the properties [ps], or in it. *)
Definition section_part (k : nat) (ps : list property) (p : part) : Prop :=
  p = PartSection k \/
  exists j q, nth_error ps j = Some q /\
    (p = PartValue k j \/ p = PartData k j /\ pv_value q <> None).

(** [p] is the set with these sections, or in it. *)
Definition set_part (l : list section) (p : part) : Prop :=
  p = PartSet \/
  exists k s, nth_error l k = Some s /\ section_part k (sc_properties s) p.
