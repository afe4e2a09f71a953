(** Specification of the lifetime of objects in a log of allocations and
    releases. *)
From Coq Require Import ZArith List.
From Verif Require Import Base M_Free.
Import ListNotations.
Open Scope Z_scope.

(** [p] is allocated once, and later released once. *)
Definition once (log : list event) (p : Z) : Prop :=
  exists a b c, log = a ++ Alloc p :: b ++ Release p :: c /\
    forall q, q = Alloc p \/ q = Release p -> ~ In q (a ++ b ++ c).

(** [p] is allocated once, and not released. *)
Definition held (log : list event) (p : Z) : Prop :=
  exists a b, log = a ++ Alloc p :: b /\
    forall q, q = Alloc p \/ q = Release p -> ~ In q (a ++ b).

(** Everything that occurs is allocated once and later released once. *)
Definition balanced (log : list event) : Prop :=
  forall p, In (Alloc p) log \/ In (Release p) log -> once log p.
