(** Specification of reading property sets when requests for memory can fail,
    for the theorems of P_PropMem.v. *)
From Coq Require Import ZArith List Bool.
From Verif Require Import Base M_Prop Spec_Prop M_Mem M_PropMem.
Import ListNotations.
Open Scope Z_scope.

(** How many blocks the data of a value has: the value of libfvalue and its
    buffer. *)
Definition data_blocks (p : property) : nat :=
  match pv_value p with
  | None => 0
  | Some w => match fv_data w with None => 1 | Some _ => 2 end
  end.

(** The blocks were granted to requests of this kind. *)
Definition granted_as (s : mst) (k : kind) (l : list Z) : Prop :=
  forall p, In p l -> 0 <= p /\ nth_error (m_requests s) (Z.to_nat p) = Some (k, true).

(** Nothing, or the blocks of a single section: its structure, its array and for
    each property in the array a structure and its data.  So none is of the set
    itself, of a handle, an item, an opened file or a buffer of a tool, and only
    two are the structure and the array of a section. *)
Definition at_most_a_section (s : mst) (leak : list Z) : Prop :=
  leak = [] \/
  exists x, leak = ms_blocks x /\
    (forall y, In y (ms_values x) -> length (mv_data y) = data_blocks (mv_property y)) /\
    granted_as s RSection [ms_array x; ms_struct x] /\ granted_as s RProperties (flat_map mv_blocks (ms_values x)).

(** The same, and the properties are the first ones of a section in [l]. *)
Definition start_of_a_section (s : mst) (l : list section) (leak : list Z) : Prop :=
  leak = [] \/
  exists x sec rest, leak = ms_blocks x /\ In sec l /\ sc_properties sec = map mv_property (ms_values x) ++ rest /\
    (forall y, In y (ms_values x) -> length (mv_data y) = data_blocks (mv_property y)) /\
    granted_as s RSection [ms_array x; ms_struct x] /\ granted_as s RProperties (flat_map mv_blocks (ms_values x)).

(** The same for any bytes [str]: the properties are those that a list in
    [str], of a section at [base], describes first. *)
Definition listed_in (str : list Z) (s : mst) (leak : list Z) : Prop :=
  leak = [] \/
  exists x e base, leak = ms_blocks x /\
    (forall k p, znth (map mv_property (ms_values x)) k = Some p -> property_at str e base k p) /\
    (forall y, In y (ms_values x) -> length (mv_data y) = data_blocks (mv_property y)) /\
    granted_as s RSection [ms_array x; ms_struct x] /\ granted_as s RProperties (flat_map mv_blocks (ms_values x)).
