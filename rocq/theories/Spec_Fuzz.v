(** Specification of the targets for fuzzing, for the theorems of P_Fuzz.v:
    what their calls return if no memory is refused. *)
From Coq Require Import ZArith List Bool.
From Verif Require Import Base Spec_Tree M_Table M_Load M_Stream M_Tree M_Open M_File.
Import ListNotations.
Open Scope Z_scope.

(** The calls on items: of a file with a root item, its number of sub items,
    the first sub item if there is one, and freeing them. *)
Definition item_calls (o : opened) (l : list Z) : Prop :=
  match o_tree o with
  | None => l = [0]
  | Some t => ((exists j, item_sub t 0 j) /\ l = [1; 1; 1; 1; 1]) \/ ((forall j, ~ item_sub t 0 j) /\ l = [1; 1; 1])
  end.

(** All calls. *)
Definition target_calls (on_file : opened -> list Z -> Prop) (u : una) (ev : env) (set : bool) (t : trace) (l : list Z) : Prop :=
  (set = false /\ l = [1; -1; 1]) \/
  (set = true /\ (ev_is_open ev = false \/ ev_open ev = false \/ exists t', open_read u (ev_reader ev) t = (Err, t')) /\
   l = [1; 1; 1; -1; 1; 1]) \/
  (set = true /\ ev_is_open ev = true /\ ev_open ev = true /\
   exists o t' items, open_read u (ev_reader ev) t = (Ok o, t') /\ on_file o items /\
     l = [1; 1; 1; 1] ++ items ++ [if ev_close ev then 0 else -1; 1; 1]).
