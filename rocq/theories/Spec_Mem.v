(** Specification of opening and closing a file when requests for memory can
    fail, for the theorems of P_Mem.v. *)
From Coq Require Import ZArith List Bool Permutation.
From Verif Require Import Base Spec_IO M_Table M_Header M_Load M_Tree M_Open M_Mem.
Import ListNotations.
Open Scope Z_scope.

(** A state of the memory that can arise: no block is in use twice, and every
    block was requested. *)
Definition sane (s : mst) : Prop :=
  NoDup (m_live s) /\ forall p, In p (m_live s) -> 0 <= p < zlen (m_requests s).

(** Of the requests of the call that led from [s] to [s'] at most such of the
    kinds [ks] were refused. *)
Definition refusals (s s' : mst) (ks : list kind) : Prop :=
  exists q, m_requests s' = m_requests s ++ q /\ forall k, In (k, false) q -> In k ks.

(** One of the kind [k] was refused. *)
Definition refusal (s s' : mst) (k : kind) : Prop :=
  exists q, m_requests s' = m_requests s ++ q /\ In (k, false) q.

(** What the tables are: those of the file, or zeros if memory was refused. *)
Definition table_step (refusal : Prop) (read : io (list Z)) (t : trace) (vals : list Z) (t' : trace) : Prop :=
  (~ refusal /\ read t = (Ok vals, t')) \/ (refusal /\ t' = t /\ zlen vals <= 33554432 /\ exists k, vals = zeros k).

(** A file that was opened although the table or the short table could not be
    read for lack of memory: everything else is read as ever, with the tables
    there are. *)
Definition opens (u : una) (rd : reader) (t : trace) (no_sat no_ssat : Prop) (o : opened) (t' : trace) : Prop :=
  let h := o_header o in
  let e := fh_byte_order h in
  let ss := fh_sector_size h in
  exists m t1 t2 t3 t4,
    header_read rd (zeros 109) t = (Ok (h, m), t1) /\
    read_msat rd e ss m (fh_msat_sector_identifier h) (fh_number_of_msat_sectors h) t1 = (Ok (o_msat o), t2) /\
    table_step no_sat (read_sat rd e ss (o_msat o) [] (fh_number_of_sat_sectors h)) t2 (o_sat o) t3 /\
    table_step no_ssat (read_ssat rd e ss (o_sat o) [] (fh_ssat_sector_identifier h) (fh_number_of_ssat_sectors h)) t3 (o_ssat o) t4 /\
    read_directory rd e ss (o_sat o) (fh_root_directory_sector_identifier h) t4 = (Ok (o_entries o), t') /\
    create_tree u e (o_entries o) = Ok (o_tree o).
