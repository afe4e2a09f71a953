(** What a run of olecfinfo shows of a file that was opened. *)
From Coq Require Import String ZArith List Bool.
From Verif Require Import Base Spec_IO M_Table M_Header M_Load M_Stream M_Tree M_Open M_Item M_Prop M_Info Spec_Prop Spec_Info.
Import ListNotations.
Open Scope Z_scope.

(** [l]: the pieces of the header, the items, the unallocated blocks if they
    are asked for, and of the two property sets; [None] is a piece that cannot
    be shown. *)
Definition told (lib : infolib) (text : list Z -> fv_encoding -> option (list Z)) (empty : fv_type -> option (list Z))
    (names : list Z -> endian -> option (list Z)) (date : Z -> option (list Z)) (u : una) (rd : reader)
    (o : opened) (allocation : bool) (l : list (option (list Z))) : Prop :=
  exists L s1 s2,
    lists_all (o_tree o) L /\
    information lib text empty date u rd (opened_volume o) (o_tree o) 1252 summary_name summary_heading s1 /\
    information lib text empty date u rd (opened_volume o) (o_tree o) 1252 document_name document_heading s2 /\
    l = file_pieces (o_header o) ++
        items_pieces lib names (fh_byte_order (o_header o)) (o_tree o) L ++
        allocation_pieces allocation ++ s1 ++ s2.
