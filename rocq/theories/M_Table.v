(** Model of libolecf/libolecf_allocation_table.c.
    A table is the list of its sector identifiers;
    number_of_sector_identifiers is the length of the list. *)
From Coq Require Import ZArith List Bool.
From Verif Require Import Base.
Import ListNotations.
Open Scope Z_scope.

(** LIBOLECF_SECTOR_IDENTIFIER_*, libolecf/libolecf_definitions.h.in. *)
Definition END_OF_CHAIN : Z := 4294967294.
Definition UNUSED : Z := 4294967295.

(** MEMORY_MAXIMUM_ALLOCATION_SIZE, common/memory.h: 128 MiB. *)
Definition MEMORY_MAXIMUM_ALLOCATION_SIZE : Z := 134217728.

(** The limit of lines 63-64 and 218-219: 128 MiB / 4. *)
Definition TABLE_MAX : Z := 33554432.

(** libolecf_allocation_table_initialize, lines 33-158. *)
Definition table_initialize (n : Z) : res (list Z) :=
  if (n <? 0) || (TABLE_MAX <? n) then Err else Ok (zeros n).

(** libolecf_allocation_table_resize, lines 198-268.  The table only grows,
    the new part is set to 0. *)
Definition table_resize (tbl : list Z) (n : Z) : res (list Z) :=
  if (n <? 0) || (TABLE_MAX <? n) then Err
  else if zlen tbl <? n then Ok (tbl ++ zeros (n - zlen tbl))
  else Ok tbl.

(** libolecf_allocation_table_get_sector_identifier_by_index, lines 273-318. *)
Definition table_get (tbl : list Z) (i : Z) : res Z :=
  if (i <? 0) || (zlen tbl <=? i) then Err else arr_get tbl i.

(** The pattern used by every chain walk: the check [identifier > INT_MAX]
    (for instance lines 1570-1583 of libolecf_io_handle.c), then the lookup. *)
Definition table_next (tbl : list Z) (id : Z) : res Z :=
  if INT_MAX <? id then Err else table_get tbl (s32 id).
