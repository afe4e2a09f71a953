(** What bytes a stream holds, and when all of them can be read. *)
From Coq Require Import ZArith List Bool.
From Verif Require Import Base Spec_IO M_Table M_Load M_Stream Spec_Stream.
Import ListNotations.
Open Scope Z_scope.

(** The stream of the entry [d] in the file [f] holds the bytes [s]. *)
Definition contents (f : list Z) (v : volume) (d : dirent) (s : list Z) : Prop :=
  de_type d = 2 /\ zlen s = de_size d /\
  forall i b, znth s i = Some b ->
    exists p, stream_position v d i p /\ znth f p = Some b.

(** Its chain is complete: for every byte, its sector is in the table and is
    not further down the chain than the table is long. *)
Definition intact (v : volume) (d : dirent) : Prop :=
  let ss := if de_size d <? v_minimum_size v then v_short_sector_size v
            else v_sector_size v in
  let tbl := if de_size d <? v_minimum_size v then v_ssat v else v_sat v in
  forall i, 0 <= i < de_size d ->
    i / ss < zlen tbl /\
    exists id, nth_sector tbl (de_sector d) (Z.to_nat (i / ss)) id /\ 0 <= id < zlen tbl.

(** Short sectors fit into sectors, and there is a stream to hold them. *)
Definition short_ok (v : volume) (d : dirent) : Prop :=
  de_size d < v_minimum_size v ->
  v_short_sector_size v <= v_sector_size v /\ container_used v.

(** The entry [d] of the volume [v], read with [rd], is a stream with the
    bytes [s].  [rd] may fail, or deliver less than asked for, at any time. *)
Definition is_stream (rd : reader) (v : volume) (d : dirent) (s : list Z) : Prop :=
  volume_ok v /\ dirent_ok d /\ short_ok v d /\ Forall is_byte s /\
  exists f, io_sound rd f /\ contents f v d s.

(** And every read of [rd] inside the file succeeds, and the chain of the
    stream is complete. *)
Definition is_readable_stream (rd : reader) (v : volume) (d : dirent) (s : list Z) : Prop :=
  volume_ok v /\ dirent_ok d /\ short_ok v d /\ Forall is_byte s /\ intact v d /\
  exists f, io_sound rd f /\ io_total rd f /\ contents f v d s.
