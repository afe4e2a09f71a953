(** What a read of a stream asks the I/O layer for. *)
From Coq Require Import ZArith List Bool.
From Verif Require Import Base Spec_IO M_Table M_Load M_Stream Spec_Stream.
Import ListNotations.
Open Scope Z_scope.

(** The offsets in the file of the bytes that requests ask for, in order. *)
Definition bytes_asked (q : trace) : list Z :=
  concat (map (fun x => map (fun k => fst x + Z.of_nat k) (seq 0 (Z.to_nat (snd x)))) q).

(** The [m] bytes of the file at [off] are bytes in a row of the stream of [d],
    among the [n] bytes at the offset [c] of the stream. *)
Definition part_of (v : volume) (d : dirent) (c n off m : Z) : Prop :=
  0 < m /\
  exists i, c <= i /\ i + m <= Z.min (c + n) (de_size d) /\
    forall k, 0 <= k < m -> stream_position v d (i + k) (off + k).

(** These bytes are delivered whenever they are asked for, however many at
    once. *)
Definition delivers (rd : reader) (v : volume) (d : dirent) (c n : Z) : Prop :=
  forall t off m, part_of v d c n off m -> exists l, rd t off m = Some l /\ zlen l = m.

(** A request that asks for the byte at [p] is never answered. *)
Definition never_read (rd : reader) (p : Z) : Prop :=
  forall t off m l, off <= p < off + m -> rd t off m = Some l -> zlen l <> m.

(** A medium with bytes that cannot be read. *)
Definition bad_medium (bad : Z -> bool) (f : list Z) : reader :=
  fun t off m =>
    if existsb (fun k => bad (off + Z.of_nat k)) (seq 0 (Z.to_nat m)) then None
    else file_reader f t off m.
