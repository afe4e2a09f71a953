(** Contracts of the I/O layer (libbfio), used as hypotheses of theorems. *)
From Coq Require Import ZArith List Bool.
From Verif Require Import Base.
Import ListNotations.
Open Scope Z_scope.

(** Whatever is delivered are bytes. *)
Definition io_bytes (rd : reader) : Prop :=
  forall t off n l, rd t off n = Some l -> Forall is_byte l.

(** A read that delivers all bytes asked for delivers bytes of the file [f]. *)
Definition io_sound (rd : reader) (f : list Z) : Prop :=
  forall t off n l,
    0 <= off -> 0 < n -> rd t off n = Some l -> zlen l = n ->
    off + n <= zlen f /\ l = slice f off n.

(** A read inside the file succeeds. *)
Definition io_total (rd : reader) (f : list Z) : Prop :=
  forall t off n,
    0 <= off -> 0 < n -> off + n <= zlen f ->
    exists l, rd t off n = Some l /\ zlen l = n.

(** A reader of a file without failures, for concrete cases. *)
Definition file_reader (f : list Z) : reader :=
  fun _ off n => if off <? 0 then None else Some (slice f off n).

(** A reader that fails on requests that touch one offset. *)
Definition failing_reader (f : list Z) (bad : Z) : reader :=
  fun _ off n =>
    if off <? 0 then None
    else if (off <=? bad) && (bad <? off + n) then None
    else Some (slice f off n).
