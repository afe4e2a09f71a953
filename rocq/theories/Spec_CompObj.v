(** Compound objects after the documentation of the format ("OLE Compound File
    format.asciidoc", Compound object stream), and what the stream of one
    holds. *)
From Coq Require Import ZArith List Bool.
From Verif Require Import Base Spec_IO M_Table M_Load M_Stream Spec_Stream Spec_Load M_CompObj.
Import ListNotations.
Open Scope Z_scope.

(** No clipboard format, a standard format, which is a number in 4 bytes after
    one of the markers, or the name of a registered format. *)
Inductive format :=
| NoFormat
| Standard (marker : Z) (id : list Z)
| Registered (name : list Z).

(** What follows the reserved string: nothing, some other number than the
    Unicode marker, or the strings in Unicode. *)
Inductive tail :=
| Nothing
| Number (x : Z)
| Unicode (user : list Z) (f : format) (reserved : list Z).

Record object := {
  co_header : list Z;
  co_user : list Z;
  co_format : format;
  co_reserved : list Z;
  co_tail : tail
}.

Definition UNICODE_MARKER := 0x71b239f4.

(** The bytes of the parts, and of an object. *)
Definition string_bytes (e : endian) (l : list Z) : list Z := bytes_of e 4 (zlen l) ++ l.
Definition format_bytes (e : endian) (f : format) : list Z :=
  match f with
  | NoFormat => bytes_of e 4 0
  | Standard m id => bytes_of e 4 m ++ id
  | Registered l => string_bytes e l
  end.
Definition tail_bytes (e : endian) (x : tail) : list Z :=
  match x with
  | Nothing => []
  | Number m => bytes_of e 4 m
  | Unicode u f r =>
      bytes_of e 4 UNICODE_MARKER ++ string_bytes e u ++ format_bytes e f ++ string_bytes e r
  end.
Definition body_bytes (e : endian) (o : object) : list Z :=
  co_header o ++ string_bytes e (co_user o) ++ format_bytes e (co_format o)
  ++ string_bytes e (co_reserved o).
Definition object_bytes (e : endian) (o : object) : list Z :=
  body_bytes e o ++ tail_bytes e (co_tail o).

(** Sizes that are allowed: 128 MiB for a string, 0x190 for the name of a
    format.  [markers] are the values that announce a standard format. *)
Definition format_ok (markers : list Z) (f : format) : Prop :=
  match f with
  | NoFormat => True
  | Standard m id => In m markers /\ zlen id = 4
  | Registered l => 0 < zlen l <= 0x190
  end.
Definition tail_ok (markers : list Z) (x : tail) : Prop :=
  match x with
  | Nothing => True
  | Number m => is_u32 m
  | Unicode u f r => zlen u <= 134217728 /\ format_ok markers f /\ zlen r <= 134217728
  end.
Definition object_ok (markers : list Z) (o : object) : Prop :=
  zlen (co_header o) = 28 /\ 0 < zlen (co_user o) <= 134217728 /\
  format_ok markers (co_format o) /\ zlen (co_reserved o) <= 134217728 /\
  tail_ok markers (co_tail o).

(** The documentation announces a standard format by 0xfffffffe or 0xffffffff. *)
Definition documented_markers : list Z := [0xfffffffe; 0xffffffff].
(** The values that the library takes for them. *)
Definition library_markers : list Z := [0x0ffffffe; 0x0fffffff].

(** The object has a standard clipboard format. *)
Definition has_standard (o : object) : Prop :=
  exists m id, co_format o = Standard m id \/ exists u r, co_tail o = Unicode u (Standard m id) r.

(** The object starts at the offset [c] of a stream of [size] bytes.  How far
    it goes is told by the size: nothing follows the reserved string if it
    reaches the end of the stream; a number that reaches the end of the stream
    is not looked at. *)
Definition ends (e : endian) (size c : Z) (o : object) : Prop :=
  let body := c + zlen (body_bytes e o) in
  match co_tail o with
  | Nothing => size <= body
  | Number m => body < size /\ (m <> UNICODE_MARKER \/ size <= body + 4)
  | Unicode _ _ _ => body + 4 < size
  end.

(** The chain of the entry [d] holds [l] from the offset [c] on; this may be
    past the size of the stream. *)
Definition chain_holds (f : list Z) (v : volume) (d : dirent) (c : Z) (l : list Z) : Prop :=
  forall j b, znth l j = Some b -> exists p, stream_position v d (c + j) p /\ znth f p = Some b.

(** The buffers that are allocated after the events, if [live] are before:
    [None] if one is released that is not. *)
Fixpoint buffers (live : list nat) (log : list mevent) : option (list nat) :=
  match log with
  | [] => Some live
  | Allocate k _ :: log' => if in_dec Nat.eq_dec k live then None else buffers (k :: live) log'
  | Release k :: log' =>
      if in_dec Nat.eq_dec k live then buffers (remove Nat.eq_dec k live) log' else None
  end.
