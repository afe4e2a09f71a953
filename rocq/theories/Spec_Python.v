(** Contracts of Python file objects, and what the stream object of the
    bindings should do. *)
From Coq Require Import ZArith List Bool.
From Verif Require Import Base M_Table M_Load M_Stream M_Python.
Import ListNotations.
Open Scope Z_scope.

(** The object behaves like a file with the bytes [f]: [pos] is its position.
    Every call may raise an exception, a read may give less than asked for or
    something that is not a bytes object. *)
Record file_like {S : Type} (ob : pyobject S) (f : list Z) (pos : S -> Z) : Prop := {
  fl_read : forall n s l s',
    po_read ob n s = (Some (PBytes l), s') -> 0 < n -> 0 <= pos s ->
    zlen l <= n /\ l = slice f (pos s) (zlen l);
  fl_seek : forall o s v s', po_seek ob o 0 s = (Some v, s') -> 0 <= o -> pos s' = o;
  fl_tell : forall s v s', po_tell ob s = (Some v, s') -> v = PInt (pos s) /\ pos s' = pos s;
  fl_get_offset : forall s v s',
    po_has_get_offset ob s = true -> po_get_offset ob s = (Some v, s') ->
    v = PInt (pos s) /\ pos s' = pos s
}.

(** A bytes object consists of bytes. *)
Definition gives_bytes {S : Type} (ob : pyobject S) : Prop :=
  forall n s l s', po_read ob n s = (Some (PBytes l), s') -> Forall is_byte l.

(** The object never fails: seeking works, telling works, and a read gives
    what is there. *)
Record reliable {S : Type} (ob : pyobject S) (f : list Z) (pos : S -> Z) : Prop := {
  rl_read : forall n s, 0 < n -> 0 <= pos s ->
    exists s', po_read ob n s = (Some (PBytes (slice f (pos s) n)), s');
  rl_seek : forall o s, 0 <= o ->
    exists v s', po_seek ob o 0 s = (Some v, s') /\ pos s' = o;
  rl_end : forall s, exists v s', po_seek ob 0 2 s = (Some v, s') /\ pos s' = zlen f;
  rl_tell : forall s, exists s', po_tell ob s = (Some (PInt (pos s)), s') /\ pos s' = pos s;
  rl_get_offset : forall s, po_has_get_offset ob s = true ->
    exists s', po_get_offset ob s = (Some (PInt (pos s)), s') /\ pos s' = pos s
}.

(** An object over the bytes [f] whose state is its position. *)
Definition plain_object (f : list Z) : pyobject Z := {|
  po_read := fun n c => (Some (PBytes (slice f c n)), c + zlen (slice f c n));
  po_seek := fun o whence c =>
    (Some PNone, if whence =? 0 then o else if whence =? 1 then c + o else zlen f + o);
  po_tell := fun c => (Some (PInt c), c);
  po_has_get_offset := fun _ => false;
  po_get_offset := fun c => (None, c);
  po_has_get_size := fun _ => false;
  po_get_size := fun c => (None, c)
|}.

(** An object that gives at most [k] bytes per read, and raises an exception
    when the position is [bad]. *)
Definition weak_object (f : list Z) (k bad : Z) : pyobject Z := {|
  po_read := fun n c =>
    if c =? bad then (None, c) else (Some (PBytes (slice f c (Z.min n k))), c + zlen (slice f c (Z.min n k)));
  po_seek := po_seek (plain_object f);
  po_tell := po_tell (plain_object f);
  po_has_get_offset := fun _ => true;
  po_get_offset := fun c => (Some (PInt c), c);
  po_has_get_size := fun _ => true;
  po_get_size := fun c => (Some (PInt (zlen f)), c)
|}.

(** ** A stream object over the bytes [s]
    The number of bytes that a call of read asks for. *)
Definition asked (s : list Z) (size : option pyvalue) : exception + Z :=
  match size with
  | None | Some PNone => inr (zlen s)
  | Some (PInt n) => if (0 <=? n) && (n <? 9223372036854775808) then inr n else inl IOError
  | Some _ => inl TypeError
  end.

(** The bytes from [from] on, if they are at most 2^31 - 1. *)
Definition deliver (s : list Z) (from n c : Z) : pyresult * Z :=
  if 2147483647 <? n then (Raises ValueError, c)
  else (Returns (PBytes (slice s from n)), from + zlen (slice s from n)).

Definition int_argument (v : pyvalue) (bits : Z) : exception + Z :=
  match v with
  | PInt z => if (- 2 ^ (bits - 1) <=? z) && (z <? 2 ^ (bits - 1)) then inr z else inl OverflowError
  | _ => inl TypeError
  end.

(** What a call does to a stream object with the bytes [s] at the position
    [c].  A seek whose target does not fit into 64 bits is undefined; reading
    nothing at an offset does not move the position. *)
Definition stream_does (s : list Z) (op : stream_op) (c : Z) : pyresult * Z :=
  match op with
  | PyRead size =>
      match asked s size with
      | inl e => (Raises e, c)
      | inr n => deliver s c n c
      end
  | PyReadAt size offset =>
      match int_argument offset 64, asked s (Some size) with
      | inl e, _ => (Raises e, c)
      | inr _, inl e => (Raises e, c)
      | inr o, inr n =>
          match size with
          | PInt 0 => (Returns (PBytes []), c)
          | PInt _ =>
              if 2147483647 <? n then (Raises ValueError, c)
              else if o <? 0 then (Raises IOError, c)
              else deliver s o n c
          | _ => (Raises TypeError, c)
          end
      end
  | PySeek offset whence =>
      match int_argument offset 64,
            int_argument (match whence with Some w => w | None => PInt 0 end) 32 with
      | inl e, _ => (Raises e, c)
      | inr _, inl e => (Raises e, c)
      | inr o, inr w =>
          if (w <? 0) || (2 <? w) then (Raises IOError, c)
          else
            let target := o + (if w =? 0 then 0 else if w =? 1 then c else zlen s) in
            if 9223372036854775808 <=? target then (PyUndefined, c)
            else if target <? 0 then (Raises IOError, c)
            else (Returns PNone, target)
      end
  | PyTell => (Returns (PInt c), c)
  end.

Fixpoint stream_does_all (s : list Z) (h : list stream_op) (c : Z) : list pyresult * Z :=
  match h with
  | [] => ([], c)
  | op :: h' =>
      let (r, c1) := stream_does s op c in
      let (rs, c2) := stream_does_all s h' c1 in
      (r :: rs, c2)
  end.

(** The number of sectors of a request fits into an int: the sectors are not
    smaller than 4 bytes or the request is not larger than 2^30 bytes. *)
Definition few (v : volume) (n : Z) : Prop :=
  4 <= v_short_sector_size v /\ 4 <= v_sector_size v \/ n <= 1073741824.

Definition sizes_few (v : volume) (s : list Z) (op : stream_op) : Prop :=
  match op with
  | PyRead size => match asked s size with inr n => few v n | _ => True end
  | PyReadAt size _ => match asked s (Some size) with inr n => few v n | _ => True end
  | _ => True
  end.

(** Reading in a loop, with a call [read] that gets and gives the position,
    until a call gives nothing. *)
Fixpoint read_loop (fuel : nat) (read : Z -> pyresult * Z) (c : Z) : option (list Z) :=
  match fuel with
  | O => None
  | S fuel' =>
      match read c with
      | (Returns (PBytes []), _) => Some []
      | (Returns (PBytes l), c') => option_map (app l) (read_loop fuel' read c')
      | _ => None
      end
  end.
