(** Specification of the contents of streams, after the documentation of the
    format, independent of how the library walks the chains. *)
From Coq Require Import ZArith List Bool.
From Verif Require Import Base M_Table M_Load M_Stream.
Import ListNotations.
Open Scope Z_scope.

(** [nth_sector tbl first k id]: sector number [k] of the chain that starts
    with the sector [first] in the allocation table [tbl] is [id]. *)
Inductive nth_sector (tbl : list Z) (first : Z) : nat -> Z -> Prop :=
| ns_first : nth_sector tbl first O first
| ns_next k id id' :
    nth_sector tbl first k id -> znth tbl id = Some id' ->
    nth_sector tbl first (S k) id'.

(** Offset in the file of offset [i] of the chain that starts with [first]:
    sector 0 comes after a header of one sector. *)
Definition chain_position (tbl : list Z) (ss first i p : Z) : Prop :=
  exists id, nth_sector tbl first (Z.to_nat (i / ss)) id /\
             p = (id + 1) * ss + i mod ss.

(** Offset in the file of offset [i] of the stream of the entry [d]: small
    streams live in the short sectors, numbered in the stream of the root. *)
Definition stream_position (v : volume) (d : dirent) (i p : Z) : Prop :=
  if de_size d <? v_minimum_size v then
    exists id, nth_sector (v_ssat v) (de_sector d)
                          (Z.to_nat (i / v_short_sector_size v)) id /\
      chain_position (v_sat v) (v_sector_size v) (v_container_start v)
                     (id * v_short_sector_size v + i mod v_short_sector_size v) p
  else chain_position (v_sat v) (v_sector_size v) (de_sector d) i p.

(** The chain of the root entry does not run into the unused marker. *)
Definition container_used (v : volume) : Prop :=
  forall k, ~ nth_sector (v_sat v) (v_container_start v) k UNUSED.

(** What open guarantees of its tables and sizes (proved in P_Open.v). *)
Definition is_u32 (x : Z) : Prop := 0 <= x < 4294967296.

Record volume_ok (v : volume) : Prop := {
  vo_ss : exists a, 7 <= a <= 15 /\ v_sector_size v = 2 ^ a;
  vo_sss : exists b, 0 <= b <= 15 /\ v_short_sector_size v = 2 ^ b;
  vo_sat : Forall is_u32 (v_sat v);
  vo_ssat : Forall is_u32 (v_ssat v);
  vo_sat_len : zlen (v_sat v) <= 33554432;
  vo_ssat_len : zlen (v_ssat v) <= 33554432;
  vo_start : is_u32 (v_container_start v);
  vo_min : is_u32 (v_minimum_size v)
}.

Record dirent_ok (d : dirent) : Prop := {
  do_sector : is_u32 (de_sector d);
  do_size : is_u32 (de_size d)
}.

(** ** Specifications of calls *)

(** Reads one after the other, each with its own I/O. *)
Definition sum_sizes (calls : list (reader * Z)) : Z :=
  fold_right (fun c s => snd c + s) 0 calls.

Definition read_calls (calls : list (reader * Z)) : list (reader * item_op) :=
  map (fun c => (fst c, OpRead (snd c))) calls.

Definition int64 (x : Z) : Prop := INT64_MIN <= x <= INT64_MAX.

(** Arguments that the C types can hold. *)
Definition op_args (op : item_op) : Prop :=
  match op with
  | OpRead size => 0 <= size
  | OpReadAt offset size => int64 offset /\ 0 <= size
  | OpSeek offset _ => int64 offset
  | OpTell => True
  end.

(** The part of C05 about one step. *)
Definition step_accounting (d : dirent) (op : item_op) (cursor : Z)
           (r : item_result) (cursor' : Z) : Prop :=
  0 <= cursor' /\
  match op, r with
  | OpRead size, RData data =>
      0 <= zlen data <= size /\ cursor' = cursor + zlen data /\
      (zlen data = 0 \/ cursor + zlen data <= de_size d)
  | OpReadAt offset size, RData data =>
      0 <= zlen data <= size /\ cursor' = offset + zlen data /\
      (zlen data = 0 \/ offset + zlen data <= de_size d)
  | OpRead _, RError => cursor' = cursor
  | OpReadAt offset _, RError => cursor' = cursor \/ cursor' = offset
  | OpSeek _ _, ROffset c => cursor' = c
  | OpSeek _ _, RError => cursor' = cursor
  | OpTell, ROffset c => c = cursor /\ cursor' = cursor
  | OpTell, RError => cursor' = cursor
  | _, RUndefined => True
  | _, _ => False
  end.

(** The base that whence names: 0, the cursor, the size. *)
Definition seek_base (d : dirent) (cursor whence : Z) : option Z :=
  if whence =? 0 then Some 0
  else if whence =? 1 then Some cursor
  else if whence =? 2 then Some (de_size d)
  else None.

(** The same volume with another threshold, or with other short sectors. *)
Definition with_minimum (v : volume) (m : Z) : volume :=
  {| v_byte_order := v_byte_order v; v_sector_size := v_sector_size v;
     v_short_sector_size := v_short_sector_size v; v_minimum_size := m;
     v_container_start := v_container_start v; v_sat := v_sat v; v_ssat := v_ssat v |}.

Definition with_short (v : volume) (sss start : Z) (ssat : list Z) : volume :=
  {| v_byte_order := v_byte_order v; v_sector_size := v_sector_size v;
     v_short_sector_size := sss; v_minimum_size := v_minimum_size v;
     v_container_start := start; v_sat := v_sat v; v_ssat := ssat |}.

(** A read whose size is small enough for the sector counter of the library;
    telling the offset always is. *)
Definition read_sizes (v : volume) (d : dirent) (op : item_op) : Prop :=
  match op with
  | OpRead size | OpReadAt _ size =>
      0 <= size /\
      (4 <= (if de_size d <? v_minimum_size v then v_short_sector_size v else v_sector_size v)
       \/ size <= 1073741824)
  | OpTell => True
  | OpSeek _ _ => False
  end.
