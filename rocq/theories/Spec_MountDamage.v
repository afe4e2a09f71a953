(** Mounted files that cannot all be read. *)
From Coq Require Import ZArith List Bool.
From Verif Require Import Base Spec_IO M_Table M_Load M_Stream M_Tree M_Fuse M_Dokan Spec_Stream.
Import ListNotations.
Open Scope Z_scope.

(** The reply [r] of a callback is [r0], or that a read failed. *)
Definition as_read (op : fuse_op) (r r0 : fuse_result) : Prop :=
  r = r0 \/ exists k size offset, op = FuRead k size offset /\ r = RErrno EIO.

Definition was_read (op : dokan_op) (r r0 : dokan_result) : Prop :=
  r = r0 \/ exists k size offset, op = DkRead k size offset /\ r = DrStatus ReadFault.

(** The same callbacks in both histories; the I/O layers of the first may fail,
    those of the second do not. *)
Definition two_media {op : Type} (f : list Z) (h h0 : list (reader * op)) : Prop :=
  map snd h = map snd h0 /\
  Forall (fun x => io_sound (fst x) f) h /\ Forall (fun x => io_sound (fst x) f /\ io_total (fst x) f) h0.

(** The entry at the node [k] of the mounted tree. *)
Definition entry_at (m : mounted) (k : nat) (d : dirent) : Prop :=
  exists t n, mt_tree m = Some t /\ nth_error (tr_nodes t) k = Some n /\ n_entry n = d.
