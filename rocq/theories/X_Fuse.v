(** A mounted file, for concrete cases. *)
From Coq Require Import ZArith List Bool Lia.
From Verif Require Import Base Spec_IO L_Base M_Table M_Load M_Stream M_Tree M_Open M_Item M_Mount M_Fuse
  Spec_Stream Spec_Load Spec_Tree Spec_Mount Spec_Fuse X_File X_Mount.
Import ListNotations.
Open Scope Z_scope.

(** As xf_slot, with a modification time. *)
Definition xm_slot (name : list Z) (type prev next sub mtime sector size : Z) : list Z :=
  let n := concat (map (bytes_of Little 2) (name ++ [0])) in
  n ++ zeros (64 - zlen n) ++ bytes_of Little 2 (zlen n) ++ [type; 0] ++
  bytes_of Little 4 prev ++ bytes_of Little 4 next ++ bytes_of Little 4 sub ++ zeros 16 ++ zeros 4 ++
  zeros 8 ++ bytes_of Little 8 mtime ++ bytes_of Little 4 sector ++ bytes_of Little 4 size ++ zeros 4.

(** The file of X_File: root without a time, "ab" of 2026, "cd" of 1969, the
    storage "st" of 2010 with a stream that has the name [leaf] and the time
    [leaf_time]. *)
Definition xm_file (leaf : list Z) (leaf_time : Z) : list Z :=
  xf_file_of Little xf_sat
    (xm_slot [82] 5 FREE FREE 2 0 3 192 ++
     xm_slot [97; 98] 2 FREE FREE FREE 134392752591234567 0 70 ++
     xm_slot [99; 100] 2 1 4 FREE 116444735985000001 4 600 ++
     zeros 128 ++
     xm_slot [115; 116] 1 FREE FREE 5 129067776000000000 0 0 ++
     xm_slot leaf 2 FREE FREE FREE leaf_time 2 10 ++
     zeros 256).

(** The names are ASCII; other names cannot be converted. *)
Definition xm_name (l : list Z) (e : endian) : option (list Z) :=
  let n := xf_strip (xf_units e l) in
  if forallb (fun c => c <? 128) n then Some n else None.

Definition xm_una : una :=
  {| una_utf8_compare := una_utf8_compare xf_una; una_utf16_compare := una_utf16_compare xf_una;
     una_utf8_char := cd_decode utf8; una_utf16_char := una_utf16_char xf_una |}.

Lemma xm_una_ok : una_ok xm_una.
Proof. constructor; intros; cbn; unfold xf_compare; destruct (_ =? _); exact I. Qed.

(** Mounted in November 2023. *)
Definition xm_mounted (o : opened) : mounted :=
  {| mt_una := xm_una; mt_codec := utf8; mt_name := xm_name; mt_volume := opened_volume o;
     mt_tree := o_tree o; mt_time := 1700000000123456789 |}.

Lemma xm_ok o : mount_ok (xm_mounted o).
Proof. constructor; cbn; [exact utf8_ok|reflexivity|lia]. Qed.

Definition xm_open (leaf : list Z) (leaf_time : Z) :=
  open_read xm_una (file_reader (xm_file leaf leaf_time)) [].

Definition xm_mount (leaf : list Z) (leaf_time : Z) : option mounted :=
  match xm_open leaf leaf_time with (Ok o, _) => Some (xm_mounted o) | _ => None end.

(** "xy", 2000. *)
Definition xm_plain : option mounted := xm_mount [120; 121] 125911584000000000.
