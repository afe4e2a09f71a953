(** A file mounted on Windows, for concrete cases. *)
From Coq Require Import ZArith List Bool Lia.
From Verif Require Import Base Spec_IO L_Base M_Table M_Load M_Stream M_Tree M_Open M_Item M_Mount M_Fuse M_Dokan
  Spec_Stream Spec_Load Spec_Tree Spec_Mount Spec_Dokan X_File X_Mount X_WMount X_Fuse.
Import ListNotations.
Open Scope Z_scope.

(** The file of X_Fuse with the stream [first] in the root, before "cd" and
    "st", and the stream "xy" of [size] bytes in "st". *)
Definition xw_file (first : list Z) (size : Z) : list Z :=
  xf_file_of Little xf_sat
    (xm_slot [82] 5 FREE FREE 2 0 3 192 ++
     xm_slot first 2 FREE FREE FREE 134392752591234567 0 70 ++
     xm_slot [99; 100] 2 1 4 FREE 116444735985000001 4 600 ++
     zeros 128 ++
     xm_slot [115; 116] 1 FREE FREE 5 129067776000000000 0 0 ++
     xm_slot [120; 121] 2 FREE FREE FREE 125911584000000000 2 size ++
     zeros 256).

(** Names that begin with half of a surrogate pair cannot be converted. *)
Definition xw_name (l : list Z) (e : endian) : option (list Z) :=
  match xf_strip (xf_units e l) with
  | c :: n => if (56320 <=? c) && (c <? 57344) then None else Some (c :: n)
  | [] => Some []
  end.

Definition xw_una : una :=
  {| una_utf8_compare := una_utf8_compare xf_una; una_utf16_compare := una_utf16_compare xf_una;
     una_utf8_char := una_utf8_char xf_una; una_utf16_char := cd_decode utf16 |}.

Lemma xw_una_ok : una_ok xw_una.
Proof. constructor; intros; cbn; unfold xf_compare; destruct (_ =? _); exact I. Qed.

Definition xw_mounted (o : opened) : mounted :=
  {| mt_una := xw_una; mt_codec := utf16; mt_name := xw_name; mt_volume := opened_volume o;
     mt_tree := o_tree o; mt_time := 133444736001234567 |}.

Lemma xw_ok o : wmount_ok (xw_mounted o).
Proof. constructor; cbn; [exact utf16_ok|reflexivity|lia]. Qed.

Definition xw_open (first : list Z) (size : Z) := open_read xw_una (file_reader (xw_file first size)) [].

Definition xw_mount (first : list Z) (size : Z) : option mounted :=
  match xw_open first size with (Ok o, _) => Some (xw_mounted o) | _ => None end.

(** The stream "ab". *)
Definition xw_plain : option mounted := xw_mount [97; 98] 10.

Definition xw_reader : reader := file_reader (xw_file [97; 98] 10).

(** "\005DocumentSummaryInformation". *)
Definition xw_summary : list Z :=
  [5; 68; 111; 99; 117; 109; 101; 110; 116; 83; 117; 109; 109; 97; 114; 121; 73; 110; 102; 111; 114; 109; 97; 116;
   105; 111; 110].

(** Structures that were cleared, and that held a size. *)
Definition xw_information (size : Z * Z) : information :=
  {| in_attributes := 0; in_created := (0, 0); in_accessed := (0, 0); in_written := (0, 0); in_size := size;
     in_serial_number := 7; in_links := 0; in_index := (0, 0) |}.

(** All four builds. *)
Definition xw_builds : list dokan_build :=
  [ {| db_long_paths := false; db_old := false |}; {| db_long_paths := false; db_old := true |};
    {| db_long_paths := true; db_old := false |}; {| db_long_paths := true; db_old := true |} ].
