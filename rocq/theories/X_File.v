(** A small complete file, for concrete cases. *)
From Coq Require Import ZArith List Bool Lia ZifyBool.
From Verif Require Import Base Spec_IO Spec_Stream Spec_Load Spec_Tree L_Base M_Table M_Load M_Stream
  M_Tree M_Open M_Item.
Import ListNotations.
Open Scope Z_scope.

Definition xf_signature := [0xd0; 0xcf; 0x11; 0xe0; 0xa1; 0xb1; 0x1a; 0xe1].

(** 512-byte sectors, 64-byte short sectors, streams below 100 bytes are
    short. *)
Definition xf_header_values : header_values :=
  {| hv_minor := 62; hv_major := 3; hv_sector_exponent := 9; hv_short_exponent := 6;
     hv_sat_sectors := 1; hv_root := 1; hv_minimum := 100; hv_ssat := 2; hv_ssat_sectors := 1;
     hv_msat := EOC; hv_msat_sectors := 0; hv_msat_values := 0 :: repeat FREE 108 |}.

Definition xf_header (e : endian) : list Z :=
  encode_header e xf_signature (zeros 16) (zeros 10) (zeros 4) [] xf_header_values.

(** A sector of 32-bit values, filled up with FREE. *)
Definition xf_table (e : endian) (l : list Z) : list Z :=
  concat (map (bytes_of e 4) (l ++ repeat FREE (128 - length l))).

(** A directory slot. *)
Definition xf_slot (e : endian) (name : list Z) (type prev next sub sector size : Z) : list Z :=
  let n := concat (map (bytes_of e 2) (name ++ [0])) in
  n ++ zeros (64 - zlen n) ++ bytes_of e 2 (zlen n) ++ [type; 0] ++
  bytes_of e 4 prev ++ bytes_of e 4 next ++ bytes_of e 4 sub ++ zeros 16 ++ zeros 4 ++
  bytes_of e 8 1000 ++ bytes_of e 8 2000 ++ bytes_of e 4 sector ++ bytes_of e 4 size ++ zeros 4.

(** Contents: [n] bytes starting with [b]. *)
Definition xf_data (b n : Z) : list Z := map (fun k => (b + Z.of_nat k) mod 251) (seq 0 (Z.to_nat n)).

(** root: "R"; in it the streams "ab" (70 bytes, short) and "cd" (600 bytes)
    and the storage "st" with the stream "xy" (10 bytes, short). *)
Definition xf_slots (e : endian) : list Z :=
  xf_slot e [82] 5 FREE FREE 2 3 192 ++
  xf_slot e [97; 98] 2 FREE FREE FREE 0 70 ++
  xf_slot e [99; 100] 2 1 4 FREE 4 600 ++
  zeros 128 ++
  xf_slot e [115; 116] 1 FREE FREE 5 0 0 ++
  xf_slot e [120; 121] 2 FREE FREE FREE 2 10 ++
  zeros 256.

(** The file with a given sector allocation table and given slots. *)
Definition xf_file_of (e : endian) (sat slots : list Z) : list Z :=
  xf_header e ++
  xf_table e sat ++                                        (* 0: SAT *)
  slice slots 0 512 ++                                     (* 1: directory *)
  xf_table e [1; EOC; EOC] ++                              (* 2: SSAT *)
  xf_data 0 512 ++                                         (* 3: short sectors *)
  xf_data 100 512 ++ xf_data 200 512 ++                    (* 4, 5: "cd" *)
  slice slots 512 512.                                     (* 6: directory *)

Definition xf_sat : list Z := [0xfffffffd; 6; EOC; EOC; 5; EOC; EOC].
Definition xf_file (e : endian) : list Z := xf_file_of e xf_sat (xf_slots e).

(** A comparison and a decoding that are right for ASCII names. *)
Fixpoint xf_units (e : endian) (l : list Z) : list Z :=
  match l with
  | a :: b :: l' => value e [a; b] :: xf_units e l'
  | _ => []
  end.
Definition xf_strip (l : list Z) : list Z :=
  match rev l with 0 :: r => rev r | _ => l end.
Fixpoint xf_eqb (a b : list Z) : bool :=
  match a, b with
  | [], [] => true
  | x :: a', y :: b' => (x =? y) && xf_eqb a' b'
  | _, _ => false
  end.
Definition xf_compare (a b : list Z) (e : endian) : res bool :=
  if (zlen b) mod 2 =? 0 then Ok (xf_eqb (xf_strip a) (xf_strip (xf_units e b))) else Err.
Definition xf_char (s : list Z) (i : Z) : res (Z * Z) :=
  match znth s i with Some c => if c <? 128 then Ok (c, i + 1) else Err | None => Err end.

Definition xf_una : una :=
  {| una_utf8_compare := xf_compare; una_utf16_compare := xf_compare;
     una_utf8_char := xf_char; una_utf16_char := xf_char |}.

Lemma xf_una_ok : una_ok xf_una.
Proof. constructor; intros; cbn; unfold xf_compare; destruct (_ =? _); exact I. Qed.

Definition xf_open (e : endian) := open_read xf_una (file_reader (xf_file e)) [].

(** All values of a list are bytes, as a boolean. *)
Definition xf_bytes (l : list Z) : bool := forallb (fun b => (0 <=? b) && (b <? 256)) l.
Lemma xf_bytes_ok l : xf_bytes l = true -> Forall is_byte l.
Proof.
  intros H. apply Forall_forall. intros x Hx. unfold xf_bytes in H. rewrite forallb_forall in H.
  specialize (H x Hx). unfold is_byte. lia.
Qed.

Lemma xf_file_bytes e : Forall is_byte (xf_file e).
Proof. apply xf_bytes_ok. destruct e; vm_compute; reflexivity. Qed.

Lemma xf_reader_bytes e : io_bytes (file_reader (xf_file e)).
Proof. apply file_reader_bytes, xf_file_bytes. Qed.

(** The result of opening it. *)
Definition xf_opened (e : endian) : option opened :=
  match xf_open e with (Ok o, _) => Some o | _ => None end.
