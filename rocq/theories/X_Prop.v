(** Concrete property sets. *)
From Coq Require Import ZArith List Bool Lia.
From Verif Require Import Base Spec_IO M_Table M_Load M_Stream Spec_Stream Spec_Content
  M_Prop Spec_Prop L_Base X_Linear.
Import ListNotations.
Open Scope Z_scope.

(** The [n] bytes of [x], least significant first. *)
Fixpoint low_bytes (n : nat) (x : Z) : list Z :=
  match n with O => [] | S n => x mod 256 :: low_bytes n (x / 256) end.

Definition bytes_in (e : endian) (n : nat) (x : Z) : list Z :=
  match e with Little => low_bytes n x | Big => rev (low_bytes n x) end.

(** Section with a list of identifiers and values. *)
Fixpoint section_list (e : endian) (off : Z) (l : list (Z * list Z)) : list Z :=
  match l with
  | [] => []
  | (id, b) :: r => bytes_in e 4 id ++ bytes_in e 4 off ++ section_list e (off + zlen b) r
  end.

Definition section_bytes (e : endian) (l : list (Z * list Z)) : list Z :=
  let body := section_list e (8 + 8 * zlen l) l ++ concat (map snd l) in
  bytes_in e 4 (8 + zlen body) ++ bytes_in e 4 (zlen l) ++ body.

(** Set with [n] as number of sections, a list of sections and the rest. *)
Definition set_bytes (e : endian) (n : Z) (l : list (list Z * Z)) (rest : list Z) : list Z :=
  bytes_in e 2 0xfffe ++ bytes_in e 2 0 ++ bytes_in e 4 0x20105 ++ repeat 7 16 ++
  bytes_in e 4 n ++ concat (map (fun x => fst x ++ bytes_in e 4 (snd x)) l) ++ rest.

(** A codepage (two bytes), a string with a byte after its end, a 32-bit
    number, a time stamp, a boolean, binary data and an unsupported type. *)
Definition xp_values (e : endian) : list (Z * list Z) :=
  [ (1, bytes_in e 4 2 ++ bytes_in e 2 1252);
    (2, bytes_in e 4 0x1e ++ bytes_in e 4 4 ++ [72; 105; 0; 99]);
    (4, bytes_in e 4 3 ++ bytes_in e 4 4294967291);
    (12, bytes_in e 4 0x40 ++ bytes_in e 8 131000000000000000);
    (16, bytes_in e 4 0xb ++ [255; 255; 0; 0]);
    (17, bytes_in e 4 0x47 ++ bytes_in e 4 3 ++ [9; 8; 7]);
    (18, bytes_in e 4 0x99) ].

(** A UTF-16 string with a character after its end, a 64-bit number, a
    multi-value string. *)
Definition xp_values2 (e : endian) : list (Z * list Z) :=
  [ (3, bytes_in e 4 0x1f ++ bytes_in e 4 3 ++ [72; 0; 0; 0; 99; 0]);
    (5, bytes_in e 4 0x15 ++ bytes_in e 8 9);
    (6, bytes_in e 4 0x101e ++ bytes_in e 4 1 ++ bytes_in e 4 2 ++ [65; 0]) ].

Definition xp_set (e : endian) (n : Z) : list Z :=
  set_bytes e n [(repeat 1 16, 68); (repeat 2 16, 68 + zlen (section_bytes e (xp_values e)))]
    (section_bytes e (xp_values e) ++ section_bytes e (xp_values2 e)).

(** One section with one value, at the offset [rel] from the section at 48. *)
Definition xp_one (rel : Z) (b : list Z) : list Z :=
  set_bytes Little 1 [(repeat 1 16, 48)]
    (low_bytes 4 99 ++ low_bytes 4 1 ++ low_bytes 4 2 ++ low_bytes 4 rel ++ b).

(** [n] sections in the same place, each with [m] values in the same place, of
    [k] bytes. *)
Definition xp_shared (n m k : nat) : list Z :=
  set_bytes Little (Z.of_nat n) (repeat (repeat 1 16, 28 + 20 * Z.of_nat n) n)
    (low_bytes 4 99 ++ low_bytes 4 (Z.of_nat m) ++
     concat (repeat (low_bytes 4 2 ++ low_bytes 4 (8 + 8 * Z.of_nat m)) m) ++
     low_bytes 4 0x41 ++ low_bytes 4 (Z.of_nat k) ++ repeat 5 k).

(** A libfvalue that does what the contract says. *)
Definition size_matches (k : fv_type) (n : Z) : bool :=
  match k with
  | FvBoolean | FvInteger8 => n =? 1
  | FvInteger16 => n =? 2
  | FvInteger32 | FvFloat32 => n =? 4
  | FvInteger64 | FvFloat64 | FvFiletime => n =? 8
  | FvGuid => n =? 16
  | FvBinary | FvByteString | FvUtf16String => true
  end.

Definition value_bytes (w : fvalue) : list Z :=
  match fv_data w with Some (l, _) => l | None => [] end.

Definition xp_lib : fvlib := {|
  lib_new := fun _ => true;
  lib_set := fun k l _ => size_matches k (zlen l);
  lib_bits := fun n w =>
    match fv_data w with
    | Some (l, EncOrder e) => if 8 * zlen l =? n then Some (number_in e l) else None
    | _ => None
    end;
  lib_size := fun w => Some (zlen (value_bytes w));
  lib_copy := fun w n => if n <? zlen (value_bytes w) then None else Some (value_bytes w);
  lib_utf8 := fun w n => if n <? zlen (value_bytes w) then None else Some (value_bytes w);
  lib_utf16 := fun w n => None
|}.

Lemma xp_lib_accepts : lib_accepts xp_lib.
Proof.
  split; [reflexivity|]. intros k l enc H. cbn [xp_lib lib_set].
  destruct k; cbn [size_matches sizes_ok] in *; try reflexivity; now apply Z.eqb_eq.
Qed.

Lemma xp_lib_decodes : lib_decodes xp_lib.
Proof.
  intros k n l e _ H. cbn [xp_lib lib_bits fv_data]. now rewrite (proj2 (Z.eqb_eq _ _) H).
Qed.

(** Reads [s] as the stream of a file. *)
Definition xp_read (s : list Z) : res (property_set * Z) :=
  fst (get_set xp_lib (file_reader (line_file s)) (line_volume s) (line_dirent s) 1252 0 []).

Definition all_bytes (s : list Z) : bool := forallb (fun b => (0 <=? b) && (b <? 256)) s.

Lemma all_bytes_ok s : all_bytes s = true -> Forall is_byte s.
Proof.
  intros H. apply Forall_forall. intros b Hb.
  unfold all_bytes in H. rewrite forallb_forall in H. specialize (H b Hb).
  apply andb_prop in H as [H1 H2]. unfold is_byte. lia.
Qed.

Lemma xp_stream s : zlen s <= 4294967295 -> all_bytes s = true ->
  is_readable_stream (file_reader (line_file s)) (line_volume s) (line_dirent s) s.
Proof. intros H1 H2. apply line_readable; [exact H1|]. now apply all_bytes_ok. Qed.

(** What a set says, for comparison. *)
Definition xp_view (r : res (property_set * Z)) :=
  match r with Ok (x, _) => Some (set_view x) | _ => None end.
