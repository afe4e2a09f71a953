(** Specification of the names and paths of the mount tool. *)
From Coq Require Import ZArith List Bool.
From Verif Require Import Base M_Load M_Tree M_Item M_Mount Spec_Tree Spec_Item.
Import ListNotations.
Open Scope Z_scope.

(** What is needed of the UTF-8 functions of libuna, and of the UTF-16
    functions on Windows: decoding advances and stays inside; what encoding
    gives decodes to the same character wherever it stands; a character of
    ASCII is one unit and the units of all other characters are above; no
    character takes more than 6 units, and none below 256 more than 2. *)
Record codec_ok (cd : codec) : Prop := {
  co_decode : char_ok (cd_decode cd);
  co_range : forall s i c i', cd_decode cd s i = Ok (c, i') -> 0 <= c < 4294967296;
  co_defined : forall c, defined (cd_encode cd c);
  co_inverse : forall c units, cd_encode cd c = Ok units -> is_char (cd_decode cd) units c;
  co_ascii : forall c, 1 <= c < 128 -> cd_encode cd c = Ok [c];
  co_other : forall c units, cd_encode cd c = Ok units -> 128 <= c -> Forall (fun b => 128 <= b) units;
  co_size : forall c units, cd_encode cd c = Ok units -> zlen units <= 6 /\ (c < 256 -> zlen units <= 2)
}.

(** [bytes] is the text [cs]. *)
Inductive text (cd : codec) : list Z -> list Z -> Prop :=
| tx_nil : text cd [] []
| tx_char c units cs bytes :
    cd_encode cd c = Ok units -> text cd cs bytes -> text cd (c :: cs) (units ++ bytes).

(** The path of the names below the mount point, and in the item path. *)
Fixpoint path_of (separator : Z) (names : list (list Z)) : list Z :=
  match names with
  | [] => []
  | n :: names' => separator :: n ++ path_of separator names'
  end.

(** A character that a file name can have. *)
Definition plain (c : Z) : Prop := 31 < c /\ c <> 47 /\ ~ 127 <= c <= 159.

(** The number that digits of base 16 stand for. *)
Definition hex_value (digits : list Z) : Z :=
  fold_left (fun x d => 16 * x + (if d <=? 57 then d - 48 else d - 87)) digits 0.

Definition hex_digits (n : nat) (c : Z) (digits : list Z) : Prop :=
  length digits = n /\ Forall (fun d => 48 <= d <= 57 \/ 97 <= d <= 102) digits /\ hex_value digits = c.

(** The characters that are not printed: line and paragraph separator,
    surrogates, characters without a meaning, some of the private use areas. *)
Definition unprintable (c : Z) : Prop :=
  0x2028 <= c <= 0x2029 \/ 0xd800 <= c <= 0xe000 \/ c = 0xf8ff \/ 0xfdd0 <= c <= 0xfddf \/
  0xfffe <= c mod 0x10000 \/ In c [0xf0000; 0xffffd; 0x100000] \/ 0x10fffd <= c.

(** The text that stands for a character in a file name: \x##, \U########, two
    backslashes, or the character. *)
Inductive file_name_char (cd : codec) (c : Z) : list Z -> Prop :=
| fc_control digits : ~ plain c -> hex_digits 2 c digits -> file_name_char cd c (92 :: 120 :: digits)
| fc_unprintable digits : plain c -> unprintable c -> hex_digits 8 c digits ->
    file_name_char cd c (92 :: 85 :: digits)
| fc_backslash : c = 92 -> file_name_char cd c [92; 92]
| fc_other units : plain c -> ~ unprintable c -> c <> 92 -> cd_encode cd c = Ok units ->
    file_name_char cd c units.

Definition file_name_text (cd : codec) (cs f : list Z) : Prop :=
  exists pieces, Forall2 (file_name_char cd) cs pieces /\ f = concat pieces.
