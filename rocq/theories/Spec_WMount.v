(** Specification of the names and paths of the mount tool on Windows. *)
From Coq Require Import ZArith List Bool.
From Verif Require Import Base M_Load M_Tree M_Item M_Mount Spec_Tree Spec_Item Spec_Mount.
Import ListNotations.
Open Scope Z_scope.

(** The characters that Windows keeps out of file names: backslash, less-than
    and greater-than sign, colon, quotation mark, slash, vertical bar, question
    mark and asterisk. *)
Definition reserved : list Z := [92; 60; 62; 58; 34; 47; 124; 63; 42].

(** A character that a file name can have. *)
Definition wplain (c : Z) : Prop := 31 < c /\ ~ In c reserved /\ ~ 127 <= c <= 159.

(** The text that stands for a character in a file name: ^x##, ^U########, two
    circumflexes, or the character. *)
Inductive wfile_name_char (cd : codec) (c : Z) : list Z -> Prop :=
| wc_control digits : ~ wplain c -> hex_digits 2 c digits -> wfile_name_char cd c (94 :: 120 :: digits)
| wc_unprintable digits : wplain c -> unprintable c -> hex_digits 8 c digits ->
    wfile_name_char cd c (94 :: 85 :: digits)
| wc_circumflex : c = 94 -> wfile_name_char cd c [94; 94]
| wc_other units : wplain c -> ~ unprintable c -> c <> 94 -> cd_encode cd c = Ok units ->
    wfile_name_char cd c units.

Definition wfile_name_text (cd : codec) (cs f : list Z) : Prop :=
  exists pieces, Forall2 (wfile_name_char cd) cs pieces /\ f = concat pieces.
