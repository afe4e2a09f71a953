(** What the functions of the Python module should do. *)
From Coq Require Import ZArith List Bool.
From Verif Require Import Base Spec_IO M_Table M_Load M_File M_Python M_Items M_Module Spec_File.
Import ListNotations.
Open Scope Z_scope.

(** The argument is the name [n], as str or as bytes, and there can be a file
    of this name. *)
Definition names (encode : list Z -> option (list Z)) (a : filename) (n : list Z) : Prop :=
  (a = NBytes n \/ exists s, a = NStr s /\ encode s = Some n) /\ ~ In 0 n /\ n <> [].

(** The file of the name [n] has the contents [f] and nothing goes wrong. *)
Definition healthy (sy : system) (n f : list Z) : Prop :=
  sy_handle sy = true /\ sy_name sy n = true /\
  ev_is_open (sy_env sy n) = true /\ ev_open (sy_env sy n) = true /\ ev_close (sy_env sy n) = true /\
  io_sound (ev_reader (sy_env sy n)) f /\ io_total (ev_reader (sy_env sy n)) f /\
  io_bytes (ev_reader (sy_env sy n)).

(** The first 8 bytes of the documentation, or those of the beta versions. *)
Definition signed (f : list Z) : Prop :=
  slice f 0 8 = [0xd0; 0xcf; 0x11; 0xe0; 0xa1; 0xb1; 0x1a; 0xe1] \/
  slice f 0 8 = [0x0e; 0x11; 0xfc; 0x0d; 0xd0; 0xcf; 0x11; 0x0e].

(** The answer of the signature check for the contents [f]. *)
Definition signature_answer (f : list Z) (x : module_answer) : Prop :=
  (zlen f < 8 -> x = MRaise IOError) /\
  (8 <= zlen f -> signed f -> x = MBool true) /\
  (8 <= zlen f -> ~ signed f -> x = MBool false).

(** The mode begins with r, if it is given. *)
Definition read_mode (mode : option (list Z)) : Prop :=
  match mode with None => True | Some m => exists r, m = 114 :: r end.
