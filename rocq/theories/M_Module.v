(** Model of the functions of the Python module, pyolecf/pyolecf.c, on systems
    without HAVE_WIDE_SYSTEM_CHARACTER, and of libolecf_check_file_signature.

    Simplified: PyArg_ParseTupleAndKeywords gave the arguments; the interpreter
    has memory for its objects. *)
From Coq Require Import ZArith List Bool.
From Verif Require Import Base M_Header M_Table M_Load M_Open M_File M_Python M_Items.
Import ListNotations.
Open Scope Z_scope.

(** The argument filename: a str, a bytes object, something else, or an object
    that makes PyObject_IsInstance fail. *)
Inductive filename :=
| NStr (s : list Z)
| NBytes (l : list Z)
| NOther
| NStrange.

(** A C string: what is before the first end of string character. *)
Fixpoint c_string (l : list Z) : list Z :=
  match l with
  | [] => []
  | c :: l' => if c =? 0 then [] else c :: c_string l'
  end.

(** What the C functions are called with, lines 171-334 of pyolecf.c and 491-648
    of pyolecf_file.c.  [encode] is PyUnicode_AsUTF8String; PyBytes_AsString
    gives the address of the bytes. *)
Definition narrow_name (encode : list Z -> option (list Z)) (a : filename) : exception + list Z :=
  match a with
  | NStr s =>
      match encode s with
      | None => inl RuntimeError
      | Some l => inr (c_string l)
      end
  | NBytes l => inr (c_string l)
  | NOther => inl TypeError
  | NStrange => inl RuntimeError
  end.

(** What the operating system does for the file of a name, and whether libbfio
    can make a handle and set its name. *)
Record system := {
  sy_handle : bool;
  sy_name : list Z -> bool;
  sy_env : list Z -> env
}.

(** libolecf_check_file_signature, libolecf/libolecf_support.c lines 110-210.
    The handle is new, so it is not open, and is freed at the end. *)
Definition check_signature_name (sy : system) (name : list Z) : res bool :=
  if zlen name =? 0 then Err                             (* 131-144 *)
  else if negb (sy_handle sy) then Err                   (* 145-157 *)
  else if negb (sy_name sy name) then Err                (* 158-172 *)
  else fst (check_signature_handle (sy_env sy name) {| w_open := fun _ => false; w_own := 0 |} 0).

Inductive module_answer :=
| MBool (b : bool)
| MFile (w : pyworld)
| MRaise (e : exception)
| MUndef.

Definition bool_answer (r : res bool) : module_answer :=
  match r with Ok b => MBool b | Err => MRaise IOError | _ => MUndef end.

(** pyolecf_check_file_signature, lines 137-339. *)
Definition module_check (encode : list Z -> option (list Z)) (sy : system) (a : filename) : module_answer :=
  match narrow_name encode a with
  | inl e => MRaise e
  | inr name => bool_answer (check_signature_name sy name)
  end.

(** pyolecf_check_file_signature_file_object, lines 344-439.  The handle of a
    file object is always open (pyolecf_file_object_io_handle_is_open, lines
    1228-1259 of pyolecf_file_object_io_handle.c), so it is neither opened nor
    closed.  Attributes of the object are not looked at before. *)
Definition module_check_object {S} (ob : pyobject S) (s : S) : module_answer :=
  bool_answer (fst (check_signature (object_reader ob s) [])).

(** pyolecf_file_open, lines 437-649 of pyolecf_file.c, for a file object in
    the state [w].  In M_Items.v the name is left out. *)
Definition open_name (encode : list Z -> option (list Z)) (en : pyenv) (sy : system) (a : filename)
           (mode : option (list Z)) (w : pyworld) : reply * pyworld :=
  if negb (mode_accepted mode) then (ARaise ValueError, w)
  else
    match narrow_name encode a with
    | inl e => (ARaise e, w)
    | inr name =>
        if negb (sy_handle sy) || negb (sy_name sy name) then (ARaise IOError, w)
        else py_step en (sy_env sy name) w (CallOpen mode)
    end.

(** The object of a new file, lines 455-489 and 506-540: on failure it is
    released. *)
Definition new_object (r : reply * pyworld) : module_answer :=
  match r with
  | (ANone, w) => MFile w
  | (ARaise e, _) => MRaise e
  | _ => MUndef
  end.

(** pyolecf_open_new_file, lines 444-490. *)
Definition module_open (encode : list Z -> option (list Z)) (en : pyenv) (sy : system) (a : filename)
           (mode : option (list Z)) : module_answer :=
  new_object (open_name encode en sy a mode py_start).

(** pyolecf_open_new_file_with_file_object, lines 495-541, and
    pyolecf_file_open_file_object, lines 654-788 of pyolecf_file.c: an object
    must have the attributes read and seek.  [sound] says whether libbfio
    answers that the handle is open. *)
Definition module_open_object {S} (en : pyenv) (readable seekable sound : bool) (ob : pyobject S) (s : S)
           (mode : option (list Z)) : module_answer :=
  if negb (mode_accepted mode) then MRaise ValueError
  else if negb readable || negb seekable then MRaise TypeError
  else new_object (py_step en {| ev_is_open := sound; ev_open := true; ev_close := true;
                                 ev_reader := object_reader ob s |} py_start (CallOpenObject mode)).
