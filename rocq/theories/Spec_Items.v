(** What programs that use the Python bindings see, in terms of their calls and
    the answers. *)
From Coq Require Import ZArith List Bool String Ascii.
From Verif Require Import Base Spec_IO M_Header M_Table M_Load M_Stream M_Tree M_Open M_Item M_File M_Time M_Python
  M_Items Spec_Stream Spec_Tree Spec_Item Spec_File Spec_Python Spec_Write.
Import ListNotations.
Open Scope Z_scope.

(** The libraries outside return. *)
Record pyenv_ok (en : pyenv) : Prop := {
  po_una : una_ok (pe_una en);
  po_char : char_ok (una_utf8_char (pe_una en));
  po_text : forall n e, defined (pe_text en n e)
}.

Definition program_bytes (h : list (env * pycall)) : Prop := Forall (fun x => env_bytes (fst x)) h.

(** The object that a call is made on. *)
Definition target (call : pycall) : option nat :=
  match call with
  | OnItem i _ => Some i
  | OnSequence i _ => Some i
  | _ => None
  end.

(** No object is used after a close call that came behind a call that gave the
    object. *)
Definition careful (calls : list pycall) (answers : list reply) : Prop :=
  forall s c t i call,
    nth_error answers s = Some (AObject i) -> nth_error calls c = Some CallClose ->
    nth_error calls t = Some call -> target call = Some i -> (s < c < t)%nat -> False.

(** Calls of a stream object that may be undefined although the object is in
    good order: a seek whose target does not fit, at the position [c]. *)
Definition seek_overflows (c : Z) (op : stream_op) : Prop :=
  exists o w, op = PySeek (PInt o) (Some (PInt w)) /\
    (w = 1 /\ 2 ^ 63 <= c + o \/ w = 2 /\ 2 ^ 63 - 2 ^ 32 < o).

Definition is_read (op : stream_op) : Prop :=
  match op with PyRead _ | PyReadAt _ _ => True | _ => False end.

(** The number of calls of next on the object [j] that gave an object. *)
Definition yields (j : nat) (x : pycall * reply) : bool :=
  match x with
  | (OnSequence i CallNext, AObject _) => Nat.eqb i j
  | _ => false
  end.
Definition yielded (j : nat) (l : list (pycall * reply)) : Z := zlen (filter (yields j) l).

(** No call of the list closes the file, none is made on the object [j]. *)
Definition no_close (calls : list pycall) : Prop := Forall (fun call => call <> CallClose) calls.
Definition apart_from (j : nat) (h : list (env * pycall)) : Prop :=
  Forall (fun x => target (snd x) <> Some j) h.

(** ** A program that walks over a file
    It goes over the sub items with the iterator, takes the name and the times
    of each, reads what has a method read and goes on below what has not.  The
    result has the names as text. *)
Section Walk.
Variable en : pyenv.
Variable ev : env.

Definition text_of (a : reply) : option (list Z) := match a with AText s => Some s | _ => None end.
Definition number_of (a : reply) : option Z := match a with ANumber z => Some z | _ => None end.

Fixpoint walk (fuel : nat) (j : nat) (w : pyworld) : option forest * pyworld :=
  match fuel with
  | O => (None, w)
  | S fuel' =>
      match py_step en ev w (OnSequence j CallNext) with
      | (ARaise StopIteration, w1) => (Some Empty, w1)
      | (AObject x, w1) =>
          let (name, w2) := py_step en ev w1 (OnItem x CallName) in
          let (ctime, w3) := py_step en ev w2 (OnItem x CallCreationInteger) in
          let (mtime, w4) := py_step en ev w3 (OnItem x CallModificationInteger) in
          match text_of name, number_of ctime, number_of mtime with
          | Some n, Some c, Some m =>
              match py_step en ev w4 (OnItem x (CallStream (PyRead None))) with
              | (ABytes s, w5) =>
                  match walk fuel' j w5 with
                  | (Some r, w6) => (Some (AddStream n c m s r), w6)
                  | (None, w6) => (None, w6)
                  end
              | (ARaise AttributeError, w5) =>
                  match py_step en ev w5 (OnItem x CallSubItems) with
                  | (AObject y, w6) =>
                      match walk fuel' y w6 with
                      | (Some a, w7) =>
                          match walk fuel' j w7 with
                          | (Some r, w8) => (Some (AddStorage n c m a r), w8)
                          | (None, w8) => (None, w8)
                          end
                      | (None, w7) => (None, w7)
                      end
                  | (_, w6) => (None, w6)
                  end
              | (_, w5) => (None, w5)
              end
          | _, _, _ => (None, w4)
          end
      | (_, w1) => (None, w1)
      end
  end.

(** Opens the file with a file object, takes the root item and walks over its
    sub items. *)
Definition walk_file (fuel : nat) (w : pyworld) : option document :=
  match py_step en ev w (CallOpenObject None) with
  | (ANone, w1) =>
      match py_step en ev w1 CallRootItem with
      | (AObject x, w2) =>
          let (name, w3) := py_step en ev w2 (OnItem x CallName) in
          let (ctime, w4) := py_step en ev w3 (OnItem x CallCreationInteger) in
          let (mtime, w5) := py_step en ev w4 (OnItem x CallModificationInteger) in
          match text_of name, number_of ctime, number_of mtime with
          | Some n, Some c, Some m =>
              match py_step en ev w5 (OnItem x CallSubItems) with
              | (AObject y, w6) =>
                  match fst (walk fuel y w6) with
                  | Some a => Some {| doc_name := n; doc_ctime := c; doc_mtime := m; doc_items := a |}
                  | None => None
                  end
              | _ => None
              end
          | _, _, _ => None
          end
      | _ => None
      end
  | _ => None
  end.
End Walk.

(** The items with their names as text: [text n] is the text of the name [n]. *)
Fixpoint named_as (text : list Z -> list Z) (fo : forest) : forest :=
  match fo with
  | Empty => Empty
  | AddStream n c m s r => AddStream (text n) c m s (named_as text r)
  | AddStorage n c m a r => AddStorage (text n) c m (named_as text a) (named_as text r)
  end.

(** The number of items. *)
Fixpoint item_count (fo : forest) : nat :=
  match fo with
  | Empty => 0
  | AddStream _ _ _ _ r => S (item_count r)
  | AddStorage _ _ _ a r => S (item_count a + item_count r)
  end.

(** The name [n] is the text [text n] in the program. *)
Definition readable_name (en : pyenv) (e : endian) (text : list Z -> list Z) (n : list Z) : Prop :=
  pe_text en n e = Ok (text n) /\ pe_decodes en (text n) = true.

(** ** The file object
    The characters of a string. *)
Fixpoint characters (s : string) : list Z :=
  match s with
  | EmptyString => []
  | String a r => Z.of_nat (nat_of_ascii a) :: characters r
  end.

(** The codepages of the documentation with their names. *)
Definition codepage_names : list (Z * string) :=
  [(20127, "ascii"); (874, "cp874"); (932, "cp932"); (936, "cp936"); (949, "cp949"); (950, "cp950");
   (1250, "cp1250"); (1251, "cp1251"); (1252, "cp1252"); (1253, "cp1253"); (1254, "cp1254");
   (1255, "cp1255"); (1256, "cp1256"); (1257, "cp1257"); (1258, "cp1258")]%string.

(** Names of codepages that the library knows of but does not accept. *)
Definition further_codepage_names : list (Z * string) :=
  [(28591, "iso-8859-1"); (28592, "iso-8859-2"); (28593, "iso-8859-3"); (28594, "iso-8859-4");
   (28595, "iso-8859-5"); (28596, "iso-8859-6"); (28597, "iso-8859-7"); (28598, "iso-8859-8");
   (28599, "iso-8859-9"); (28600, "iso-8859-10"); (28601, "iso-8859-11"); (28603, "iso-8859-13");
   (28604, "iso-8859-14"); (28605, "iso-8859-15"); (28606, "iso-8859-16");
   (20866, "koi8_r"); (21866, "koi8_u")]%string.

Definition codepage_name (c : Z) : option (list Z) :=
  match find (fun x => fst x =? c) codepage_names with
  | Some x => Some (characters (snd x))
  | None => None
  end.

(** Whether the file is open and if by name, and the codepage, after calls with
    their answers. *)
Definition py_track (en : pyenv) (st : option bool * Z) (x : pycall * reply) : option bool * Z :=
  match x with
  | (CallOpen _, ANone) => (Some true, snd st)
  | (CallOpenObject _, ANone) => (Some false, snd st)
  | (CallClose, _) => match fst st with Some _ => (None, 1252) | None => st end
  | (CallSetCodepage name, ANone) => match pe_codepage en name with Some c => (fst st, c) | None => st end
  | _ => st
  end.
Definition py_tracked (en : pyenv) (l : list (pycall * reply)) : option bool * Z :=
  fold_left (py_track en) l (None, 1252).

(** The answer to a call on the file object with the tracked state [st], if
    that determines it.  [None] for calls that need more. *)
Definition open_answer (en : pyenv) (ev : env) (mode : option (list Z)) (st : option bool) (possible : bool) : reply :=
  if match mode with None => true | Some m => match m with c :: _ => c =? 114 | [] => false end end then
    match st with
    | Some _ => ARaise IOError
    | None =>
        if possible then
          match fst (open_read (pe_una en) (ev_reader ev) []) with Ok _ => ANone | _ => ARaise IOError end
        else ARaise IOError
    end
  else ARaise ValueError.

Definition file_answer (en : pyenv) (ev : env) (st : option bool * Z) (call : pycall) : option reply :=
  match call with
  | CallOpen mode => Some (open_answer en ev mode (fst st) (ev_is_open ev && ev_open ev))
  | CallOpenObject mode => Some (open_answer en ev mode (fst st) (ev_is_open ev))
  | CallClose =>
      match fst st with
      | None => Some (ARaise IOError)
      | Some own => Some (if own && negb (ev_close ev) then ARaise IOError else ANone)
      end
  | CallGetCodepage => match codepage_name (snd st) with Some l => Some (ABytes l) | None => None end
  | CallSetCodepage name =>
      if existsb (Z.eqb 0) name then Some (ARaise ValueError)
      else match pe_codepage en name with
           | None => Some (ARaise RuntimeError)
           | Some c => Some (match codepage_name c with Some _ => ANone | None => ARaise IOError end)
           end
  | CallSignalAbort => Some ANone
  | CallRootItem => match fst st with None => Some ANone | Some _ => None end
  | _ => None
  end.

Definition digits : list Z := characters "0123456789".

(** The text of a format version, "4.2" say. *)
Definition version_answer (major minor : Z) : reply :=
  if (major <=? 9) && (minor <=? 9) then
    match find (fun d => fst d =? major) (combine (map Z.of_nat (seq 0 10)) digits),
          find (fun d => fst d =? minor) (combine (map Z.of_nat (seq 0 10)) digits) with
    | Some a, Some b => AText [snd a; 46; snd b]
    | _, _ => PyUndef
    end
  else ARaise ValueError.

(** A call that gives an item below another one. *)
Definition gives_sub_item (call : pycall) : bool :=
  match call with
  | OnItem _ (CallSubItem _) | OnItem _ (CallByName _) | OnItem _ (CallByPath _) => true
  | OnSequence _ (CallIndex _) | OnSequence _ CallNext => true
  | _ => false
  end.

(** The names of property set streams. *)
Definition summary_name : list Z := 5 :: characters "SummaryInformation".
Definition document_summary_name : list Z := 5 :: characters "DocumentSummaryInformation".
Definition property_set_name (n : list Z) : Prop := n = summary_name \/ n = document_summary_name.

(** The answer to a call at the end of a program. *)
Definition ask (en : pyenv) (h : list (env * pycall)) (ev : env) (call : pycall) : reply :=
  last (fst (py_run en (h ++ [(ev, call)]) py_start)) PyUndef.

Definition opens (call : pycall) : Prop :=
  match call with CallOpen _ | CallOpenObject _ => True | _ => False end.
