(** Model of the reference counts of the objects of the Python bindings and of
    the memory behind them: the functions pyolecf_..._new and pyolecf_..._free
    of pyolecf/pyolecf_file.c, pyolecf_item.c, pyolecf_items.c,
    pyolecf_property_set.c, pyolecf_property_section.c,
    pyolecf_property_sections.c, pyolecf_property_value.c,
    pyolecf_property_values.c and pyolecf_file_object_io_handle.c.

    Memory that belongs to libolecf is a numbered block: the one of a file
    (libolecf_file_initialize), the directory tree and entries of an open file,
    the one of an item (libolecf_item_initialize) and the one of a property set
    with its sections and values.  Touching a released block or object, or
    releasing it again, is [Undef].

    Simplified: what the calls compute is in M_Items.v and M_Prop.v; here each
    call is given whether the library succeeds.  Making a Python object and
    closing a file do not fail.  A file-like object that is passed to
    open_file_object is not an object of the bindings. *)
From Coq Require Import ZArith List Bool.
From Verif Require Import Base.
Import ListNotations.

(** The structures behind the objects, see pyolecf_file.h lines 39-56 and the
    like; numbers of blocks and, last, of the object in parent_object. *)
Inductive body :=
| BSource                                       (* a Python object with read and seek *)
| BFile (file : nat) (opened : option (nat * option nat))
                                                (* tree; object of file_io_handle *)
| BItem (item tree parent : nat)
| BItems (parent : nat)
| BSet (set parent : nat)
| BSections (parent : nat)
| BSection (set parent : nat)
| BValues (parent : nat)
| BValue (set parent : nat).

Record pobj := { o_refs : nat; o_body : body }.

(** [held]: the references of the program, one entry for each.  An object or a
    block keeps its number after its release. *)
Record heap := { objects : list (option pobj); blocks : list bool; held : list nat }.

Definition empty_heap : heap := {| objects := []; blocks := []; held := [] |}.

Fixpoint update {A} (l : list A) (i : nat) (x : A) : list A :=
  match l, i with
  | [], _ => []
  | _ :: l', O => x :: l'
  | y :: l', S i' => y :: update l' i' x
  end.

Definition get_obj (h : heap) (i : nat) : res pobj :=
  match nth_error (objects h) i with
  | Some (Some o) => Ok o
  | _ => Undef
  end.

Definition set_obj (h : heap) (i : nat) (o : option pobj) : heap :=
  {| objects := update (objects h) i o; blocks := blocks h; held := held h |}.

Definition set_held (h : heap) (l : list nat) : heap :=
  {| objects := objects h; blocks := blocks h; held := l |}.

Definition touch (h : heap) (n : nat) : res unit :=
  match nth_error (blocks h) n with Some true => Ok tt | _ => Undef end.

Definition release (h : heap) (n : nat) : res heap :=
  match nth_error (blocks h) n with
  | Some true => Ok {| objects := objects h; blocks := update (blocks h) n false; held := held h |}
  | _ => Undef
  end.

Definition new_block (h : heap) : nat * heap :=
  (length (blocks h),
   {| objects := objects h; blocks := blocks h ++ [true]; held := held h |}).

Definition incref (h : heap) (i : nat) : res heap :=
  do o <- get_obj h i;
  Ok (set_obj h i (Some {| o_refs := S (o_refs o); o_body := o_body o |})).

(** PyObject_New: one reference, for the program.  The references of the
    structure are counted by the caller. *)
Definition new_object (h : heap) (b : body) : heap :=
  {| objects := objects h ++ [Some {| o_refs := 1; o_body := b |}]; blocks := blocks h;
     held := length (objects h) :: held h |}.

(** The blocks that the tp_dealloc function of an object releases, before its
    parent_object: pyolecf_file_free lines 312-383 with the close of an open
    file, pyolecf_item_free lines 341-408, pyolecf_property_set_free lines
    269-336.  libolecf_property_section_free and libolecf_property_value_free
    (libolecf_property_section.c lines 134-158, libolecf_property_value.c lines
    116-140) release nothing. *)
Definition owned (b : body) : list nat :=
  match b with
  | BFile f (Some (t, _)) => [t; f]
  | BFile f None => [f]
  | BItem i _ _ => [i]
  | BSet s _ => [s]
  | _ => []
  end.

(** The object that it gives back: parent_object, for a file the object of
    file_io_handle (pyolecf_file_object_io_handle_free, lines 210-244). *)
Definition parent (b : body) : option nat :=
  match b with
  | BSource | BFile _ None => None
  | BFile _ (Some (_, src)) => src
  | BItem _ _ p | BItems p | BSet _ p | BSections p | BSection _ p | BValues p | BValue _ p => Some p
  end.

Fixpoint release_all (h : heap) (l : list nat) : res heap :=
  match l with
  | [] => Ok h
  | n :: l' => do h <- release h n; release_all h l'
  end.

(** Py_DecRef.  At 0 the tp_dealloc function of the type is called; tp_free is
    its last step, here the object goes before its parent is given back.
    [fuel] bounds the length of the chain of parents: at most source, file,
    item, set, section, value and a sequence. *)
Fixpoint decref (fuel : nat) (h : heap) (i : nat) : res heap :=
  match fuel with
  | O => NoFuel
  | S fuel =>
      do o <- get_obj h i;
      match o_refs o with
      | O => Undef
      | S (S n) => Ok (set_obj h i (Some {| o_refs := S n; o_body := o_body o |}))
      | S O =>
          do h <- release_all h (owned (o_body o));
          let h := set_obj h i None in
          match parent (o_body o) with
          | None => Ok h
          | Some p => decref fuel h p
          end
      end
  end.
Definition CHAIN : nat := 8.

(** The new object and the reference on its parent: Py_IncRef in
    pyolecf_item_new lines 259-308, pyolecf_items_new lines 156-216,
    pyolecf_property_set_new lines 188-236 and the like. *)
Definition new_child (h : heap) (b : body) : res heap :=
  match parent b with
  | None => Ok (new_object h b)
  | Some p => do h <- incref h p; Ok (new_object h b)
  end.

Inductive wanted :=
| WantNothing                 (* a number, a string, a date, an exception of the arguments *)
| WantItem | WantItems | WantSet | WantSections | WantSection | WantValues | WantValue.

(** pyolecf_item_get_sub_item_by_index, lines 1006-1086 of pyolecf_item.c (and
    _by_name, _by_path): the parent of the new item is the one of the item. *)
Definition sub_item (h : heap) (b : body) (ok : bool) : res heap :=
  match b with
  | BItem i t p =>
      do _ <- touch h i;
      do _ <- touch h t;
      if ok then let (n, h) := new_block h in new_child h (BItem n t p)
      else Ok h
  | _ => Ok h
  end.

(** pyolecf_property_set_get_section_by_index, lines 459-525 of
    pyolecf_property_set.c, on the object [p]. *)
Definition section_of (h : heap) (p : nat) (b : body) (ok : bool) : res heap :=
  match b with
  | BSet s _ => do _ <- touch h s; if ok then new_child h (BSection s p) else Ok h
  | _ => Ok h
  end.

(** pyolecf_property_section_get_property_by_index, lines 459-525 of
    pyolecf_property_section.c, on the object [p]. *)
Definition value_of (h : heap) (p : nat) (b : body) (ok : bool) : res heap :=
  match b with
  | BSection s _ => do _ <- touch h s; if ok then new_child h (BValue s p) else Ok h
  | _ => Ok h
  end.

(** A method of the object [i].  A method that its type does not have raises
    AttributeError.  The blocks touched are those that the pointers of the
    structure lead to. *)
Definition method (h : heap) (i : nat) (w : wanted) (ok : bool) : res heap :=
  do o <- get_obj h i;
  match o_body o, w with
  | BFile f opened, WantItem =>                 (* 1424-1619 of pyolecf_file.c *)
      do _ <- touch h f;
      match opened with
      | Some (t, _) =>
          do _ <- touch h t;
          if ok then let (n, h) := new_block h in new_child h (BItem n t i) else Ok h
      | None => Ok h
      end
  | BFile f opened, _ =>
      do _ <- touch h f;
      match opened with Some (t, _) => do _ <- touch h t; Ok h | None => Ok h end
  | BItem _ _ _, WantItem => sub_item h (o_body o) ok
  | BItem n t _, WantItems =>                   (* 1119-1178 of pyolecf_item.c *)
      do _ <- touch h n;
      do _ <- touch h t;
      if ok then new_child h (BItems i) else Ok h
  | BItem n t _, WantSet =>                     (* 163-229 of pyolecf_property_set_stream.c *)
      do _ <- touch h n;
      do _ <- touch h t;
      if ok then let (s, h) := new_block h in new_child h (BSet s i) else Ok h
  | BItem n t _, _ => do _ <- touch h n; do _ <- touch h t; Ok h
  | BItems p, WantItem =>                       (* 318-367 and 393-451 of pyolecf_items.c *)
      do q <- get_obj h p;
      sub_item h (o_body q) ok
  | BSet _ _, WantSection => section_of h i (o_body o) ok
  | BSet s _, WantSections =>                   (* 558-617 of pyolecf_property_set.c *)
      do _ <- touch h s;
      if ok then new_child h (BSections i) else Ok h
  | BSet s _, _ => do _ <- touch h s; Ok h
  | BSections p, WantSection =>                 (* 318-367 and 393-451 of pyolecf_property_sections.c *)
      do q <- get_obj h p;
      section_of h p (o_body q) ok
  | BSection _ _, WantValue => value_of h i (o_body o) ok
  | BSection s _, WantValues =>                 (* 558-617 of pyolecf_property_section.c *)
      do _ <- touch h s;
      if ok then new_child h (BValues i) else Ok h
  | BSection s _, _ => do _ <- touch h s; Ok h
  | BValues p, WantValue =>                     (* 318-367 and 393-451 of pyolecf_property_values.c *)
      do q <- get_obj h p;
      value_of h p (o_body q) ok
  | BValue s _, _ => do _ <- touch h s; Ok h
  | _, _ => Ok h
  end.

(** pyolecf_file_open lines 437-649, and pyolecf_file_open_file_object lines
    654-788 with a file-like object.  A handle is made for the object, which
    takes a reference (pyolecf_file_object_io_handle_initialize lines 37-121),
    and released again if the file is open or can not be opened. *)
Definition open_object (h : heap) (i : nat) (source : option nat) (ok : bool) : res heap :=
  do o <- get_obj h i;
  match o_body o with
  | BFile f opened =>
      do _ <- touch h f;
      match opened, source with
      | Some (_, Some _), Some _ => Ok h        (* 723-731: file IO handle already set *)
      | _, _ =>
          do h <- match source with Some j => incref h j | None => Ok h end;
          match opened, ok with
          | None, true =>
              let (t, h) := new_block h in
              do o <- get_obj h i;
              Ok (set_obj h i (Some {| o_refs := o_refs o; o_body := BFile f (Some (t, source)) |}))
          | _, _ => match source with Some j => decref CHAIN h j | None => Ok h end
          end
      end
  | _ => Ok h
  end.

(** pyolecf_file_close, lines 793-861. *)
Definition close_object (h : heap) (i : nat) : res heap :=
  do o <- get_obj h i;
  match o_body o with
  | BFile f (Some (t, source)) =>
      do _ <- touch h f;
      do h <- release h t;
      let h := set_obj h i (Some {| o_refs := o_refs o; o_body := BFile f None |}) in
      match source with Some j => decref CHAIN h j | None => Ok h end
  | BFile f None => do _ <- touch h f; Ok h     (* IOError *)
  | _ => Ok h
  end.

(** Steps of a program.  It can name an object only if it has a reference. *)
Inductive rstep :=
| NewSource
| NewFile                                       (* pyolecf_file_init, 272-308 *)
| Open (i : nat) (source : option nat) (ok : bool)
| Close (i : nat)
| Method (i : nat) (w : wanted) (ok : bool)
| Copy (i : nat)                                (* another reference, also iter() of a sequence *)
| Forget (i : nat).                             (* del, the end of a function, ... *)

Fixpoint without (l : list nat) (i : nat) : list nat :=
  match l with
  | [] => []
  | j :: l' => if Nat.eqb j i then l' else j :: without l' i
  end.

Definition has (h : heap) (i : nat) : bool := existsb (Nat.eqb i) (held h).

Definition is_source (h : heap) (i : nat) : bool :=
  match get_obj h i with
  | Ok o => match o_body o with BSource => true | _ => false end
  | _ => false
  end.

Definition heap_step (h : heap) (s : rstep) : res heap :=
  match s with
  | NewSource => Ok (new_object h BSource)
  | NewFile => let (f, h) := new_block h in Ok (new_object h (BFile f None))
  | Open i source ok =>
      if has h i && match source with Some j => has h j && is_source h j | None => true end
      then open_object h i source ok
      else Ok h
  | Close i => if has h i then close_object h i else Ok h
  | Method i w ok => if has h i then method h i w ok else Ok h
  | Copy i => if has h i then do h <- incref h i; Ok (set_held h (i :: held h)) else Ok h
  | Forget i => if has h i then decref CHAIN (set_held h (without (held h) i)) i else Ok h
  end.

Fixpoint heap_run (h : heap) (l : list rstep) : res heap :=
  match l with
  | [] => Ok h
  | s :: l' => do h <- heap_step h s; heap_run h l'
  end.
