(** What C programs can rely on, in terms of their calls and the answers. *)
From Coq Require Import ZArith List Bool.
From Verif Require Import Base Spec_IO M_Header M_Table M_Load M_Stream M_Tree M_Open M_Item M_File M_Prop
  Spec_Stream Spec_Tree Spec_Item Spec_File M_Api.
Import ListNotations.
Open Scope Z_scope.

(** The libraries outside return. *)
Record clib_ok (lib : clib) : Prop := {
  co_una : una_ok (cl_una lib);
  co_char8 : char_ok (una_utf8_char (cl_una lib));
  co_char16 : char_ok (una_utf16_char (cl_una lib));
  co_utf8_size : forall n e, defined (cl_utf8_size lib n e);
  co_utf8 : forall n e z, defined (cl_utf8 lib n e z);
  co_utf16_size : forall n e, defined (cl_utf16_size lib n e);
  co_utf16 : forall n e z, defined (cl_utf16 lib n e z)
}.

(** Sizes are of type size_t, offsets of type off64_t; reads give bytes, and a
    stream is never at a negative position. *)
Definition call_fits (c : call) : Prop :=
  match c with
  | ItemStream _ (OpRead n) => 0 <= n
  | ItemStream _ (OpReadAt o n) => 0 <= n
  | ItemStream _ (OpSeek o _) => - 2 ^ 63 <= o < 2 ^ 63
  | _ => True
  end.
Definition program_fits (h : list (cenv * call)) : Prop :=
  Forall (fun x => env_bytes (ce_io (fst x)) /\ 0 <= ce_position (fst x) /\ call_fits (snd x)) h.

(** ** What the variables refer to
    An item is of the file variable it was got from, sections and values are of
    a set variable; [Gone] if that was closed or freed since. *)
Inductive owner := Of (x : nat) | Gone.

Record view := {
  vw_items : nat -> option owner;
  vw_sets : nat -> bool;
  vw_sections : nat -> option owner;
  vw_values : nat -> option owner
}.

Definition nothing : view :=
  {| vw_items := fun _ => None; vw_sets := fun _ => false; vw_sections := fun _ => None; vw_values := fun _ => None |}.

Definition now {A} (m : nat -> A) (i : nat) (x : A) : nat -> A := fun j => if Nat.eqb j i then x else m j.
Definition lost (m : nat -> option owner) (x : nat) : nat -> option owner :=
  fun j => match m j with Some (Of y) => if Nat.eqb y x then Some Gone else Some (Of y) | o => o end.

Definition see_items (w : view) (m : nat -> option owner) : view :=
  {| vw_items := m; vw_sets := vw_sets w; vw_sections := vw_sections w; vw_values := vw_values w |}.
Definition see_sets (w : view) (m : nat -> bool) : view :=
  {| vw_items := vw_items w; vw_sets := m; vw_sections := vw_sections w; vw_values := vw_values w |}.
Definition see_sections (w : view) (m : nat -> option owner) : view :=
  {| vw_items := vw_items w; vw_sets := vw_sets w; vw_sections := m; vw_values := vw_values w |}.
Definition see_values (w : view) (m : nat -> option owner) : view :=
  {| vw_items := vw_items w; vw_sets := vw_sets w; vw_sections := vw_sections w; vw_values := m |}.

(** What a call with its answer changes. *)
Definition after (w : view) (x : call * answer) : view :=
  match x with
  | (FileRootItem f i, CDone) | (FileItemByUtf8Path f _ i, CDone) | (FileItemByUtf16Path f _ i, CDone) =>
      see_items w (now (vw_items w) i (Some (Of f)))
  | (FileClose f, _) | (FileFree f, _) => see_items w (lost (vw_items w) f)
  | (ItemSub i _ j, CDone) => see_items w (now (vw_items w) j (vw_items w i))
  | (ItemFree i, _) => see_items w (now (vw_items w) i None)
  | (ItemSet _ x, CDone) => see_sets w (now (vw_sets w) x true)
  | (SetFree x, _) =>
      see_values (see_sections (see_sets w (now (vw_sets w) x false)) (lost (vw_sections w) x)) (lost (vw_values w) x)
  | (SetSection x _ c, CDone) => see_sections w (now (vw_sections w) c (Some (Of x)))
  | (SectionFree c, _) => see_sections w (now (vw_sections w) c None)
  | (SectionValue c _ v, CDone) => see_values w (now (vw_values w) v (vw_sections w c))
  | (ValueFree v, _) => see_values w (now (vw_values w) v None)
  | _ => w
  end.

Definition seen (l : list (call * answer)) : view := fold_left after l nothing.
(** Before the call number [t] of a program. *)
Definition view_at (lib : clib) (h : list (cenv * call)) (t : nat) : view :=
  seen (firstn t (combine (map snd h) (fst (c_run lib h c_start)))).

(** A call through something that is gone. *)
Definition stale (w : view) (c : call) : Prop :=
  match c with
  | ItemCall i _ | ItemSub i _ _ | ItemStream i _ | ItemSet i _ => vw_items w i = Some Gone
  | SectionClass c _ | SectionNumber c | SectionValue c _ _ => vw_sections w c = Some Gone
  | ValueCall v _ => vw_values w v = Some Gone
  | _ => False
  end.

(** The call gets to what its first argument refers to: the other arguments are
    accepted, and there is memory for a set.  Lookups by path are left out:
    they may end before the first name. *)
Definition arrives (w : view) (ce : cenv) (c : call) : Prop :=
  match c with
  | ItemCall _ (QUtf8Name n) => n < 2 ^ 63
  | ItemCall _ _ | ItemStream _ _ => True
  | ItemSub _ (ByIndex _) j | ItemSub _ (ByUtf8Name _) j | ItemSub _ (ByUtf16Name _) j => vw_items w j = None
  | ItemSet _ x => vw_sets w x = false /\ ce_memory ce = true
  | SectionClass _ n => 16 <= n
  | SectionNumber _ => True
  | SectionValue _ _ v => vw_values w v = None
  | ValueCall _ _ => True
  | _ => False
  end.

(** The call after the program [h] gives the answer [a], whatever it meets. *)
Definition gives (lib : clib) (h : list (cenv * call)) (c : call) (a : answer) : Prop :=
  forall ce, fst (c_run lib (h ++ [(ce, c)]) c_start) = fst (c_run lib h c_start) ++ [a].

(** What is undefined on items in good order, after the program [h]: a seek to
    a position that does not fit, a read of more than 2^30 bytes with short
    sectors of less than 4 bytes. *)
Definition too_far (lib : clib) (h : list (cenv * call)) (c : call) : Prop :=
  exists i o, (c = ItemStream i (OpSeek o 1) /\
                 exists z, gives lib h (ItemStream i OpTell) (CNumber z) /\ 2 ^ 63 <= z + o) \/
              (c = ItemStream i (OpSeek o 2) /\
                 exists z, gives lib h (ItemCall i QSize) (CNumber z) /\ 2 ^ 63 <= z + o).
Definition too_short (lib : clib) (h : list (cenv * call)) (w : view) (c : call) : Prop :=
  exists i n f z, (c = ItemStream i (OpRead n) \/ exists o, c = ItemStream i (OpReadAt o n)) /\ 2 ^ 30 < n /\
    vw_items w i = Some (Of f) /\ gives lib h (FileCall f QShortSectorSize) (CNumber z) /\ z < 4.

(** ** Programs whose parts have to do with one file each
    The file variable that a variable or a handle is for. *)
Record home := {
  hm_item : nat -> nat;
  hm_set : nat -> nat;
  hm_section : nat -> nat;
  hm_value : nat -> nat;
  hm_handle : nat -> nat
}.

Definition home_of (H : home) (c : call) : nat :=
  match c with
  | FileInitialize f | FileFree f | FileOpen f _ | FileOpenHandle f _ _ | FileClose f | FileCall f _ => f
  | FileRootItem f _ | FileItemByUtf8Path f _ _ | FileItemByUtf16Path f _ _ => f
  | ItemFree i | ItemCall i _ | ItemSub i _ _ | ItemStream i _ | ItemSet i _ => hm_item H i
  | SetFree x | SetClass x _ | SetNumber x | SetSection x _ _ => hm_set H x
  | SectionFree c | SectionClass c _ | SectionNumber c | SectionValue c _ _ => hm_section H c
  | ValueFree v | ValueCall v _ => hm_value H v
  | HandleOpen n | HandleClose n => hm_handle H n
  end.

(** What else a call names is for the same file. *)
Definition at_home (H : home) (c : call) : Prop :=
  match c with
  | FileOpenHandle f n _ => hm_handle H n = f
  | FileRootItem f i | FileItemByUtf8Path f _ i | FileItemByUtf16Path f _ i => hm_item H i = f
  | ItemSub i _ j => hm_item H j = hm_item H i
  | ItemSet i x => hm_set H x = hm_item H i
  | SetSection x _ c => hm_section H c = hm_set H x
  | SectionValue c _ v => hm_value H v = hm_section H c
  | _ => True
  end.

Definition only (H : home) (f : nat) (h : list (cenv * call)) : list (cenv * call) :=
  filter (fun x => Nat.eqb (home_of H (snd x)) f) h.
(** The answers to the calls for [f]. *)
Definition answers_for (H : home) (f : nat) (h : list (cenv * call)) (r : list answer) : list answer :=
  map snd (filter (fun x => Nat.eqb (home_of H (snd (fst x))) f) (combine h r)).
