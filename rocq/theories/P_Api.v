(** Properties of C programs that use the public functions: C91, C92. *)
From Coq Require Import ZArith List Bool Lia.
From Verif Require Import Base Spec_IO M_Header M_Table M_Load M_Stream M_Tree M_Open M_Item M_File M_Prop
  Spec_Stream Spec_Tree Spec_Item Spec_File L_Base X_File X_Prop P_File
  M_Api Spec_Api L_Api L_Api2 L_Api3 L_Api4.
Import ListNotations.
Open Scope Z_scope.

(** ** Concrete cases
    The file of X_File.v with a property set as the contents of "cd". *)
Definition xa_text (n : list Z) (e : endian) : list Z := xf_strip (xf_units e n).
Definition xa_lib : clib :=
  {| cl_una := xf_una; cl_values := xp_lib;
     cl_utf8_size := fun n e => Ok (zlen (xa_text n e) + 1);
     cl_utf8 := fun n e z => if z <? zlen (xa_text n e) + 1 then Err else Ok (xa_text n e ++ [0]);
     cl_utf16_size := fun n e => Ok (zlen (xa_text n e) + 1);
     cl_utf16 := fun n e z => if z <? zlen (xa_text n e) + 1 then Err else Ok (xa_text n e ++ [0]);
     cl_value_utf8_size := fun w => None; cl_value_utf16_size := fun w => None |}.
Lemma xa_char_ok : char_ok xf_char.
Proof.
  intros s i Hi. unfold xf_char. destruct (znth s i) as [c|]; [|left; reflexivity].
  destruct (c <? 128); [right|left; reflexivity]. exists c, (i + 1). split; [reflexivity|lia].
Qed.
Lemma xa_lib_ok : clib_ok xa_lib.
Proof.
  constructor; cbn; intros; try exact I; try (destruct (_ <? _); exact I).
  - exact xf_una_ok.
  - exact xa_char_ok.
  - exact xa_char_ok.
Qed.

Definition xa_file : list Z :=
  slice (xf_file Little) 0 (512 + 2048) ++ xp_set Little 2 ++ zeros (1024 - zlen (xp_set Little 2)) ++ slice (xf_file Little) (512 + 3072) 512.
Definition xa_env : cenv := {| ce_io := good_env xa_file; ce_memory := true; ce_position := 0 |}.
Definition xa_refused : cenv := {| ce_io := good_env xa_file; ce_memory := false; ce_position := 0 |}.
Lemma xa_env_bytes : env_bytes (ce_io xa_env).
Proof. apply file_reader_bytes, xf_bytes_ok. vm_compute. reflexivity. Qed.
Definition xa_on (l : list call) : list (cenv * call) := map (fun c => (xa_env, c)) l.
Lemma xa_fits l : Forall call_fits l -> program_fits (xa_on l).
Proof.
  intros H. unfold program_fits, xa_on. rewrite Forall_map. revert H. apply Forall_impl. intros c Hc. cbn [fst snd].
  split; [exact xa_env_bytes|]. split; [cbn; lia|exact Hc].
Qed.
Definition xa_answers (l : list call) : list answer := fst (c_run xa_lib (xa_on l) c_start).

(** ** C91 *)
Theorem C91_defined :
  forall lib h t ce c, clib_ok lib -> program_fits h -> nth_error h t = Some (ce, c) ->
    nth_error (fst (c_run lib h c_start)) t = Some CUndefined ->
    stale (view_at lib h t) c \/ too_far lib (firstn t h) c \/ too_short lib (firstn t h) (view_at lib h t) c.
Proof. intros lib h t ce c HL. exact (undefined_only lib HL h t ce c). Qed.
Print Assumptions C91_defined.

Theorem C91_stale :
  forall lib h t ce c, clib_ok lib -> program_fits h -> nth_error h t = Some (ce, c) ->
    stale (view_at lib h t) c -> arrives (view_at lib h t) ce c ->
    nth_error (fst (c_run lib h c_start)) t = Some CUndefined.
Proof. intros lib h t ce c HL. exact (stale_undefined lib HL h t ce c). Qed.
Print Assumptions C91_stale.

(** A property set outlives its item and its file; items do not outlive the
    file, sections and values do not outlive the set. *)
Definition xa_program : list call :=
  [FileInitialize 0; FileOpen 0 1; FileRootItem 0 0; ItemCall 0 QSubItems; ItemSub 0 (ByIndex 1) 1;
   ItemCall 1 (QUtf8Name 10); ItemCall 1 QSize; ItemStream 1 (OpRead 4); ItemSet 1 0; FileClose 0;
   SetNumber 0; SetSection 0 1 0; SectionNumber 0; SectionValue 0 1 0; ValueCall 0 Q64Bit; ItemCall 0 QType;
   SetFree 0; ValueCall 0 Q64Bit; SectionNumber 0; SectionFree 0; ValueFree 0; ItemFree 0; ItemFree 1; FileFree 0].
Example C91_case :
  program_fits (xa_on xa_program) /\
  xa_answers xa_program =
  [CDone; CDone; CDone; CNumber 3; CDone; CBytes [99; 100; 0]; CNumber 600; CBytes [254; 255; 0; 0]; CDone; CDone;
   CNumber 2; CDone; CNumber 3; CDone; CNumber 9; CUndefined; CDone; CUndefined; CUndefined; CDone; CDone; CDone; CDone; CDone] /\
  stale (view_at xa_lib (xa_on xa_program) 15) (ItemCall 0 QType) /\ arrives (view_at xa_lib (xa_on xa_program) 15) xa_env (ItemCall 0 QType) /\
  stale (view_at xa_lib (xa_on xa_program) 17) (ValueCall 0 Q64Bit) /\ stale (view_at xa_lib (xa_on xa_program) 18) (SectionNumber 0) /\
  ~ stale (view_at xa_lib (xa_on xa_program) 14) (ValueCall 0 Q64Bit).
Proof.
  split; [apply xa_fits; repeat constructor; discriminate|]. split; [vm_compute; reflexivity|].
  split; [vm_compute; reflexivity|]. split; [exact I|]. split; [vm_compute; reflexivity|]. split; [vm_compute; reflexivity|].
  vm_compute. discriminate.
Qed.

(** The tree is another after the file is opened again: items of before stay
    gone, and so do those got from them. *)
Example C91_reopened :
  xa_answers [FileInitialize 0; FileOpen 0 1; FileRootItem 0 0; FileClose 0; FileOpen 0 1; FileRootItem 0 1;
              ItemCall 0 QType; ItemCall 1 QType; ItemSub 0 (ByUtf8Path [92; 92]) 2; ItemSub 0 (ByUtf8Path [97; 98]) 2; FileFree 0; ItemFree 0;
              FileInitialize 0; FileInitialize 0; FileClose 0; ItemCall 0 QType] =
  [CDone; CDone; CDone; CDone; CDone; CDone; CUndefined; CNumber 5; CNothing; CUndefined; CDone; CDone; CDone; CError; CError; CError].
Proof. vm_compute. reflexivity. Qed.

(** A seek beyond 2^63 - 1. *)
Definition xa_far : list call :=
  [FileInitialize 0; FileOpen 0 1; FileItemByUtf8Path 0 [92; 97; 98] 0; ItemStream 0 (OpRead 4); ItemStream 0 (OpSeek (2 ^ 63 - 1) 1)].
Example C91_far :
  program_fits (xa_on xa_far) /\
  xa_answers xa_far = [CDone; CDone; CDone; CBytes [0; 1; 2; 3]; CUndefined] /\
  ~ stale (view_at xa_lib (xa_on xa_far) 4) (ItemStream 0 (OpSeek (2 ^ 63 - 1) 1)).
Proof.
  split; [apply xa_fits; repeat constructor; cbn; lia|]. split; [vm_compute; reflexivity|]. vm_compute. discriminate.
Qed.

(** No object is in two variables, none is in no variable, and none of the
    variables for files, items and sets dangles; a tree is of one file. *)
Theorem C91_owned :
  forall lib h, let s := snd (c_run lib h c_start) in let m := cs_memory s in
    (forall f g p, cs_files s f = Some p -> cs_files s g = Some p -> f = g) /\
    (forall i j p, cs_items s i = Some p -> cs_items s j = Some p -> i = j) /\
    (forall x y p, cs_sets s x = Some p -> cs_sets s y = Some p -> x = y) /\
    (forall f p, cs_files s f = Some p -> cell (m_files m) p <> None) /\
    (forall i p, cs_items s i = Some p -> cell (m_items m) p <> None) /\
    (forall x p, cs_sets s x = Some p -> cell (m_sets m) p <> None) /\
    (forall p o, cell (m_files m) p = Some o -> exists f, cs_files s f = Some p) /\
    (forall p o, cell (m_items m) p = Some o -> exists i, cs_items s i = Some p) /\
    (forall p o, cell (m_sets m) p = Some o -> exists x, cs_sets s x = Some p) /\
    (forall b t, cell (m_trees m) b = Some t -> exists f p x, cs_files s f = Some p /\ cell (m_files m) p = Some (x, Some b)) /\
    (forall f g p q x y b, cs_files s f = Some p -> cell (m_files m) p = Some (x, Some b) ->
       cs_files s g = Some q -> cell (m_files m) q = Some (y, Some b) -> f = g).
Proof. exact owned. Qed.
Print Assumptions C91_owned.

(** A program that ends with all its files, items and sets freed leaves no
    memory and no handle behind. *)
Theorem C91_no_leak :
  forall lib h, clib_ok lib -> program_fits h -> let s := snd (c_run lib h c_start) in
    (forall f, cs_files s f = None) -> (forall i, cs_items s i = None) -> (forall x, cs_sets s x = None) ->
    (forall p, cell (m_files (cs_memory s)) p = None) /\ (forall p, cell (m_trees (cs_memory s)) p = None) /\
    (forall p, cell (m_items (cs_memory s)) p = None) /\ (forall p, cell (m_sets (cs_memory s)) p = None) /\
    w_own (cs_world s) = 0.
Proof. exact no_leak. Qed.
Print Assumptions C91_no_leak.

(** Free makes a variable NULL, whatever it answers. *)
Theorem C91_freed :
  forall lib h ce,
    (forall f, cs_files (snd (c_run lib (h ++ [(ce, FileFree f)]) c_start)) f = None) /\
    (forall i, cs_items (snd (c_run lib (h ++ [(ce, ItemFree i)]) c_start)) i = None) /\
    (forall x, cs_sets (snd (c_run lib (h ++ [(ce, SetFree x)]) c_start)) x = None).
Proof. exact freed_null. Qed.
Print Assumptions C91_freed.

Example C91_leak_case :
  let h := xa_on xa_program in
  let s := snd (c_run xa_lib h c_start) in
  m_files (cs_memory s) = [None] /\ m_trees (cs_memory s) = [None] /\ m_items (cs_memory s) = [None; None] /\ m_sets (cs_memory s) = [None] /\
  cs_files s 0%nat = None /\ cs_items s 0%nat = None /\ cs_items s 1%nat = None /\ cs_sets s 0%nat = None /\ w_own (cs_world s) = 0 /\
  let s1 := snd (c_run xa_lib (firstn 5 h) c_start) in
  length (m_files (cs_memory s1)) = 1%nat /\ cell (m_files (cs_memory s1)) 0 <> None /\ cell (m_trees (cs_memory s1)) 0 <> None /\
  cell (m_items (cs_memory s1)) 1 <> None /\ w_own (cs_world s1) = 1.
Proof. vm_compute. intuition congruence. Qed.

(** ** C92 *)
Theorem C92_apart :
  forall lib H f h, Forall (fun x => at_home H (snd x)) h ->
    answers_for H f h (fst (c_run lib h c_start)) = fst (c_run lib (only H f h) c_start).
Proof. exact apart. Qed.
Print Assumptions C92_apart.

(** Variables and handles with even numbers for file 0, the others for file 1. *)
Definition xa_home : home :=
  let odd n := if Nat.even n then 0%nat else 1%nat in
  {| hm_item := odd; hm_set := odd; hm_section := odd; hm_value := odd; hm_handle := odd |}.
Definition xa_cut : cenv := {| ce_io := good_env (slice xa_file 0 700); ce_memory := true; ce_position := 0 |}.
Definition xa_two : list (cenv * call) :=
  [(xa_env, FileInitialize 0); (xa_env, FileInitialize 1); (xa_env, FileOpen 0 1); (xa_cut, FileOpenHandle 1 3 1);
   (xa_env, FileItemByUtf8Path 0 [92; 99; 100] 0); (xa_env, FileOpenHandle 1 3 1); (xa_env, ItemSet 0 0); (xa_env, FileRootItem 1 1);
   (xa_env, FileFree 0); (xa_env, ItemSub 1 (ByUtf8Name [97; 98]) 3); (xa_env, ItemStream 3 (OpRead 3)); (xa_env, SetNumber 0);
   (xa_env, FileClose 1)].
Example C92_case :
  Forall (fun x => at_home xa_home (snd x)) xa_two /\
  fst (c_run xa_lib xa_two c_start) =
    [CDone; CDone; CDone; CError; CDone; CDone; CDone; CDone; CDone; CDone; CBytes [0; 1; 2]; CNumber 2; CDone] /\
  fst (c_run xa_lib (only xa_home 1 xa_two) c_start) = [CDone; CError; CDone; CDone; CDone; CBytes [0; 1; 2]; CDone].
Proof. split; [repeat constructor|]. split; vm_compute; reflexivity. Qed.

(** It does not hold for two files with the same handle: the first to be opened
    opens the handle, and closes it when it is closed. *)
Definition xa_closed_env (b : bool) : cenv :=
  {| ce_io := {| ev_reader := file_reader xa_file; ev_is_open := true; ev_open := b; ev_close := true |};
     ce_memory := true; ce_position := 0 |}.
Theorem C92_shared_refuted :
  exists lib H h, clib_ok lib /\ program_fits h /\
    Forall (fun x => match snd x with FileOpenHandle _ n _ => n = 0%nat | c => at_home H c end) h /\
    answers_for H 1 h (fst (c_run lib h c_start)) <> fst (c_run lib (only H 1 h) c_start) /\
    let s := snd (c_run lib h c_start) in
    exists p x t, cs_files s 1 = Some p /\ cell (m_files (cs_memory s)) p = Some (x, t) /\ fs_handle x = Some (User 0) /\
      w_open (cs_world s) 0 = false.
Proof.
  exists xa_lib, xa_home,
    [(xa_env, FileInitialize 0); (xa_env, FileInitialize 1); (xa_env, FileOpenHandle 0 0 1); (xa_closed_env false, FileOpenHandle 1 0 1);
     (xa_env, FileClose 0)].
  split; [exact xa_lib_ok|]. split.
  { repeat constructor; try exact xa_env_bytes; cbn; lia. }
  split; [repeat constructor|]. split; [vm_compute; discriminate|].
  exists 1%nat. do 2 eexists. split; [vm_compute; reflexivity|]. split; [vm_compute; reflexivity|]. split; vm_compute; reflexivity.
Qed.
Print Assumptions C92_shared_refuted.
