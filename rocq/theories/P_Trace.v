(** C99: calls that leave no trace. *)
From Coq Require Import ZArith List Bool Lia.
From Verif Require Import Base Spec_IO M_Header M_Table M_Load M_Stream M_Tree M_Open M_Item M_File M_Prop M_Python M_Items
  Spec_Stream Spec_Tree Spec_Item Spec_File L_Base X_File X_Prop P_File P_Items.
From Verif Require Import M_Api Spec_Api P_Api Spec_Trace L_Trace.
Import ListNotations.
Open Scope Z_scope.

(** The answer to a call of a C program is that of the program without the
    calls before it that ask, signal an abort, or are lookups, reads, seeks and
    settings that fail. *)
Theorem C99_c :
  forall lib h ce c h',
    let k := c_kept h (fst (c_run lib h c_start)) in
    nth_error (fst (c_run lib (h ++ (ce, c) :: h') c_start)) (length h) =
    nth_error (fst (c_run lib (k ++ [(ce, c)]) c_start)) (length k).
Proof. exact c_traceless_ok. Qed.
Print Assumptions C99_c.

(** The same for a Python program. *)
Theorem C99_python :
  forall en h ev c h',
    let k := py_kept h (fst (py_run en h py_start)) in
    nth_error (fst (py_run en (h ++ (ev, c) :: h') py_start)) (length h) =
    nth_error (fst (py_run en (k ++ [(ev, c)]) py_start)) (length k).
Proof. exact py_traceless_ok. Qed.
Print Assumptions C99_python.

(** Such calls can be put in anywhere: a program of calls that only ask keeps
    nothing, one without them keeps all. *)
Theorem C99_kept :
  forall lib h, (Forall (fun x => c_asks (snd x) = true) h -> c_kept h (fst (c_run lib h c_start)) = []) /\
    (Forall (fun x => c_asks (snd x) = false /\ c_all_or_nothing (snd x) = false) h -> c_kept h (fst (c_run lib h c_start)) = h).
Proof.
  intros lib h. generalize c_start. induction h as [|[ce c] h IH]; intros s; [split; reflexivity|]. cbn [c_run].
  destruct (c_step lib ce c s) as [a s1]. specialize (IH s1). destruct (c_run lib h s1) as [r s2]. cbn [fst snd c_kept] in *.
  split; intros H; inversion H as [|x l H1 H2]; subst; cbn [snd] in H1; unfold c_traceless.
  - rewrite H1. cbn [orb]. apply (proj1 IH). exact H2.
  - destruct H1 as (-> & ->). cbn [orb andb]. f_equal. apply (proj2 IH). exact H2.
Qed.
Print Assumptions C99_kept.

(** * Cases *)

(** A read of 3 bytes at 0 of "ab" after an abort was signalled, a path that is
    not there, a seek before the start, a codepage that does not exist. *)
Definition xc_program : list call :=
  [FileInitialize 0; FileOpen 0 1; FileCall 0 QSignalAbort; FileItemByUtf8Path 0 [92; 122] 3; FileItemByUtf8Path 0 [92; 97; 98] 0;
   FileCall 0 (QSetCodepage 1); ItemStream 0 (OpRead 3); ItemCall 0 QSize; ItemStream 0 (OpSeek (-4) 1); ItemStream 0 OpTell].
Example C99_case :
  let h := xa_on xc_program in
  fst (c_run xa_lib (h ++ [(xa_env, ItemStream 0 (OpRead 3))]) c_start) =
    [CDone; CDone; CDone; CNothing; CDone; CError; CBytes [0; 1; 2]; CNumber 70; CError; CNumber 3; CBytes [3; 4; 5]] /\
  c_kept h (fst (c_run xa_lib h c_start)) =
    xa_on [FileInitialize 0; FileOpen 0 1; FileItemByUtf8Path 0 [92; 97; 98] 0; ItemStream 0 (OpRead 3)].
Proof. split; vm_compute; reflexivity. Qed.

Example C99_python_case :
  let h := [CallOpen None; CallSignalAbort; CallItemByPath [92; 122]; CallItemByPath [92; 97; 98];
            OnItem 0 (CallStream (PyRead (Some (PInt 5)))); OnItem 0 CallSize; OnItem 0 (CallStream (PySeek (PInt (-9)) None))] in
  answers (h ++ [OnItem 0 (CallStream PyTell)]) =
    [ANone; ANone; ANone; AObject 0; ABytes [0; 1; 2; 3; 4]; ANumber 70; ARaise IOError; ANumber 5] /\
  py_kept (on xf_env h) (answers h) = on xf_env [CallOpen None; CallItemByPath [92; 97; 98]; OnItem 0 (CallStream (PyRead (Some (PInt 5))))].
Proof. split; vm_compute; reflexivity. Qed.

(** Finding: reading at an offset is not such a call; it moves the stream also
    when it fails. *)
Theorem C99_read_at_refuted :
  exists h ce c i o n, clib_ok xa_lib /\
    nth_error (fst (c_run xa_lib (h ++ [(ce, ItemStream i (OpReadAt o n)); (ce, c)]) c_start)) (length h) = Some CError /\
    nth_error (fst (c_run xa_lib (h ++ [(ce, ItemStream i (OpReadAt o n)); (ce, c)]) c_start)) (S (length h)) <>
    nth_error (fst (c_run xa_lib (h ++ [(ce, c)]) c_start)) (length h).
Proof.
  exists (xa_on [FileInitialize 0; FileOpen 0 1; FileItemByUtf8Path 0 [92; 97; 98] 0]), xa_cut, (ItemStream 0 OpTell), 0%nat, 7, 3.
  split; [exact xa_lib_ok|]. split; vm_compute; [reflexivity|discriminate].
Qed.
Print Assumptions C99_read_at_refuted.
