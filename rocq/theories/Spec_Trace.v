(** Calls that leave no trace: what is asked of an object, and lookups and
    changes that fail. *)
From Coq Require Import ZArith List Bool.
From Verif Require Import Base M_Stream M_File M_Python M_Items.
From Verif Require Import M_Api.
Import ListNotations.
Open Scope Z_scope.

(** ** C programs *)

(** Calls that only ask; signalling an abort is one of them. *)
Definition c_asks (c : call) : bool :=
  match c with
  | FileCall _ (QSetCodepage _) => false
  | FileCall _ _ | ItemCall _ _ | ItemStream _ OpTell | SetClass _ _ | SetNumber _ | SectionClass _ _ | SectionNumber _
  | ValueCall _ _ => true
  | _ => false
  end.

(** Calls that change something only if they succeed. *)
Definition c_all_or_nothing (c : call) : bool :=
  match c with
  | FileInitialize _ | FileCall _ (QSetCodepage _) | FileRootItem _ _ | FileItemByUtf8Path _ _ _ | FileItemByUtf16Path _ _ _
  | ItemSub _ _ _ | ItemStream _ (OpRead _) | ItemStream _ (OpSeek _ _) | SetSection _ _ _ | SectionValue _ _ _ => true
  | _ => false
  end.

Definition c_traceless (c : call) (a : answer) : bool :=
  c_asks c || (c_all_or_nothing c && match a with CError | CNothing => true | _ => false end).

(** The program without them. *)
Fixpoint c_kept (h : list (cenv * call)) (answers : list answer) : list (cenv * call) :=
  match h, answers with
  | x :: h', a :: answers' => if c_traceless (snd x) a then c_kept h' answers' else x :: c_kept h' answers'
  | _, _ => []
  end.

(** ** Python programs *)
Definition py_asks (c : pycall) : bool :=
  match c with
  | CallSectorSize | CallShortSectorSize | CallGetCodepage | CallFormatVersion | CallSignalAbort => true
  | OnItem _ (CallName | CallSize | CallCreationTime | CallCreationInteger | CallModificationTime | CallModificationInteger
      | CallNumberOfSubItems | CallType | CallStream PyTell) => true
  | OnSequence _ (CallLength | CallIter) => true
  | _ => false
  end.

Definition py_all_or_nothing (c : pycall) : bool :=
  match c with
  | CallSetCodepage _ | CallRootItem | CallItemByPath _ => true
  | OnItem _ (CallSubItem _ | CallSubItems | CallByName _ | CallByPath _ | CallStream (PySeek _ _)) => true
  | OnSequence _ (CallIndex _ | CallNext) => true
  | _ => false
  end.

(** A lookup gives None if nothing is found; to set the codepage and to seek
    give None too, and are done then. *)
Definition py_traceless (c : pycall) (a : reply) : bool :=
  py_asks c ||
  (py_all_or_nothing c &&
   match a with
   | ARaise _ => true
   | ANone => match c with CallSetCodepage _ | OnItem _ (CallStream _) => false | _ => true end
   | _ => false
   end).

Fixpoint py_kept (h : list (env * pycall)) (answers : list reply) : list (env * pycall) :=
  match h, answers with
  | x :: h', a :: answers' => if py_traceless (snd x) a then py_kept h' answers' else x :: py_kept h' answers'
  | _, _ => []
  end.
