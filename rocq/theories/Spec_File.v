(** Specification of histories of calls on a file object, in terms of the calls
    and their results only. *)
From Coq Require Import ZArith List Bool.
From Verif Require Import Base M_Header M_Tree M_Stream M_Open M_Item M_File Spec_IO.
Import ListNotations.
Open Scope Z_scope.

(** A call with its result. *)
Definition event := (file_op * file_result)%type.

(** Whether the file is open after the events, and the codepage: a successful
    open opens it, a close of an open file closes it and sets the codepage to
    1252. *)
Definition track (st : bool * Z) (x : event) : bool * Z :=
  match x with
  | (FOpen _, FDone) => (true, snd st)
  | (FOpenHandle _ _, FDone) => (true, snd st)
  | (FClose, _) => if fst st then (false, 1252) else st
  | (FSetCodepage c, FDone) => (fst st, c)
  | _ => st
  end.
Definition tracked (l : list event) : bool * Z := fold_left track l (false, 1252).

(** The handle of the caller that the file uses after the events. *)
Definition use (cur : option nat) (x : event) : option nat :=
  match x with
  | (FOpenHandle n _, FDone) => Some n
  | (FOpen _, FDone) => None
  | (FClose, _) => None
  | _ => cur
  end.

(** The caller neither opens nor closes the handle in use. *)
Fixpoint polite (cur : option nat) (l : list event) : Prop :=
  match l with
  | [] => True
  | x :: l' =>
      match fst x with
      | UserOpen n | UserClose n => cur <> Some n
      | _ => True
      end /\ polite (use cur x) l'
  end.

(** The state of the handle [n] if only the caller acts on it. *)
Definition user_view (n : nat) (b : bool) (x : event) : bool :=
  match fst x with
  | UserOpen m => if Nat.eqb n m then true else b
  | UserClose m => if Nat.eqb n m then false else b
  | _ => b
  end.

(** Whether the file was opened by name and not closed since. *)
Definition use_own (b : bool) (x : event) : bool :=
  match x with
  | (FOpenHandle _ _, FDone) => false
  | (FOpen _, FDone) => true
  | (FClose, _) => false
  | _ => b
  end.

(** The calls of a history with their results. *)
Definition events (h : list (env * file_op)) (rs : list file_result) : list event :=
  combine (map snd h) rs.

(** What the I/O layer delivers are bytes. *)
Definition env_bytes (ev : env) : Prop := io_bytes (ev_reader ev).

(** The 15 codepages of the documentation of the function. *)
Definition supported_codepage (c : Z) : Prop :=
  c = 20127 \/ c = 874 \/ c = 932 \/ c = 936 \/ c = 949 \/ c = 950 \/ 1250 <= c <= 1258.

(** A call that opens. *)
Definition is_open_call (op : file_op) : Prop :=
  match op with FOpen _ | FOpenHandle _ _ => True | _ => False end.
Definition open_flags (op : file_op) : Z :=
  match op with FOpen f | FOpenHandle _ f => f | _ => 0 end.

(** The access is for reading and libbfio can open the handle. *)
Definition can_open (ev : env) (op : file_op) (w : world) : Prop :=
  Z.odd (open_flags op) = true /\ Z.odd (open_flags op / 2) = false /\ ev_is_open ev = true /\
  (ev_open ev = true \/ match op with FOpenHandle n _ => w_open w n = true | _ => False end).

(** The answer of a query on a file that was opened with the outcome [o].
    [None] for calls that are no queries, and for items that are not in the
    tree. *)
Definition answer (u : una) (o : opened) (ev : env) (q : file_op) : option file_result :=
  let e := fh_byte_order (o_header o) in
  match q with
  | FSectorSize => Some (FValue (fh_sector_size (o_header o)))
  | FShortSectorSize => Some (FValue (fh_short_sector_size (o_header o)))
  | FFormatVersion => Some (FVersion (fh_major_format_version (o_header o))
                                     (fh_minor_format_version (o_header o)))
  | FUnallocatedBlocks => Some (FValue 0)
  | FRootItem => Some (item_of (get_root_item (o_tree o)))
  | FItemByUtf8Path path => Some (item_of (item_by_utf8_path u e (o_tree o) path))
  | FItemByUtf16Path path => Some (item_of (item_by_utf16_path u e (o_tree o) path))
  | FSubItems k =>
      match o_tree o with
      | Some t => Some (value_of (get_number_of_sub_items t k))
      | None => None
      end
  | FSubItem k index =>
      match o_tree o with
      | Some t => Some (item_of (rbind (get_sub_item t k index) (fun j => Ok (Some j))))
      | None => None
      end
  | FStream k cursor op =>
      match o_tree o with
      | Some t =>
          match node_value t k with
          | Ok d => let (r, c) := item_step (ev_reader ev) (opened_volume o) d op cursor in
                    Some (FStreamResult r c)
          | _ => None
          end
      | None => None
      end
  | _ => None
  end.
