(** Command lines: what the options and operands are, after POSIX (XBD 12.2),
    and what the tools should do. *)
From Coq Require Import ZArith List Bool.
From Verif Require Import Base M_Getopt.
Import ListNotations.
Open Scope Z_scope.

(** Whether an option is known, and takes an argument.  In the string of
    options a colon (58) follows those that take one. *)
Fixpoint takes (options : list Z) (c : Z) : option bool :=
  match options with
  | [] => None
  | x :: r => if (x =? c) && negb (c =? 58)
              then Some (match r with 58 :: _ => true | _ => false end)
              else takes r c
  end.

Inductive event :=
| Flag (c : Z)
| WithArgument (c : Z) (arg : list Z)
| Unknown (c : Z)
| Missing (c : Z).

(** How the options end: with the operands, with an error, or with the single
    character - (45) where an option could be.  POSIX has the latter as an
    operand. *)
Inductive ending :=
| Operands (l : list (list Z))
| Failed
| Dash.

(** The letters of a word after its -. *)
Inductive rest_of_word := Done | Wants (c : Z) | Bad (c : Z).
Fixpoint letters (options w : list Z) : list event * rest_of_word :=
  match w with
  | [] => ([], Done)
  | c :: w' =>
      match takes options c with
      | None => ([], Bad c)
      | Some false => let (ev, t) := letters options w' in (Flag c :: ev, t)
      | Some true => match w' with [] => ([], Wants c) | _ => ([WithArgument c w'], Done) end
      end
  end.

(** The words after the name of the program.  POSIX has -- as the end of the
    options; the tools also take words that begin with it as such. *)
Fixpoint command_line (options : list Z) (words : list (list Z)) : list event * ending :=
  match words with
  | (45 :: w) :: rest =>
      match w with
      | [] => ([], Dash)
      | 45 :: _ => ([], Operands rest)
      | _ =>
          let (ev, t) := letters options w in
          match t with
          | Done => let (ev', e) := command_line options rest in (ev ++ ev', e)
          | Bad c => (ev ++ [Unknown c], Failed)
          | Wants c =>
              match rest with
              | [] => (ev ++ [Missing c], Failed)
              | arg :: rest => let (ev', e) := command_line options rest in (ev ++ WithArgument c arg :: ev', e)
              end
          end
      end
  | _ => ([], Operands words)
  end.

(** A string of C. *)
Definition c_word (l : list Z) : Prop := Forall (fun c => 0 < c < 256) l.

(** What getopt tells of each option, and a tool that collects it: ? (63) and :
    (58) are errors. *)
Definition tells (e : event) : Z * option (list Z) :=
  match e with
  | Flag c => (c, None)
  | WithArgument c arg => (c, Some arg)
  | Unknown _ => (63, None)
  | Missing _ => (58, None)
  end.
Definition is_error (e : event) : bool := match e with Unknown _ | Missing _ => true | _ => false end.
Definition collect (c : Z) (arg : option (list Z)) (a : list (Z * option (list Z)) * list (list Z)) :
  reaction (list (Z * option (list Z)) * list (list Z)) :=
  if (c =? 63) || (c =? 58) then Invalid else GoOn (fst a ++ [(c, arg)], []).

(** The argument of the last option [c], if any. *)
Definition last_argument (c : Z) (l : list event) : option (list Z) :=
  fold_left (fun a e => match e with
                        | WithArgument x arg => if x =? c then Some arg else a
                        | _ => a
                        end) l None.
Definition has_flag (c : Z) (l : list event) : bool :=
  existsb (fun e => match e with Flag x => x =? c | _ => false end) l.

(** Options that end the tools: h (104), V (86) and errors. *)
Definition ends_tool (e : event) : bool :=
  match e with
  | Flag c => (c =? 104) || (c =? 86)
  | WithArgument _ _ => false
  | Unknown _ | Missing _ => true
  end.

(** What a tool should do: [start] makes the settings of the operands.  The
    word that is called invalid is left out. *)
Definition tool (options : list Z) (start : list event -> list (list Z) -> option settings)
           (words : list (list Z)) : res (request settings) :=
  let (l, e) := command_line options words in
  match find ends_tool l with
  | Some (Flag c) => Ok (if c =? 104 then Usage true None else Copyright)
  | Some _ => Ok (Usage false None)
  | None =>
      match e with
      | Operands ops => Ok (match start l ops with Some s => Start s | None => Usage false None end)
      | Failed => Err
      | Dash => Undef
      end
  end.

(** The name of a file without the path, if [sep] separates names. *)
Definition base_name (sep : Z) (l name : list Z) : Prop :=
  ~ In sep name /\ (name = l \/ exists path, l = path ++ sep :: name).

Definition info_start (l : list event) (ops : list (list Z)) : option settings :=
  match ops with
  | [] => None
  | source :: _ =>
      Some {| st_allocation := has_flag 97 l; st_codepage := last_argument 99 l; st_log := None;
              st_target := None; st_extended := None; st_verbose := has_flag 118 l;
              st_source := source; st_mount_point := [] |}
  end.

Definition export_start (name : list Z -> list Z) (l : list event) (ops : list (list Z)) : option settings :=
  match ops with
  | [] => None
  | source :: _ =>
      Some {| st_allocation := false; st_codepage := last_argument 99 l; st_log := last_argument 108 l;
              st_target := Some (match last_argument 116 l with Some t => t | None => name source end);
              st_extended := None; st_verbose := has_flag 118 l;
              st_source := source; st_mount_point := [] |}
  end.

Definition mount_start (l : list event) (ops : list (list Z)) : option settings :=
  match ops with
  | source :: mount_point :: _ =>
      Some {| st_allocation := false; st_codepage := last_argument 99 l; st_log := None;
              st_target := None; st_extended := last_argument 88 l; st_verbose := has_flag 118 l;
              st_source := source; st_mount_point := mount_point |}
  | _ => None
  end.

(** Without the word that is called invalid. *)
Definition forget {A} (r : res (request A)) : res (request A) :=
  match r with Ok (Usage ok _) => Ok (Usage ok None) | _ => r end.
