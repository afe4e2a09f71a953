(** Model of olecftools/olecftools_getopt.c, for platforms without getopt, and
    of the options of the three tools. *)
From Coq Require Import String ZArith List Bool.
From Verif Require Import Base Spec_Tree.
Import ListNotations.
Open Scope Z_scope.

(** A pointer into a string: the characters before the end of string character
    and an offset.  The character after the last is 0; there is none after
    that. *)
Definition pointer := (list Z * Z)%type.
Definition char_at (p : pointer) : res Z :=
  if snd p =? zlen (fst p) then Ok 0 else arr_get (fst p) (snd p).
Definition next_char (p : pointer) : pointer := (fst p, snd p + 1).
(** The string that a pointer stands for. *)
Definition string_at (p : pointer) : list Z := skipn (Z.to_nat (snd p)) (fst p).

(** The global variables, lines 37-52. *)
Record gstate := {
  g_optind : Z;
  g_optarg : option pointer;
  g_optopt : Z;
  g_next : option pointer
}.
Definition first_state : gstate := {| g_optind := 1; g_optarg := None; g_optopt := 0; g_next := None |}.

(** system_string_search_character, lines 110-111 of common/narrow_string.h:
    memchr over the characters before the end.  (On platforms where it is
    strchr it also finds the end.) *)
Fixpoint search_character (l : list Z) (c : Z) : option Z :=
  match l with
  | [] => None
  | x :: l => if x =? c then Some 0 else option_map (fun k => k + 1) (search_character l c)
  end.

(** Lines 69-104: the option to look at, or the end. *)
Definition current_option (argv : list (list Z)) (g : gstate) : res (gstate * option pointer) :=
  match g_next g with
  | Some p => Ok ({| g_optind := g_optind g; g_optarg := g_optarg g; g_optopt := g_optopt g; g_next := None |}, Some p)
  | None =>
      if zlen argv <=? g_optind g then Ok (g, None)
      else
        do a <- arr_get argv (g_optind g);
        let p := (a, 0) in
        do c <- char_at p;
        if c =? 0 then Ok (g, None)
        else if negb (c =? 45) then Ok (g, None)
        else
          let p := next_char p in
          do c <- char_at p;
          if c =? 45 then
            Ok ({| g_optind := g_optind g + 1; g_optarg := g_optarg g; g_optopt := g_optopt g; g_next := None |}, None)
          else Ok (g, Some p)
  end.

(** olecftools_getopt, lines 59-187.  63 is the question mark, 58 the colon. *)
Definition getopt (options : list Z) (argv : list (list Z)) (g : gstate) : res (Z * gstate) :=
  do (g, start) <- current_option argv g;
  match start with
  | None => Ok (-1, g)
  | Some p =>
      do opt <- char_at p;
      let found := search_character options opt in
      let p := next_char p in
      let state n a q := {| g_optind := n; g_optarg := a; g_optopt := opt; g_next := q |} in
      do c <- char_at p;
      match found with
      | Some k =>
          if opt =? 58 then
            Ok (63, state (if c =? 0 then g_optind g + 1 else g_optind g) (g_optarg g) None)
          else
            do v <- char_at (options, k + 1);
            if negb (v =? 58) then
              if c =? 0 then Ok (opt, state (g_optind g + 1) None None)
              else Ok (opt, state (g_optind g) None (Some p))
            else if negb (c =? 0) then Ok (opt, state (g_optind g + 1) (Some p) None)
            else
              let n := g_optind g + 1 in
              if zlen argv <=? n then Ok (58, state n (g_optarg g) None)
              else
                do a <- arr_get argv n;
                Ok (opt, state (n + 1) (Some (a, 0)) None)
      | None => Ok (63, state (if c =? 0 then g_optind g + 1 else g_optind g) (g_optarg g) None)
      end
  end.

(** ** The tools *)

(** What the command line asks for. *)
Inductive request (A : Type) :=
| Usage (ok : bool) (invalid : option (list Z))   (* the status, and the argument that is called invalid *)
| Copyright
| Start (a : A).
Arguments Usage {A}. Arguments Copyright {A}. Arguments Start {A}.

(** What a tool does with an option: go on with new settings, end, or call the
    argument invalid (the default case). *)
Inductive reaction (A : Type) :=
| GoOn (a : A)
| Leave (r : request A)
| Invalid.
Arguments GoOn {A}. Arguments Leave {A}. Arguments Invalid {A}.

(** The loops around getopt: [set] is the switch, [finish] what follows the
    loop.  optarg is a null pointer for options without an argument. *)
Section Loop.
Variable A : Type.
Variable options : list Z.
Variable set : Z -> option (list Z) -> A -> reaction A.
Variable finish : list (list Z) -> Z -> A -> res (request A).

Fixpoint option_loop (fuel : nat) (argv : list (list Z)) (g : gstate) (a : A) : res (request A) :=
  match fuel with
  | O => NoFuel
  | S fuel =>
      do (c, g) <- getopt options argv g;
      if c =? -1 then finish argv (g_optind g) a
      else match set c (option_map string_at (g_optarg g)) a with
           | GoOn a => option_loop fuel argv g a
           | Leave r => Ok r
           | Invalid =>
               do invalid <- arr_get argv (g_optind g - 1);
               Ok (Usage false (Some invalid))
           end
  end.
End Loop.

(** What is set by the options of the tools; a codepage, path or file name that
    was not given is a null pointer. *)
Record settings := {
  st_allocation : bool;                 (* olecfinfo -a *)
  st_codepage : option (list Z);        (* -c *)
  st_log : option (list Z);             (* olecfexport -l *)
  st_target : option (list Z);          (* olecfexport -t *)
  st_extended : option (list Z);        (* olecfmount -X *)
  st_verbose : bool;                    (* -v *)
  st_source : list Z;
  st_mount_point : list Z               (* olecfmount *)
}.
Definition no_settings : settings :=
  {| st_allocation := false; st_codepage := None; st_log := None; st_target := None; st_extended := None;
     st_verbose := false; st_source := []; st_mount_point := [] |}.

Definition set_allocation (s : settings) :=
  {| st_allocation := true; st_codepage := st_codepage s; st_log := st_log s; st_target := st_target s;
     st_extended := st_extended s; st_verbose := st_verbose s; st_source := st_source s;
     st_mount_point := st_mount_point s |}.
Definition set_codepage x (s : settings) :=
  {| st_allocation := st_allocation s; st_codepage := x; st_log := st_log s; st_target := st_target s;
     st_extended := st_extended s; st_verbose := st_verbose s; st_source := st_source s;
     st_mount_point := st_mount_point s |}.
Definition set_log x (s : settings) :=
  {| st_allocation := st_allocation s; st_codepage := st_codepage s; st_log := x; st_target := st_target s;
     st_extended := st_extended s; st_verbose := st_verbose s; st_source := st_source s;
     st_mount_point := st_mount_point s |}.
Definition set_target x (s : settings) :=
  {| st_allocation := st_allocation s; st_codepage := st_codepage s; st_log := st_log s; st_target := x;
     st_extended := st_extended s; st_verbose := st_verbose s; st_source := st_source s;
     st_mount_point := st_mount_point s |}.
Definition set_extended x (s : settings) :=
  {| st_allocation := st_allocation s; st_codepage := st_codepage s; st_log := st_log s; st_target := st_target s;
     st_extended := x; st_verbose := st_verbose s; st_source := st_source s; st_mount_point := st_mount_point s |}.
Definition set_verbose (s : settings) :=
  {| st_allocation := st_allocation s; st_codepage := st_codepage s; st_log := st_log s; st_target := st_target s;
     st_extended := st_extended s; st_verbose := true; st_source := st_source s;
     st_mount_point := st_mount_point s |}.
Definition set_source x y (s : settings) :=
  {| st_allocation := st_allocation s; st_codepage := st_codepage s; st_log := st_log s; st_target := st_target s;
     st_extended := st_extended s; st_verbose := st_verbose s; st_source := x; st_mount_point := y |}.

(** Lines 216-227 of olecfinfo.c and 230-241 of olecfexport.c: the source. *)
Definition take_source (argv : list (list Z)) (optind : Z) (s : settings) : res (request settings) :=
  if optind =? zlen argv then Ok (Usage false None)
  else
    do source <- arr_get argv optind;
    Ok (Start (set_source source [] s)).

(** Lines 230-262 of olecfexport.c: the default target is the
    source without the path; [sep] is LIBCPATH_SEPARATOR. *)
Fixpoint after_separator (sep : Z) (l : list Z) : option (list Z) :=
  match l with
  | [] => None
  | c :: l => match after_separator sep l with
              | Some x => Some x
              | None => if c =? sep then Some l else None
              end
  end.
Definition take_source_target (sep : Z) (argv : list (list Z)) (optind : Z) (s : settings) : res (request settings) :=
  do r <- take_source argv optind s;
  match r with
  | Start s =>
      Ok (Start (match st_target s with
                 | Some _ => s
                 | None => set_target (Some (match after_separator sep (st_source s) with
                                             | Some x => x
                                             | None => st_source s
                                             end)) s
                 end))
  | _ => Ok r
  end.

(** Lines 245-269 of olecfmount.c: the source and the mount point. *)
Definition take_source_mount_point (argv : list (list Z)) (optind : Z) (s : settings) : res (request settings) :=
  if optind =? zlen argv then Ok (Usage false None)
  else
    do source <- arr_get argv optind;
    let optind := optind + 1 in
    if optind =? zlen argv then Ok (Usage false None)
    else
      do mount_point <- arr_get argv optind;
      Ok (Start (set_source source mount_point s)).

(** olecfinfo.c, lines 169-227. *)
Definition info_set (c : Z) (arg : option (list Z)) (s : settings) : reaction settings :=
  if c =? 97 then GoOn (set_allocation s)              (* a *)
  else if c =? 99 then GoOn (set_codepage arg s)       (* c *)
  else if c =? 104 then Leave (Usage true None)        (* h *)
  else if c =? 118 then GoOn (set_verbose s)           (* v *)
  else if c =? 86 then Leave Copyright                 (* V *)
  else Invalid.
Definition info_options (fuel : nat) (argv : list (list Z)) : res (request settings) :=
  option_loop settings (text_of "ac:hvV") info_set take_source fuel argv first_state no_settings.

(** olecfexport.c, lines 178-262. *)
Definition export_set (c : Z) (arg : option (list Z)) (s : settings) : reaction settings :=
  if c =? 99 then GoOn (set_codepage arg s)            (* c *)
  else if c =? 104 then Leave (Usage true None)        (* h *)
  else if c =? 108 then GoOn (set_log arg s)           (* l *)
  else if c =? 116 then GoOn (set_target arg s)        (* t *)
  else if c =? 118 then GoOn (set_verbose s)           (* v *)
  else if c =? 86 then Leave Copyright                 (* V *)
  else Invalid.
Definition export_options (sep : Z) (fuel : nat) (argv : list (list Z)) : res (request settings) :=
  option_loop settings (text_of "c:hl:t:vV") export_set (take_source_target sep) fuel argv first_state no_settings.

(** olecfmount.c, lines 198-269. *)
Definition mount_set (c : Z) (arg : option (list Z)) (s : settings) : reaction settings :=
  if c =? 99 then GoOn (set_codepage arg s)            (* c *)
  else if c =? 104 then Leave (Usage true None)        (* h *)
  else if c =? 118 then GoOn (set_verbose s)           (* v *)
  else if c =? 86 then Leave Copyright                 (* V *)
  else if c =? 88 then GoOn (set_extended arg s)       (* X *)
  else Invalid.
Definition mount_options (fuel : nat) (argv : list (list Z)) : res (request settings) :=
  option_loop settings (text_of "c:hvVX:") mount_set take_source_mount_point fuel argv first_state no_settings.
