(** C74: the command lines of the tools. *)
From Coq Require Import String ZArith List Bool.
From Verif Require Import Base Spec_Tree M_Getopt Spec_Getopt L_Getopt.
Import ListNotations.
Open Scope Z_scope.

(** getopt tells of all options in turn, with their arguments, and leaves the
    operands, for all strings of options and all words. *)
Theorem C74_getopt options fuel argv :
  Forall (fun x => 0 < x < 128 /\ x <> 63) options ->
  argv <> [] -> Forall c_word argv -> (List.length (concat argv) < fuel)%nat ->
  forget (option_loop _ options collect (fun argv i a => Ok (Start (fst a, skipn (Z.to_nat i) argv)))
            fuel argv first_state ([], [])) =
  let (l, e) := command_line options (tl argv) in
  if existsb is_error l then Ok (Usage false None)
  else match e with
       | Operands ops => Ok (Start (map tells l, ops))
       | Failed => Err
       | Dash => Undef
       end.
Proof. exact (getopt_ok options fuel argv). Qed.
Print Assumptions C74_getopt.

(** The first of -h, -V and errors decides; if there is none, the settings are
    those of the options, and the first operands are the source and the mount
    point. *)
Theorem C74_info fuel argv : argv <> [] -> Forall c_word argv -> (List.length (concat argv) < fuel)%nat ->
  forget (info_options fuel argv) = tool (text_of "ac:hvV") info_start (tl argv).
Proof. exact (info_options_ok fuel argv). Qed.
Print Assumptions C74_info.

Theorem C74_export sep : exists name, (forall l, base_name sep l (name l)) /\
  forall fuel argv, argv <> [] -> Forall c_word argv -> (List.length (concat argv) < fuel)%nat ->
  forget (export_options sep fuel argv) = tool (text_of "c:hl:t:vV") (export_start name) (tl argv).
Proof. exact (ex_intro _ _ (conj (default_target sep) (export_options_ok sep))). Qed.
Print Assumptions C74_export.

Theorem C74_name sep l a b : base_name sep l a -> base_name sep l b -> a = b.
Proof. exact (base_name_unique sep l a b). Qed.
Print Assumptions C74_name.

Theorem C74_mount fuel argv : argv <> [] -> Forall c_word argv -> (List.length (concat argv) < fuel)%nat ->
  forget (mount_options fuel argv) = tool (text_of "c:hvVX:") mount_start (tl argv).
Proof. exact (mount_options_ok fuel argv). Qed.
Print Assumptions C74_mount.

(** The tools decide, unless a word is a single -. *)
Theorem C74_decides sep fuel argv :
  argv <> [] -> Forall c_word argv -> (List.length (concat argv) < fuel)%nat -> ~ In [45] (tl argv) ->
  (exists r, info_options fuel argv = Ok r) /\
  (exists r, export_options sep fuel argv = Ok r) /\
  (exists r, mount_options fuel argv = Ok r).
Proof.
  exact (fun Hn Hw Hf Hd =>
    conj (let (r, H) := tool_answers (text_of "ac:hvV") info_start (tl argv) Hd in
          forget_answers _ r (eq_trans (info_options_ok fuel argv Hn Hw Hf) H))
   (conj (let (r, H) := tool_answers (text_of "c:hl:t:vV") _ (tl argv) Hd in
          forget_answers _ r (eq_trans (export_options_ok sep fuel argv Hn Hw Hf) H))
         (let (r, H) := tool_answers (text_of "c:hvVX:") mount_start (tl argv) Hd in
          forget_answers _ r (eq_trans (mount_options_ok fuel argv Hn Hw Hf) H)))).
Qed.
Print Assumptions C74_decides.

(** Finding: getopt reads beyond the end of the word - (45), which POSIX has as
    an operand, and so do all three tools. *)
Theorem C74_dash_refuted : exists argv, Forall c_word argv /\ argv <> [] /\
  forall fuel, (0 < fuel)%nat -> info_options fuel argv = Undef /\ export_options 47 fuel argv = Undef /\
    mount_options fuel argv = Undef.
Proof.
  exists [text_of "tool"; [45]]. split; [|split; [discriminate|]].
  - repeat constructor.
  - intros [|fuel] H; [inversion H|]. repeat split; vm_compute; reflexivity.
Qed.
Print Assumptions C74_dash_refuted.

(** Finding: without any word, not even the name of the program, the source is
    read beyond the end of argv. *)
Theorem C74_no_words_refuted : info_options 1 [] = Undef.
Proof. vm_compute. reflexivity. Qed.
Print Assumptions C74_no_words_refuted.

(** Finding: a word that begins with -- ends the options silently, even one
    that is meant as a long option; it is neither used nor called invalid. *)
Theorem C74_long_refuted : exists s, st_source s = text_of "-h" /\ st_verbose s = false /\
  info_options 100 [text_of "olecfinfo"; text_of "--verbose"; text_of "-h"] = Ok (Start s).
Proof. eexists. split; [|split; [|vm_compute; reflexivity]]; reflexivity. Qed.
Print Assumptions C74_long_refuted.

(** Finding: the word that is called invalid is not the one with the unknown
    letter, if more letters follow. *)
Theorem C74_invalid_refuted :
  info_options 100 [text_of "olecfinfo"; text_of "-xa"; text_of "file.doc"] = Ok (Usage false (Some (text_of "olecfinfo"))) /\
  info_options 100 [text_of "olecfinfo"; text_of "-x"; text_of "file.doc"] = Ok (Usage false (Some (text_of "-x"))).
Proof. split; vm_compute; reflexivity. Qed.
Print Assumptions C74_invalid_refuted.

(** Finding: getopt does not go on after an unknown letter that others follow:
    called again it tells of the same letter, however often. *)
Theorem C74_again_refuted :
  let argv := [text_of "olecfinfo"; text_of "-xa"; text_of "file.doc"] in
  exists g, getopt (text_of "ac:hvV") argv first_state = Ok (63, g) /\
            getopt (text_of "ac:hvV") argv g = Ok (63, g).
Proof. eexists. split; vm_compute; reflexivity. Qed.
Print Assumptions C74_again_refuted.

(** A case: letters in a group, an argument in the same word and in the next,
    the last one counts. *)
Example C74_case :
  info_options 100 [text_of "olecfinfo"; text_of "-avcascii"; text_of "-c"; text_of "windows-1251"; text_of "--";
                    text_of "-h"; text_of "more"] =
  Ok (Start {| st_allocation := true; st_codepage := Some (text_of "windows-1251"); st_log := None; st_target := None;
               st_extended := None; st_verbose := true; st_source := text_of "-h"; st_mount_point := [] |}).
Proof. vm_compute. reflexivity. Qed.
Example C74_case_hypotheses :
  let argv := [text_of "olecfinfo"; text_of "-avcascii"; text_of "-c"; text_of "windows-1251"; text_of "--";
               text_of "-h"; text_of "more"] in
  argv <> [] /\ Forall c_word argv /\ (List.length (concat argv) < 100)%nat /\ ~ In [45] (tl argv).
Proof.
  split; [discriminate|]. split; [repeat constructor|]. split; [apply PeanoNat.Nat.ltb_lt; vm_compute; reflexivity|].
  vm_compute. intros H. repeat (destruct H as [H|H]; [discriminate|]). exact H.
Qed.
Example C74_case_getopt :
  option_loop _ (text_of "ab:c") collect (fun argv i a => Ok (Start (fst a, skipn (Z.to_nat i) argv)))
    100 [text_of "p"; text_of "-cab"; text_of "-b"; text_of "-a"; text_of "-bx"; text_of "y"; text_of "-a"] first_state ([], []) =
  Ok (Start ([(99, None); (97, None); (98, Some (text_of "-b")); (97, None); (98, Some (text_of "x"))],
             [text_of "y"; text_of "-a"])).
Proof. vm_compute. reflexivity. Qed.
Example C74_case_first :
  info_options 100 [text_of "olecfinfo"; text_of "-hx"] = Ok (Usage true None) /\
  info_options 100 [text_of "olecfinfo"; text_of "-Vh"] = Ok Copyright /\
  info_options 100 [text_of "olecfinfo"; text_of "-ac"] = Ok (Usage false (Some (text_of "-ac"))) /\
  info_options 100 [text_of "olecfinfo"; text_of "-a"] = Ok (Usage false None).
Proof. repeat split; vm_compute; reflexivity. Qed.
Example C74_case_export :
  export_options 47 100 [text_of "olecfexport"; text_of "-l"; text_of "log"; text_of "/data/old/report.doc"] =
  Ok (Start {| st_allocation := false; st_codepage := None; st_log := Some (text_of "log");
               st_target := Some (text_of "report.doc"); st_extended := None; st_verbose := false;
               st_source := text_of "/data/old/report.doc"; st_mount_point := [] |}) /\
  base_name 47 (text_of "/data/old/report.doc") (text_of "report.doc").
Proof.
  split; [vm_compute; reflexivity|]. split.
  - vm_compute. intros H. repeat (destruct H as [H|H]; [discriminate|]). exact H.
  - right. exists (text_of "/data/old"). vm_compute. reflexivity.
Qed.
Example C74_case_mount :
  mount_options 100 [text_of "olecfmount"; text_of "-X"; text_of "allow_other"; text_of "file.doc"; text_of "/mnt"] =
  Ok (Start {| st_allocation := false; st_codepage := None; st_log := None; st_target := None;
               st_extended := Some (text_of "allow_other"); st_verbose := false;
               st_source := text_of "file.doc"; st_mount_point := text_of "/mnt" |}) /\
  mount_options 100 [text_of "olecfmount"; text_of "file.doc"] = Ok (Usage false None).
Proof. split; vm_compute; reflexivity. Qed.
