(** Property theorems on the names and paths of the mount tool on Windows
    (C78). *)
From Coq Require Import ZArith List Bool Lia.
From Verif Require Import Base M_Table M_Load M_Tree M_Open M_Item M_Mount M_WMount L_Base Spec_Load Spec_Tree Spec_Item Spec_Mount
  Spec_WMount L_Item L_Mount L_WMount X_Stream X_File X_Mount X_WMount P_Tree.
Import ListNotations.
Open Scope Z_scope.

(** C78: the file name of an item and the way back.  [css] are the names of
    items from the root down, as lists of characters, [ns] the names in
    UTF-16. *)
Theorem C78_round_trip :
  forall cd css ns,
    codec_ok cd -> Forall2 (text cd) css ns ->
    Forall (fun cs => cs <> [] /\ Forall (fun c => c <> 0) cs) css ->
    Forall (fun n => zlen n <= 461168601842738790) ns ->
    exists fs, Forall2 (fun n f => wmount_file_name cd n = Ok f) ns fs /\
      (fs <> [] -> zlen (path_of 92 fs) < SSIZE_MAX / 2 ->
       exists size, wcopy_to_item_path cd (path_of 92 fs) = Ok (path_of 92 ns, size)).
Proof.
  intros cd css ns OK HT HC HL. destruct (wfile_names cd OK css ns HT HC HL) as (fs & HN & HF).
  exists fs. split; [exact HF|]. intros Hne Hl. eexists. exact (wto_item_path cd OK css ns fs HN Hne Hl).
Qed.
Print Assumptions C78_round_trip.

(** A file name has no reserved and no control character and no unit 0, and two
    names with the same file name are the same. *)
Theorem C78_file_name :
  forall cd cs n,
    codec_ok cd -> text cd cs n -> cs <> [] -> Forall (fun c => c <> 0) cs -> zlen n <= 461168601842738790 ->
    exists f, wmount_file_name cd n = Ok f /\
      Forall (fun b => 31 < b /\ ~ In b reserved /\ b <> 127) f /\
      (exists cs', text cd cs' f /\ Forall wplain cs') /\
      forall cs' n', text cd cs' n' -> cs' <> [] -> Forall (fun c => c <> 0) cs' -> zlen n' <= 461168601842738790 ->
        zlen f < SSIZE_MAX / 2 - 1 -> wmount_file_name cd n' = Ok f -> n' = n.
Proof. exact wfile_name_ok. Qed.
Print Assumptions C78_file_name.

(** The file name, character by character; there is only one such text. *)
Theorem C78_exact :
  forall cd cs n f,
    codec_ok cd -> text cd cs n -> cs <> [] -> Forall (fun c => c <> 0) cs -> zlen n <= 461168601842738790 ->
    (wmount_file_name cd n = Ok f <-> wfile_name_text cd cs f).
Proof.
  intros cd cs n f OK Ht Hne H0 Hl. destruct (wfile_name_exact cd cs n OK Ht Hne H0 Hl) as (g & Eg & Hg).
  split; [intros E; rewrite E in Eg; injection Eg as ->; exact Hg|].
  intros Hf. rewrite (wfile_name_text_fun cd cs f g Hf Hg). exact Eg.
Qed.
Print Assumptions C78_exact.

(** The item at the path of file names is the item that the names lead to. *)
Theorem C78_lookup :
  forall u cd e tr css ns fs,
    codec_ok cd -> una_utf16_char u = cd_decode cd -> Forall2 (text cd) css ns ->
    Forall (fun cs => cs <> [] /\ Forall (fun c => c <> 0 /\ c <> 92) cs) css ->
    Forall2 (fun n f => wmount_file_name cd n = Ok f) ns fs -> fs <> [] ->
    zlen (path_of 92 fs) < SSIZE_MAX / 2 ->
    wmount_item_by_path u cd e (Some tr) (path_of 92 fs) = lookup_names (sub_node_by_utf16_name u e tr) 0 ns.
Proof. exact wmount_lookup. Qed.
Print Assumptions C78_lookup.

(** A name with a backslash: its file name leads to a sub item named by the
    second part of the item named by the first part (finding). *)
Theorem C78_backslash :
  forall u cd e tr cs1 n1 cs2 n2,
    codec_ok cd -> una_utf16_char u = cd_decode cd -> text cd cs1 n1 -> text cd cs2 n2 ->
    cs1 <> [] -> Forall (fun c => c <> 0 /\ c <> 92) cs1 ->
    cs2 <> [] -> Forall (fun c => c <> 0 /\ c <> 92) cs2 ->
    zlen n1 + zlen n2 < 461168601842738790 ->
    exists f, wmount_file_name cd (n1 ++ 92 :: n2) = Ok f /\
      (zlen f < SSIZE_MAX / 2 - 1 ->
       wmount_item_by_path u cd e (Some tr) (92 :: f) = lookup_names (sub_node_by_utf16_name u e tr) 0 [n1; n2]).
Proof. exact wmount_backslash. Qed.
Print Assumptions C78_backslash.

(** All names and all paths, well formed or not: nothing is written outside the
    buffers. *)
Theorem C78_buffers :
  forall cd s, codec_ok cd ->
    (defined (wcopy_from_item_path cd s) /\
     forall f size, wcopy_from_item_path cd s = Ok (f, size) -> zlen f < size) /\
    (defined (wcopy_to_item_path cd s) /\
     forall p size, wcopy_to_item_path cd s = Ok (p, size) -> zlen p < size).
Proof. intros cd s OK. split; [exact (wfrom_safe cd s OK)|exact (wto_safe cd s OK)]. Qed.
Print Assumptions C78_buffers.

(** A name with a control character, all reserved characters, a circumflex, a
    character outside the basic plane, and one that is not printed. *)
Example C78_case :
  let cs := [5; 97; 94] ++ reserved ++ [8232; 128512] in
  exists n f, text utf16 cs n /\ wmount_file_name utf16 n = Ok f /\
    f = [94; 120; 48; 53; 97; 94; 94; 94; 120; 53; 99; 94; 120; 51; 99; 94; 120; 51; 101; 94; 120; 51; 97; 94; 120; 50; 50;
         94; 120; 50; 102; 94; 120; 55; 99; 94; 120; 51; 102; 94; 120; 50; 97;
         94; 85; 48; 48; 48; 48; 50; 48; 50; 56; 55357; 56832] /\
    wcopy_to_item_path utf16 (path_of 92 [f; [98]]) = Ok (path_of 92 [n; [98]], zlen f + 4).
Proof.
  cbv zeta. eexists. eexists. split.
  { unfold reserved. cbn [app]. repeat (eapply tx_char; [reflexivity|]). apply tx_nil. }
  repeat split; vm_compute; reflexivity.
Qed.

(** Upper case letters and digits; malformed paths: an escape character at the
    end, a short and a wrong hexadecimal value, an escaped character that is not
    to be escaped, a path that starts with a slash, a lone surrogate. *)
Example C78_paths_case :
  codec_ok utf16 /\
  wcopy_to_item_path utf16 [92; 94; 88; 53; 67] = Ok ([92; 92], 6) /\
  wcopy_to_item_path utf16 [92; 94; 117; 48; 48; 48; 48; 50; 48; 50; 56] = Ok ([92; 8232], 12) /\
  map (wcopy_to_item_path utf16)
    [[92; 94]; [92; 94; 120; 48]; [92; 94; 120; 48; 71]; [92; 94; 120; 52; 49]; [47; 97]; [92; 55296]; []]
  = repeat Err 7.
Proof. split; [exact utf16_ok|]. vm_compute. repeat split. Qed.

(** A file with the storage "st" that has the stream "xy", and a stream with
    the name "st\xy" beside it: both file names lead to the former. *)
Example C78_lookup_case :
  let u := {| una_utf8_compare := una_utf8_compare xf_una; una_utf16_compare := una_utf16_compare xf_una;
              una_utf8_char := una_utf8_char xf_una; una_utf16_char := cd_decode utf16 |} in
  exists o t tr,
    slots_open [slot_root; xf_slot Little [115; 116; 92; 120; 121] 2 FREE FREE FREE 0 70;
      xf_slot Little [99; 100] 2 1 4 FREE 4 600; zeros 128;
      xf_slot Little [115; 116] 1 FREE FREE 5 0 0; xf_slot Little [120; 121] 2 FREE FREE FREE 0 10; zeros 256] = (Ok o, t) /\
    o_tree o = Some tr /\
    wmount_file_name utf16 [115; 116; 92; 120; 121] = Ok [115; 116; 94; 120; 53; 99; 120; 121] /\
    (exists k, wmount_item_by_path u utf16 Little (Some tr) [92; 115; 116; 92; 120; 121] = Ok (Some k) /\
       wmount_item_by_path u utf16 Little (Some tr) [92; 115; 116; 94; 120; 53; 99; 120; 121] = Ok (Some k) /\
       exists d, item_entry tr k d /\ de_id d = 5) /\
    exists k d, item_entry tr k d /\ de_id d = 1.
Proof.
  cbv zeta. eexists. eexists. eexists. split; [vm_compute; reflexivity|]. split; [reflexivity|].
  split; [vm_compute; reflexivity|]. split.
  - eexists. split; [vm_compute; reflexivity|]. split; [vm_compute; reflexivity|].
    eexists. split; [eexists; split; reflexivity|reflexivity].
  - exists 2%nat. eexists. split; [eexists; split; reflexivity|reflexivity].
Qed.
