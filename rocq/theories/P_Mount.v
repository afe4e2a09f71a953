(** Property theorems on the mount tool (C36, C37, C41). *)
From Coq Require Import ZArith List Bool Lia.
From Verif Require Import Base M_Table M_Load M_Tree M_Open M_Item M_Mount L_Base Spec_Load Spec_Tree Spec_Item Spec_Mount L_Item L_Mount
  X_Stream X_File X_Mount P_Tree.
Import ListNotations.
Open Scope Z_scope.

(** C36: the file name of an item and the way back.  [css] are the names of
    items from the root down, as lists of characters, [ns] the names in
    UTF-8. *)
Theorem C36_round_trip :
  forall cd css ns,
    codec_ok cd -> Forall2 (text cd) css ns ->
    Forall (fun cs => cs <> [] /\ Forall (fun c => c <> 0) cs) css ->
    Forall (fun n => zlen n <= 922337203685477580) ns ->
    exists fs, Forall2 (fun n f => mount_file_name cd n = Ok f) ns fs /\
      (fs <> [] -> zlen (path_of 47 fs) < SSIZE_MAX ->
       exists size, copy_to_item_path cd (path_of 47 fs) = Ok (path_of 92 ns, size)).
Proof.
  intros cd css ns OK HT HC HL. destruct (file_names cd OK css ns HT HC HL) as (fs & HN & HF).
  exists fs. split; [exact HF|]. intros Hne Hl. eexists. exact (to_item_path cd OK css ns fs HN Hne Hl).
Qed.
Print Assumptions C36_round_trip.

(** A file name has no slash, no control character and no byte 0, and two
    names with the same file name are the same. *)
Theorem C36_file_name :
  forall cd cs n,
    codec_ok cd -> text cd cs n -> cs <> [] -> Forall (fun c => c <> 0) cs -> zlen n <= 922337203685477580 ->
    exists f, mount_file_name cd n = Ok f /\
      Forall (fun b => 31 < b /\ b <> 47 /\ b <> 127) f /\
      (exists cs', text cd cs' f /\ Forall plain cs') /\
      forall cs' n', text cd cs' n' -> cs' <> [] -> Forall (fun c => c <> 0) cs' -> zlen n' <= 922337203685477580 ->
        zlen f < SSIZE_MAX - 1 -> mount_file_name cd n' = Ok f -> n' = n.
Proof. exact file_name_ok. Qed.
Print Assumptions C36_file_name.

(** The file name, character by character; there is only one such text. *)
Theorem C36_exact :
  forall cd cs n f,
    codec_ok cd -> text cd cs n -> cs <> [] -> Forall (fun c => c <> 0) cs -> zlen n <= 922337203685477580 ->
    (mount_file_name cd n = Ok f <-> file_name_text cd cs f).
Proof.
  intros cd cs n f OK Ht Hne H0 Hl. destruct (file_name_exact cd cs n OK Ht Hne H0 Hl) as (g & Eg & Hg).
  split; [intros E; rewrite E in Eg; injection Eg as ->; exact Hg|].
  intros Hf. rewrite (file_name_text_fun cd cs f g Hf Hg). exact Eg.
Qed.
Print Assumptions C36_exact.

(** The item at the path of file names is the item that the names lead to. *)
Theorem C36_lookup :
  forall u cd e tr css ns fs,
    codec_ok cd -> una_utf8_char u = cd_decode cd -> Forall2 (text cd) css ns ->
    Forall (fun cs => cs <> [] /\ Forall (fun c => c <> 0 /\ c <> 92) cs) css ->
    Forall2 (fun n f => mount_file_name cd n = Ok f) ns fs -> fs <> [] ->
    zlen (path_of 47 fs) < SSIZE_MAX ->
    mount_item_by_path u cd e (Some tr) (path_of 47 fs) = lookup_names (sub_node_by_utf8_name u e tr) 0 ns.
Proof. exact mount_lookup. Qed.
Print Assumptions C36_lookup.

(** A name with a backslash: its file name leads to a sub item named by the
    second part of the item named by the first part (finding). *)
Theorem C36_backslash :
  forall u cd e tr cs1 n1 cs2 n2,
    codec_ok cd -> una_utf8_char u = cd_decode cd -> text cd cs1 n1 -> text cd cs2 n2 ->
    cs1 <> [] -> Forall (fun c => c <> 0 /\ c <> 92) cs1 ->
    cs2 <> [] -> Forall (fun c => c <> 0 /\ c <> 92) cs2 ->
    zlen n1 + zlen n2 < 922337203685477580 ->
    exists f, mount_file_name cd (n1 ++ 92 :: n2) = Ok f /\
      (zlen f < SSIZE_MAX - 1 ->
       mount_item_by_path u cd e (Some tr) (47 :: f) = lookup_names (sub_node_by_utf8_name u e tr) 0 [n1; n2]).
Proof. exact mount_backslash. Qed.
Print Assumptions C36_backslash.

(** A name with a control character, a slash, a character outside the basic
    plane that is not printed, and characters of two and three bytes. *)
Example C36_case :
  let cs := [5; 97; 47; 233; 8232; 8364; 57344; 128512; 127] in
  exists n f, text utf8 cs n /\ mount_file_name utf8 n = Ok f /\
    f = [92; 120; 48; 53; 97; 92; 120; 50; 102; 195; 169;
         92; 85; 48; 48; 48; 48; 50; 48; 50; 56; 226; 130; 172;
         92; 85; 48; 48; 48; 48; 101; 48; 48; 48; 240; 159; 152; 128; 92; 120; 55; 102] /\
    copy_to_item_path utf8 (path_of 47 [f; [98]]) = Ok (path_of 92 [n; [98]], zlen f + 4) /\
    mount_file_name utf8 [97; 92; 98] = Ok [97; 92; 92; 98].
Proof.
  cbv zeta. eexists. eexists. split.
  { repeat (eapply tx_char; [reflexivity|]). apply tx_nil. }
  repeat split; vm_compute; reflexivity.
Qed.

(** A file with the storage "st" that has the stream "xy", and a stream with
    the name "st\xy" beside it: both file names lead to the former. *)
Example C36_lookup_case :
  let u := {| una_utf8_compare := una_utf8_compare xf_una; una_utf16_compare := una_utf16_compare xf_una;
              una_utf8_char := cd_decode utf8; una_utf16_char := una_utf16_char xf_una |} in
  exists o t tr,
    slots_open [slot_root; xf_slot Little [115; 116; 92; 120; 121] 2 FREE FREE FREE 0 70;
      xf_slot Little [99; 100] 2 1 4 FREE 4 600; zeros 128;
      xf_slot Little [115; 116] 1 FREE FREE 5 0 0; xf_slot Little [120; 121] 2 FREE FREE FREE 0 10; zeros 256] = (Ok o, t) /\
    o_tree o = Some tr /\
    mount_file_name utf8 [115; 116; 92; 120; 121] = Ok [115; 116; 92; 92; 120; 121] /\
    (exists k, mount_item_by_path u utf8 Little (Some tr) [47; 115; 116; 47; 120; 121] = Ok (Some k) /\
       mount_item_by_path u utf8 Little (Some tr) [47; 115; 116; 92; 92; 120; 121] = Ok (Some k) /\
       exists d, item_entry tr k d /\ de_id d = 5) /\
    exists k d, item_entry tr k d /\ de_id d = 1.
Proof.
  cbv zeta. eexists. eexists. eexists. split; [vm_compute; reflexivity|]. split; [reflexivity|].
  split; [vm_compute; reflexivity|]. split.
  - eexists. split; [vm_compute; reflexivity|]. split; [vm_compute; reflexivity|].
    eexists. split; [eexists; split; reflexivity|reflexivity].
  - exists 2%nat. eexists. split; [eexists; split; reflexivity|reflexivity].
Qed.

(** C37 *)
Theorem C37_from_item_path :
  forall cd s, codec_ok cd ->
    defined (copy_from_item_path cd s) /\
    forall f size, copy_from_item_path cd s = Ok (f, size) -> zlen f < size.
Proof. exact from_safe. Qed.
Print Assumptions C37_from_item_path.

Theorem C37_to_item_path :
  forall cd s, codec_ok cd ->
    defined (copy_to_item_path cd s) /\
    forall p size, copy_to_item_path cd s = Ok (p, size) -> zlen p < size.
Proof. exact to_safe. Qed.
Print Assumptions C37_to_item_path.

(** Malformed paths: an escape character at the end, a short and a wrong
    hexadecimal value, an escaped character that is not to be escaped, a path
    that does not start with a slash, a truncated character. *)
Example C37_case :
  codec_ok utf8 /\
  map (copy_to_item_path utf8)
    [[47; 92]; [47; 92; 120; 48]; [47; 92; 120; 48; 71]; [47; 92; 120; 52; 49]; [97]; [47; 226; 130]; []]
  = repeat Err 7 /\
  copy_to_item_path utf8 [47; 92; 120; 48; 53] = Ok ([92; 5], 6) /\
  copy_from_item_path utf8 (repeat 1 20) = Ok (concat (repeat [92; 120; 48; 49] 20), 201).
Proof. split; [exact utf8_ok|]. vm_compute. repeat split. Qed.

(** C41 *)
Theorem C41_mount_time :
  forall t, 0 <= t < 2 ^ 64 ->
    let v := (t - 116444736000000000) * 100 in
    (t = 0 -> mount_time t = Ok 0) /\
    (t <> 0 -> - 2 ^ 63 <= v < 2 ^ 63 -> exists r, mount_time t = Ok r /\ 0 <= r < 2 ^ 64 /\ s64 r = v) /\
    (t <> 0 -> ~ (- 2 ^ 63 <= v < 2 ^ 63) -> mount_time t = Undef).
Proof.
  intros t Ht v. split; [intros ->; reflexivity|]. split; intros H0 Hv.
  - exists (u64 v). split; [apply mount_time_fits; [lia|reflexivity|exact Hv]|exact (s64_of_u64 v Hv)].
  - apply (mount_time_overflow t v); [lia|reflexivity|exact Hv].
Qed.
Print Assumptions C41_mount_time.

(** In particular for -1, for 1 January 1601 and for the year 2300. *)
Theorem C41_overflow_refuted :
  mount_time 18446744073709551615 = Undef /\ mount_time 1 = Undef /\ mount_time 220583520000000000 = Undef.
Proof. repeat split; vm_compute; reflexivity. Qed.
Print Assumptions C41_overflow_refuted.

Example C41_case :
  mount_time 134392752591234567 = Ok ((134392752591234567 - 116444736000000000) * 100) /\
  mount_time 116444735999999999 = Ok (2 ^ 64 - 100).
Proof. split; vm_compute; reflexivity. Qed.
