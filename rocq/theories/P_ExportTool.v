(** C75: runs of olecfexport. *)
From Coq Require Import String ZArith List Bool.
From Verif Require Import Base Spec_IO M_Table M_Load M_Stream M_Tree M_Open M_Item M_Mount Spec_Stream Spec_Content
  Spec_Load Spec_Tree M_Export Spec_Export M_Getopt Spec_Getopt M_ExportTool Spec_ExportTool L_Base L_Export L_Getopt
  L_ExportTool L_ExportTool2 L_ExportTool3 X_Stream X_File X_Content X_Export
  P_Export.
Import ListNotations.
Open Scope Z_scope.

(** The command line decides what is run: help, the copyright, an error, or an
    export with the settings of the options. *)
Theorem C75_main m : exists name, (forall l, base_name 47 l (name l)) /\
  forall fuel argv w, argv <> [] -> Forall c_word argv -> (List.length (concat argv) < fuel)%nat ->
  export_main m fuel argv w =
  match tool (text_of "c:hl:t:vV") (export_start name) (tl argv) with
  | Ok (Start s) => export_start_run m s w
  | Ok (Usage ok _) => (if ok then Ok tt else Err, w, [])
  | Ok Copyright => (Ok tt, w, [])
  | Err => (Err, w, [])
  | Undef => (Undef, w, [])
  | NoFuel => (NoFuel, w, [])
  end.
Proof. exact (ex_intro _ _ (conj (default_target 47) (export_main_ok m))). Qed.
Print Assumptions C75_main.

(** The lines of the log do not change what is exported. *)
Theorem C75_same ho rd v o p n w :
  fst (export_file_log ho rd v o p n w) = export_file ho rd v o p n w.
Proof. exact (export_file_same ho rd v o p n w). Qed.
Print Assumptions C75_same.

(** Whatever fails: what was there stays, and the log file is appended to. *)
Theorem C75_keeps m s w r w' l q x : export_start_run m s w = (r, w', l) -> on_disk (x_disk w) q = Some x ->
  on_disk (x_disk w') q = Some x \/
  exists f b more, st_log s = Some f /\ q = full_path m f /\ x = Data b /\ on_disk (x_disk w') q = Some (Data (b ++ more)).
Proof. exact (export_run_keeps m s w r w' l q x). Qed.
Print Assumptions C75_keeps.

(** All that is new: the log, the directory of the target with .export at the
    end, and in it directories and the beginnings of streams of the source. *)
Theorem C75_new m s w r w' l q x : x_trace w = [] -> export_start_run m s w = (r, w', l) ->
  on_disk (x_disk w) q = None -> on_disk (x_disk w') q = Some x ->
  (exists f text, st_log s = Some f /\ q = full_path m f /\ x = Data text /\
     forall u, r = Ok u -> text = concat (map line_text l)) \/
  exists target o tr, st_target s = Some target /\ on_disk (x_disk w) (export_directory m target) = None /\
    open_read (ma_una m) (ma_reader m (full_path m (st_source s))) [] = (Ok o, tr) /\
    ((q = export_directory m target /\ x = Directory) \/
     ((exists y, q = export_directory m target ++ 47 :: y) /\
      (x = Directory \/
       exists t j d p b, o_tree o = Some t /\ item_entry t j d /\ q = data_path p /\ x = Data b /\
         forall c, item_data (ma_reader m (full_path m (st_source s))) (opened_volume o) d c -> exists rest, c = b ++ rest))).
Proof.
  intros HT H HN Hq.
  destruct (run_new m s w r w' l q x HT H HN Hq) as [HL|(target & o & tr & H1 & H2 & H3 & [H4|(H4 & t & Ht & HG)])];
    [left; exact HL|right|right]; exists target, o, tr; (split; [exact H1|split; [exact H2|split; [exact H3|]]]).
  - left. exact H4.
  - right. split; [exact H4|]. destruct HG as [HG|(j & d & p & b & A & B & C & D)]; [left; exact HG|right].
    exists t, j, d, p, b. split; [exact Ht|]. split; [exact A|]. split; [exact B|]. split; [exact C|].
    intros c Hc. destruct (D c Hc) as (k & ->). exists (skipn k c). symmetry. apply firstn_skipn.
Qed.
Print Assumptions C75_new.

(** Whatever fails: the log tells of every directory that is made, once, and
    of no other. *)
Theorem C75_log m s w r w' l : export_start_run m s w = (r, w', l) ->
  (forall q, In q (created l) <-> on_disk (x_disk w) q = None /\ on_disk (x_disk w') q = Some Directory) /\
  NoDup (created l).
Proof. exact (run_log m s w r w' l). Qed.
Print Assumptions C75_log.

(** Nothing happens if the directory exists or if there is no target. *)
Theorem C75_occupied m s w target x :
  st_target s = Some target -> on_disk (x_disk w) (export_directory m target) = Some x ->
  exists w', export_start_run m s w = (Err, w', []) /\ x_disk w' = x_disk w.
Proof. exact (run_occupied m s w target x). Qed.
Print Assumptions C75_occupied.

Theorem C75_no_target m s w : st_target s = None \/ st_target s = Some [] ->
  exists w', export_start_run m s w = (Err, w', []) /\ x_disk w' = x_disk w.
Proof. exact (run_no_target m s w). Qed.
Print Assumptions C75_no_target.

(** A source that cannot be opened, or a wrong codepage: no success, and at most the log is made. *)
Theorem C75_unreadable m s w r w' l : x_trace w = [] ->
  (forall o tr, open_read (ma_una m) (ma_reader m (full_path m (st_source s))) [] <> (Ok o, tr)) \/
  (exists c, st_codepage s = Some c /\ ma_codepage m c = Err) ->
  export_start_run m s w = (r, w', l) ->
  (forall u, r <> Ok u) /\ l = [] /\
  forall q, (forall f, st_log s = Some f -> q <> full_path m f) -> on_disk (x_disk w') q = on_disk (x_disk w) q.
Proof. exact (run_unreadable m s w r w' l). Qed.
Print Assumptions C75_unreadable.

(** Success: the source was opened, the directory is new, the lines are in the
    log, and if these tell of no trouble then all items are stored with their
    data, in directories of their own, whatever call failed. *)
Theorem C75_success m s w u w' l : x_trace w = [] -> export_start_run m s w = (Ok u, w', l) ->
  exists target o tr, st_target s = Some target /\ target <> [] /\
    on_disk (x_disk w) (export_directory m target) = None /\
    on_disk (x_disk w') (export_directory m target) = Some Directory /\
    open_read (ma_una m) (ma_reader m (full_path m (st_source s))) [] = (Ok o, tr) /\
    (forall f b, st_log s = Some f ->
       on_disk (x_disk w) (full_path m f) = Some (Data b) \/ (on_disk (x_disk w) (full_path m f) = None /\ b = []) ->
       on_disk (x_disk w') (full_path m f) = Some (Data (b ++ concat (map line_text l)))) /\
    (una_ok (ma_una m) -> io_bytes (ma_reader m (full_path m (st_source s))) ->
     (forall f y, st_log s = Some f -> full_path m f <> export_directory m target ++ 47 :: y) ->
     untroubled l -> forall t, o_tree o = Some t ->
     all_stored (ma_reader m (full_path m (st_source s))) (opened_volume o) t
       (told_name (ma_host m) (v_byte_order (opened_volume o)) l) (x_disk w') (export_directory m target)).
Proof.
  intros HT H. destruct (run_success m s w u w' l HT H) as (target & o & tr & H1 & H2 & H3 & H4 & H5 & H6 & H7).
  exists target, o, tr. split; [exact H1|]. split; [exact H2|]. split; [exact H3|]. split; [exact H4|]. split; [exact H5|].
  split; [|exact H7]. intros f b Ef Hb. specialize (H6 f Ef). unfold written in H6.
  destruct Hb as [Hb|(Hb & ->)]; rewrite Hb in H6; exact H6.
Qed.
Print Assumptions C75_success.

(** If all items can be exported and no call fails: the run succeeds, what is
    there afterwards is exactly known, and so is that no line is of trouble or
    of a default name. *)
Theorem C75_exact m s w target o tr t : x_trace w = [] -> (forall k, ho_fault (ma_host m) k = None) ->
  una_ok (ma_una m) -> io_bytes (ma_reader m (full_path m (st_source s))) ->
  st_target s = Some target -> target <> [] ->
  (forall c, st_codepage s = Some c -> exists b, ma_codepage m c = Ok b) ->
  open_read (ma_una m) (ma_reader m (full_path m (st_source s))) [] = (Ok o, tr) -> o_tree o = Some t ->
  exportable (ma_host m) (ma_reader m (full_path m (st_source s))) (opened_volume o) t ->
  vacant (x_disk w) (export_directory m target) ->
  (forall f, st_log s = Some f -> on_disk (x_disk w) (full_path m f) <> Some Directory /\
     full_path m f <> export_directory m target /\ forall y, full_path m f <> export_directory m target ++ 47 :: y) ->
  exists w' l, export_start_run m s w = (Ok tt, w', l) /\ plain_lines l /\
    forall q x, (forall f, st_log s = Some f -> q <> full_path m f) ->
      (on_disk (x_disk w') q = Some x <->
       on_disk (x_disk w) q = Some x \/ (q = export_directory m target /\ x = Directory) \/
       expected (ma_host m) (ma_reader m (full_path m (st_source s))) (opened_volume o) t 0 (export_directory m target) q x).
Proof. exact (run_exact m s w target o tr t). Qed.
Print Assumptions C75_exact.

(** Runs are defined if closing the log does not fail, and if no name is short
    or every item has a name of its own (see C43). *)
Theorem C75_defined m s w : x_trace w = [] -> una_ok (ma_una m) ->
  io_bytes (ma_reader m (full_path m (st_source s))) -> (forall c, defined (ma_codepage m c)) ->
  (forall o tr t k d n, open_read (ma_una m) (ma_reader m (full_path m (st_source s))) [] = (Ok o, tr) -> o_tree o = Some t ->
     item_entry t k d -> safe_name (ma_host m) (v_byte_order (opened_volume o)) d n -> 9 <= zlen n) ->
  (st_log s = None \/ forall k, ho_fault (ma_host m) k = None) ->
  defined (fst (fst (export_start_run m s w))).
Proof. exact (export_run_defined m s w). Qed.
Print Assumptions C75_defined.

Theorem C75_defined_own m s w target : x_trace w = [] -> una_ok (ma_una m) ->
  io_bytes (ma_reader m (full_path m (st_source s))) -> (forall c, defined (ma_codepage m c)) ->
  (forall o tr t, open_read (ma_una m) (ma_reader m (full_path m (st_source s))) [] = (Ok o, tr) -> o_tree o = Some t ->
    (forall k j d n, item_sub t k j -> item_entry t j d -> safe_name (ma_host m) (v_byte_order (opened_volume o)) d n ->
       ~ In 47 n /\ ~ In n [[46]; [46; 46]; [83; 116; 114; 101; 97; 109; 68; 97; 116; 97; 46; 98; 105; 110]]) /\
    (forall k i j d d' n, item_sub t k i -> item_sub t k j -> item_entry t i d -> item_entry t j d' ->
       safe_name (ma_host m) (v_byte_order (opened_volume o)) d n ->
       safe_name (ma_host m) (v_byte_order (opened_volume o)) d' n -> i = j)) ->
  st_target s = Some target -> vacant (x_disk w) (export_directory m target) ->
  (forall f, st_log s = Some f -> full_path m f <> export_directory m target /\
     forall y, full_path m f <> export_directory m target ++ 47 :: y) ->
  (st_log s = None \/ forall k, ho_fault (ma_host m) k = None) ->
  defined (fst (fst (export_start_run m s w))).
Proof. exact (run_defined_own m s w target). Qed.
Print Assumptions C75_defined_own.

(** ** Cases *)

(** The file of X_File is /w/a.doc; a run of olecfexport -l log a.doc in /w. *)
Definition xt_machine (ho : host) (f : list Z) : machine :=
  {| ma_host := ho; ma_here := text_of "/w"; ma_una := xf_una;
     ma_reader := fun p => if list_eq_dec Z.eq_dec p (text_of "/w/a.doc") then file_reader f else fun _ _ _ => None;
     ma_codepage := fun _ => Ok true |}.
Definition xt_argv : list (list Z) := [text_of "olecfexport"; text_of "-l"; text_of "log"; text_of "a.doc"].
Definition xt_settings : settings :=
  {| st_allocation := false; st_codepage := None; st_log := Some (text_of "log"); st_target := Some (text_of "a.doc");
     st_extended := None; st_verbose := false; st_source := text_of "a.doc"; st_mount_point := [] |}.
Definition xt_start : xstate := {| x_disk := [(text_of "/w/log", Data [33])]; x_calls := 0; x_trace := [] |}.

Example C75_case_paths : full_path (xt_machine xe_fine []) (text_of "/a/b") = text_of "/a/b" /\
  full_path (xt_machine xe_fine []) (text_of "a/b") = text_of "/w/a/b".
Proof. split; reflexivity. Qed.

(** Ends of lines. *)
Definition lines_of (l : list string) : list Z := flat_map (fun s => text_of s ++ [10]) l.

Example C75_case :
  let '(r, w', _) := export_main (xt_machine xe_fine (xf_file Big)) 100 xt_argv xt_start in
  r = Ok tt /\
  on_disk (x_disk w') (text_of "/w/a.doc.export/ab/StreamData.bin") = Some (Data (xf_data 0 70)) /\
  on_disk (x_disk w') (text_of "/w/a.doc.export/st/xy/StreamData.bin") = Some (Data (xf_data 128 10)) /\
  on_disk (x_disk w') (text_of "/w/log") = Some (Data (33 :: lines_of
    ["Created directory: /w/a.doc.export.";
     "Processing item: 00000 in path: /w/a.doc.export/";
     "Created directory: /w/a.doc.export/ab.";
     "Processing item: 00001 in path: /w/a.doc.export/";
     "Created directory: /w/a.doc.export/cd.";
     "Processing item: 00002 in path: /w/a.doc.export/";
     "Created directory: /w/a.doc.export/st.";
     "Processing item: 00000 in path: /w/a.doc.export/st/";
     "Created directory: /w/a.doc.export/st/xy."]%string)).
Proof. vm_compute. repeat split; reflexivity. Qed.

Example C75_case_settings : export_options 47 100 xt_argv = Ok (Start xt_settings) /\
  Forall c_word xt_argv /\ (List.length (concat xt_argv) < 100)%nat.
Proof.
  split; [vm_compute; reflexivity|]. split; [repeat constructor|]. apply PeanoNat.Nat.ltb_lt. vm_compute. reflexivity.
Qed.

(** The hypotheses of C75_exact. *)
Example C75_case_exact : let m := xt_machine xe_fine (xf_file Little) in
  exists o tr t, x_trace xt_start = [] /\ (forall k, ho_fault (ma_host m) k = None) /\ una_ok (ma_una m) /\
    io_bytes (ma_reader m (full_path m (st_source xt_settings))) /\
    open_read (ma_una m) (ma_reader m (full_path m (st_source xt_settings))) [] = (Ok o, tr) /\ o_tree o = Some t /\
    exportable (ma_host m) (ma_reader m (full_path m (st_source xt_settings))) (opened_volume o) t /\
    vacant (x_disk xt_start) (export_directory m (text_of "a.doc")) /\
    (forall f, st_log xt_settings = Some f -> on_disk (x_disk xt_start) (full_path m f) <> Some Directory /\
       full_path m f <> export_directory m (text_of "a.doc") /\
       forall y, full_path m f <> export_directory m (text_of "a.doc") ++ 47 :: y).
Proof.
  intros m. destruct C42_case as (o & tr & t & H1 & H2 & H3 & _). exists o, tr, t.
  assert (E : ma_reader m (full_path m (st_source xt_settings)) = file_reader (xf_file Little)) by reflexivity.
  rewrite E. split; [reflexivity|]. split; [reflexivity|]. split; [exact xf_una_ok|]. split; [exact (xf_reader_bytes Little)|].
  split; [exact H1|]. split; [exact H2|]. split; [exact H3|]. split; [split; [reflexivity|intros q; reflexivity]|].
  intros f [= <-]. split; [discriminate|]. split; [discriminate|]. intros y. discriminate.
Qed.

(** An item that cannot be exported (a storage with a size): the log tells of
    it, the status is that of success. *)
Theorem C75_status_refuted : exists m s w w' l,
  (forall k, ho_fault (ma_host m) k = None) /\ export_start_run m s w = (Ok tt, w', l) /\ In (Unable 3) l.
Proof.
  exists (xt_machine xe_fine (xe_slots (xf_slot Little [97; 98] 2 FREE FREE FREE 0 70)
    (xf_slot Little [115; 116] 1 FREE FREE 5 0 77))), xt_settings, xt_start.
  eexists. eexists. split; [reflexivity|]. split; [vm_compute; reflexivity|]. vm_compute. tauto.
Qed.
Print Assumptions C75_status_refuted.

(** Finding: when closing the log fails after an export (a full disk), the
    stream is closed once more, which is undefined. *)
Definition xt_calls : nat :=
  x_calls (snd (fst (export_start_run (xt_machine xe_fine (xf_file Little)) xt_settings xt_start))).
Theorem C75_log_close_refuted : exists m s w, una_ok (ma_una m) /\
  io_bytes (ma_reader m (full_path m (st_source s))) /\ fst (fst (export_start_run m s w)) = Undef.
Proof.
  exists (xt_machine (xe_host (fun k => if Nat.eqb (S k) xt_calls then Some 7 else None)) (xf_file Little)), xt_settings, xt_start.
  split; [exact xf_una_ok|]. split; [exact (xf_reader_bytes Little)|]. vm_compute. reflexivity.
Qed.
Print Assumptions C75_log_close_refuted.

(** Finding: a log in the place of the directory is made first, and then in the
    way; the file is left. *)
Theorem C75_log_in_the_way_refuted : exists m s w w' l,
  (forall k, ho_fault (ma_host m) k = None) /\ vacant (x_disk w) (export_directory m (text_of "a.doc")) /\
  st_target s = Some (text_of "a.doc") /\ export_start_run m s w = (Err, w', l) /\
  on_disk (x_disk w') (export_directory m (text_of "a.doc")) = Some (Data []).
Proof.
  exists (xt_machine xe_fine (xf_file Little)),
    {| st_allocation := false; st_codepage := None; st_log := Some (text_of "a.doc.export"); st_target := Some (text_of "a.doc");
       st_extended := None; st_verbose := false; st_source := text_of "a.doc"; st_mount_point := [] |},
    xe_start.
  eexists. eexists. split; [reflexivity|]. split; [split; [reflexivity|intros q; reflexivity]|]. split; [reflexivity|].
  split; [vm_compute; reflexivity|]. vm_compute. reflexivity.
Qed.
Print Assumptions C75_log_in_the_way_refuted.

(** Finding: a log with the name of the source is appended to the source. *)
Theorem C75_source_refuted : exists m s w w' l more,
  full_path m (st_source s) = text_of "/w/a.doc" /\ on_disk (x_disk w) (text_of "/w/a.doc") = Some (Data (xf_file Little)) /\
  export_start_run m s w = (Ok tt, w', l) /\ more <> [] /\
  on_disk (x_disk w') (text_of "/w/a.doc") = Some (Data (xf_file Little ++ more)).
Proof.
  exists (xt_machine xe_fine (xf_file Little)),
    {| st_allocation := false; st_codepage := None; st_log := Some (text_of "a.doc"); st_target := Some (text_of "a.doc");
       st_extended := None; st_verbose := false; st_source := text_of "a.doc"; st_mount_point := [] |},
    {| x_disk := [(text_of "/w/a.doc", Data (xf_file Little))]; x_calls := 0; x_trace := [] |}.
  eexists. eexists.
  exists (lines_of
    ["Created directory: /w/a.doc.export.";
     "Processing item: 00000 in path: /w/a.doc.export/";
     "Created directory: /w/a.doc.export/ab.";
     "Processing item: 00001 in path: /w/a.doc.export/";
     "Created directory: /w/a.doc.export/cd.";
     "Processing item: 00002 in path: /w/a.doc.export/";
     "Created directory: /w/a.doc.export/st.";
     "Processing item: 00000 in path: /w/a.doc.export/st/";
     "Created directory: /w/a.doc.export/st/xy."]%string).
  split; [reflexivity|]. split; [reflexivity|]. split; [vm_compute; reflexivity|]. split; [discriminate|].
  vm_compute. reflexivity.
Qed.
Print Assumptions C75_source_refuted.

(** Runs on a source that is not there, and with the directory there. *)
Example C75_case_unreadable :
  let '(r, w', l) := export_main (xt_machine xe_fine (xf_file Little)) 100 [text_of "olecfexport"; text_of "b.doc"] xe_start in
  r = Err /\ x_disk w' = [] /\ l = [].
Proof. vm_compute. repeat split; reflexivity. Qed.
Example C75_case_occupied :
  fst (fst (export_main (xt_machine xe_fine (xf_file Little)) 100 xt_argv
    {| x_disk := [(text_of "/w/a.doc.export", Directory)]; x_calls := 0; x_trace := [] |})) = Err.
Proof. vm_compute. reflexivity. Qed.
(** A source that ends with a separator has no name. *)
Example C75_case_no_target :
  export_options 47 100 [text_of "olecfexport"; text_of "dir/"] =
  Ok (Start {| st_allocation := false; st_codepage := None; st_log := None; st_target := Some []; st_extended := None;
               st_verbose := false; st_source := text_of "dir/"; st_mount_point := [] |}).
Proof. vm_compute. reflexivity. Qed.

(** A run with success and a log without trouble. *)
Example C75_case_success : let m := xt_machine xe_fine (xf_file Little) in
  exists w' l, export_start_run m xt_settings xt_start = (Ok tt, w', l) /\ untroubled l /\
    In (text_of "/w/a.doc.export/st/xy") (created l).
Proof.
  eexists. eexists. split; [vm_compute; reflexivity|]. split; [|vm_compute; tauto].
  intros x H. repeat (destruct H as [<-|H]; [exact I|]). destruct H.
Qed.

(** The hypotheses of C75_defined_own, and a name of nine characters at least
    for C75_defined. *)
Example C75_case_defined : let m := xt_machine xe_fine (xf_file Big) in
  (forall o tr t, open_read (ma_una m) (ma_reader m (full_path m (st_source xt_settings))) [] = (Ok o, tr) -> o_tree o = Some t ->
    (forall k j d n, item_sub t k j -> item_entry t j d -> safe_name (ma_host m) (v_byte_order (opened_volume o)) d n ->
       ~ In 47 n /\ ~ In n [[46]; [46; 46]; [83; 116; 114; 101; 97; 109; 68; 97; 116; 97; 46; 98; 105; 110]]) /\
    (forall k i j d d' n, item_sub t k i -> item_sub t k j -> item_entry t i d -> item_entry t j d' ->
       safe_name (ma_host m) (v_byte_order (opened_volume o)) d n ->
       safe_name (ma_host m) (v_byte_order (opened_volume o)) d' n -> i = j)) /\
  vacant (x_disk xt_start) (export_directory m (text_of "a.doc")).
Proof.
  intros m. split; [|split; [reflexivity|intros q; reflexivity]].
  destruct C43_case_own_names as (o & tr & t & H1 & H2 & H3 & _). intros o' tr' t' HO Ht.
  assert (E : open_read (ma_una m) (ma_reader m (full_path m (st_source xt_settings))) [] = xf_open Big) by reflexivity.
  rewrite E, H1 in HO. injection HO as <- <-. rewrite H2 in Ht. injection Ht as <-.
  exact (C43_case_own_names_meaning _ _ _ H3).
Qed.
Example C75_case_long : let m := xt_machine {| ho_name := fun _ _ => Some (text_of "long name"); ho_sanitize := fun n => Some n;
                                             ho_fault := fun _ => None |} (xf_file Big) in
  (forall o tr t k d n, open_read (ma_una m) (ma_reader m (full_path m (st_source xt_settings))) [] = (Ok o, tr) -> o_tree o = Some t ->
     item_entry t k d -> safe_name (ma_host m) (v_byte_order (opened_volume o)) d n -> 9 <= zlen n) /\
  let '(r, w', l) := export_start_run m xt_settings xt_start in
  r = Ok tt /\ In (Defaulting (text_of "Item00003")) l /\
  on_disk (x_disk w') (text_of "/w/a.doc.export/Item00003/long name/StreamData.bin") = Some (Data (xf_data 128 10)).
Proof.
  intros m. split.
  - intros o tr t k d n _ _ _ (raw & [= <-] & [= <-]). vm_compute. discriminate.
  - vm_compute. split; [reflexivity|]. split; [|reflexivity]. tauto.
Qed.
