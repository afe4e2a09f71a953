(** Properties of the export tool: C42, C43. *)
From Coq Require Import ZArith List Bool Lia.
From Verif Require Import Base Spec_IO M_Table M_Load M_Stream M_Tree M_Open M_Item M_Mount M_Export
  Spec_Stream Spec_Content Spec_Load Spec_Tree Spec_Export L_Base L_Open L_Open2 L_Export L_Export2 L_Export3
  X_Stream X_File X_Content X_Export.
Import ListNotations.
Open Scope Z_scope.

(** C42.  An item of which the export succeeds, whatever call fails later or
    earlier: its directory is new, and the data file in it holds the whole
    stream. *)
Theorem C42_item_success :
  forall ho rd v t fuel k index dir w u w',
    export_item ho rd v t fuel k index dir w = (Ok u, w') ->
    exists d name n,
      item_entry t k d /\ safe_name ho (v_byte_order v) d n /\
      ((name = n /\ on_disk (x_disk w) (path_join dir n) = None) \/
       (name = firstn 9 (item_text index) /\ 9 <= zlen n /\
        (In n [[46]; [46; 46]] \/ on_disk (x_disk w) (path_join dir n) <> None))) /\
      on_disk (x_disk w) (path_join dir name) = None /\
      on_disk (x_disk w') (path_join dir name) = Some Directory /\
      (on_disk (x_disk w) (data_path (path_join dir name)) = None ->
       exists l, on_disk (x_disk w') (data_path (path_join dir name)) = Some (Data l) /\
         forall s, item_data rd v d s -> l = s).
Proof. exact export_item_success. Qed.
Print Assumptions C42_item_success.

(** An item that is no stream but has a size: it fails, and neither data nor
    sub items of it are written. *)
Theorem C42_not_a_stream :
  forall ho rd v t fuel k d index dir w,
    item_entry t k d -> de_type d <> 2 -> 0 < de_size d -> no_stray (x_disk w) ->
    (forall u, fst (export_item ho rd v t fuel k index dir w) <> Ok u) /\
    exists name, forall q x,
      on_disk (x_disk (snd (export_item ho rd v t fuel k index dir w))) q = Some x ->
      on_disk (x_disk w) q = Some x \/ (q = path_join dir name /\ x = Directory) \/
      (q = data_path (path_join dir name) /\ x = Data []).
Proof. exact export_item_not_stream. Qed.
Print Assumptions C42_not_a_stream.

(** The whole tool, whatever fails: nothing that was there is changed, ... *)
Theorem C42_keeps :
  forall ho rd v o p n w q x,
    on_disk (x_disk w) q = Some x ->
    on_disk (x_disk (snd (export_file ho rd v o p n w))) q = Some x.
Proof. exact export_file_keeps. Qed.
Print Assumptions C42_keeps.

(** ... and all that is new is in the export directory: directories, and data
    files with the beginning of the stream of an item. *)
Theorem C42_only_streams :
  forall ho rd v o p n w q x,
    on_disk (x_disk (snd (export_file ho rd v o p n w))) q = Some x ->
    on_disk (x_disk w) q = None ->
    (q = path_join p n /\ x = Directory) \/
    ((exists y, q = path_join p n ++ 47 :: y) /\
     (x = Directory \/
      exists t j d r l, o = Some t /\ item_entry t j d /\ q = data_path r /\ x = Data l /\
        forall s, item_data rd v d s -> exists rest, s = l ++ rest)).
Proof.
  intros ho rd v o p n w q x H Hn.
  destruct (export_file_grows ho rd v o p n w q x H) as [H1|[H1|(H1 & t & -> & [H2|(j & d & r & l & A & B & C & D)])]].
  - congruence.
  - auto.
  - right. auto.
  - right. split; [exact H1|]. right. exists t, j, d, r, l. repeat split; auto.
    intros s Hs. destruct (D s Hs) as (m & ->). exists (skipn m s). symmetry. apply firstn_skipn.
Qed.
Print Assumptions C42_only_streams.

(** No call fails, every item has a name of its own and a readable stream:
    the export succeeds and makes the directories of the items with their
    data, and nothing else. *)
Theorem C42_export_exact :
  forall ho rd v t p n w d,
    exportable ho rd v t -> (forall k, ho_fault ho k = None) -> item_entry t 0 d ->
    ~ In n [[46]; [46; 46]] -> vacant (x_disk w) (path_join p n) ->
    exists w', export_file ho rd v (Some t) p n w = (Ok tt, w') /\
      forall q x, on_disk (x_disk w') q = Some x <->
        on_disk (x_disk w) q = Some x \/ (q = path_join p n /\ x = Directory) \/
        expected ho rd v t 0 (path_join p n) q x.
Proof. intros. eapply export_file_exact; eauto. now apply not_dots. Qed.
Print Assumptions C42_export_exact.

(** The trees of opened files have the shape that [exportable] asks for. *)
Theorem C42_opened_shape :
  forall u rd o t tr, una_ok u -> io_bytes rd -> open_read u rd [] = (Ok o, t) -> o_tree o = Some tr ->
    tree_shape tr /\ volume_ok (opened_volume o) /\ (exists d, item_entry tr 0 d) /\
    forall k d, item_entry tr k d -> dirent_ok d.
Proof.
  intros u rd o t tr Hu HB HO Ht. split; [eapply opened_shape; eauto|].
  split; [eapply opened_volume_ok; eauto|]. split; [eapply opened_first; eauto|].
  intros. eapply opened_item_ok; eauto.
Qed.
Print Assumptions C42_opened_shape.

(** The file of X_File: all hypotheses hold, and the data of two streams. *)
Example C42_case :
  exists o t tr, xf_open Little = (Ok o, t) /\ o_tree o = Some tr /\
    exportable xe_fine (file_reader (xf_file Little)) (opened_volume o) tr /\
    vacant (x_disk xe_start) (path_join xe_dir xe_leaf).
Proof.
  destruct (xf_open Little) as [r t] eqn:E.
  assert (HC : match r with
               | Ok o => match o_tree o with
                         | Some tr => exportable_c (xf_file Little) (opened_volume o) tr
                         | None => false
                         end
               | _ => false
               end = true).
  { change r with (fst (r, t)). rewrite <- E. vm_compute. reflexivity. }
  destruct r as [o| | |]; [|discriminate HC|discriminate HC|discriminate HC].
  destruct (o_tree o) as [tr|] eqn:Et; [|discriminate HC].
  exists o, t, tr. split; [reflexivity|]. split; [exact Et|].
  destruct (C42_opened_shape xf_una _ o t tr xf_una_ok (xf_reader_bytes Little) E Et) as (H1 & H2 & H3 & H4).
  split; [|split; [reflexivity|intros q; reflexivity]].
  apply exportable_c_ok; auto. apply xf_file_bytes.
Qed.

(** "/o/x/ab/StreamData.bin" and "/o/x/st/xy/StreamData.bin". *)
Example C42_case_data :
  match xe_export xe_fine (xf_file Big) with
  | Some (Ok _, s) =>
      on_disk s (data_path [47; 111; 47; 120; 47; 97; 98]) = Some (Data (xf_data 0 70)) /\
      on_disk s (data_path [47; 111; 47; 120; 47; 115; 116; 47; 120; 121]) = Some (Data (xf_data 128 10))
  | _ => False
  end.
Proof. vm_compute. split; reflexivity. Qed.

(** The success of the whole does not mean that of the parts: a stream that
    cannot be read and all below a storage with a size are missing, the tool
    reports success. *)
Definition xe_slots (a b : list Z) : list Z :=
  xf_file_of Little xf_sat
    (xf_slot Little [82] 5 FREE FREE 2 3 192 ++ a ++ xf_slot Little [99; 100] 2 1 4 FREE 4 600 ++
     zeros 128 ++ b ++ xf_slot Little [120; 121] 2 FREE FREE FREE 2 10 ++ zeros 256).

Theorem C42_success_refuted :
  exists f ho o t tr w',
    (forall k, ho_fault ho k = None) /\ open_read xf_una (file_reader f) [] = (Ok o, t) /\ o_tree o = Some tr /\
    export_file ho (file_reader f) (opened_volume o) (Some tr) xe_dir xe_leaf xe_start = (Ok tt, w') /\
    (exists d, In d (tree_entries tr) /\ de_name d = [120; 0; 121; 0; 0; 0] /\ de_size d = 10) /\
    on_disk (x_disk w') [47; 111; 47; 120; 47; 115; 116] = Some Directory /\
    on_disk (x_disk w') (data_path [47; 111; 47; 120; 47; 115; 116]) = Some (Data []) /\
    on_disk (x_disk w') [47; 111; 47; 120; 47; 115; 116; 47; 120; 121] = None.
Proof.
  exists (xe_slots (xf_slot Little [97; 98] 2 FREE FREE FREE 0 70) (xf_slot Little [115; 116] 1 FREE FREE 5 0 77)).
  exists xe_fine. eexists. eexists. eexists. eexists. split; [reflexivity|].
  split; [vm_compute; reflexivity|]. split; [reflexivity|]. split; [vm_compute; reflexivity|].
  split; [eexists; split; [do 4 right; left; reflexivity|split; reflexivity]|].
  split; [reflexivity|]. split; reflexivity.
Qed.
Print Assumptions C42_success_refuted.

(** The storage of that file meets the hypotheses of C42_not_a_stream. *)
Example C42_case_not_a_stream :
  exists o t tr k d,
    open_read xf_una (file_reader (xe_slots (xf_slot Little [97; 98] 2 FREE FREE FREE 0 70)
      (xf_slot Little [115; 116] 1 FREE FREE 5 0 77))) [] = (Ok o, t) /\ o_tree o = Some tr /\
    item_entry tr k d /\ de_type d <> 2 /\ 0 < de_size d /\ no_stray (x_disk xe_start).
Proof.
  eexists. eexists. eexists. exists 3%nat. eexists. split; [vm_compute; reflexivity|]. split; [reflexivity|].
  split; [eexists; split; reflexivity|]. split; [discriminate|]. split; [reflexivity|]. intros p q _. reflexivity.
Qed.

(** A write that fails leaves a data file that is shorter than the stream;
    the tool goes on and reports success. *)
Definition xe_faulty : host := xe_host (fun k => if Nat.eqb k 5 then Some 7 else None).

Theorem C42_short_file_refuted :
  exists o t w', xf_open Little = (Ok o, t) /\
    export_file xe_faulty (file_reader (xf_file Little)) (opened_volume o) (o_tree o) xe_dir xe_leaf xe_start
      = (Ok tt, w') /\
    on_disk (x_disk w') (data_path [47; 111; 47; 120; 47; 97; 98]) = Some (Data (xf_data 0 7)) /\
    on_disk (x_disk w') (data_path [47; 111; 47; 120; 47; 115; 116; 47; 120; 121]) = Some (Data (xf_data 128 10)).
Proof.
  eexists. eexists. eexists. split; [vm_compute; reflexivity|]. split; [vm_compute; reflexivity|].
  split; reflexivity.
Qed.
Print Assumptions C42_short_file_refuted.

(** C43.  The name of the directory of an item: when the sanitized name is
    taken, "Item" and the index are written into the buffer of that name; the
    write stays inside exactly when the name has nine characters at least. *)
Theorem C43_name_write :
  forall ho v d index dir w n,
    safe_name ho (v_byte_order v) d n -> ho_fault ho (x_calls w) = None ->
    (In n [[46]; [46; 46]] \/ on_disk (x_disk w) (path_join dir n) <> None) ->
    (fst (choose_name ho v d index dir w) = Undef <-> zlen n < 9) /\
    (9 <= zlen n -> 0 <= index < 99999 ->
     fst (choose_name ho v d index dir w) = Ok (item_text index) /\ zlen (item_text index) = 9).
Proof. exact name_write. Qed.
Print Assumptions C43_name_write.

(** It is the only undefined case. *)
Theorem C43_only_if_taken :
  forall ho v d index dir w,
    fst (choose_name ho v d index dir w) = Undef ->
    exists n, safe_name ho (v_byte_order v) d n /\ ho_fault ho (x_calls w) = None /\ zlen n < 9 /\
      (In n [[46]; [46; 46]] \/ on_disk (x_disk w) (path_join dir n) <> None).
Proof. exact choose_name_undef. Qed.
Print Assumptions C43_only_if_taken.

(** The whole tool on an opened file, whatever fails: no undefined behaviour
    if all names have nine characters at least, ... *)
Theorem C43_long_names :
  forall u rd o t tr ho p n w,
    una_ok u -> io_bytes rd -> open_read u rd [] = (Ok o, t) -> o_tree o = Some tr ->
    (forall k d m, item_entry tr k d -> safe_name ho (v_byte_order (opened_volume o)) d m -> 9 <= zlen m) ->
    defined (fst (export_file ho rd (opened_volume o) (Some tr) p n w)).
Proof.
  intros u rd o t tr ho p n w Hu HB HO Ht HN.
  destruct (C42_opened_shape u rd o t tr Hu HB HO Ht) as (H1 & H2 & H3 & H4).
  apply export_file_defined; auto.
Qed.
Print Assumptions C43_long_names.

(** ... and none if every item has a name of its own among its siblings,
    which is none of ".", ".." and "StreamData.bin", and the export directory
    is not there yet. *)
Theorem C43_own_names :
  forall u rd o t tr ho p n w,
    una_ok u -> io_bytes rd -> open_read u rd [] = (Ok o, t) -> o_tree o = Some tr ->
    (forall k j d m, item_sub tr k j -> item_entry tr j d ->
       safe_name ho (v_byte_order (opened_volume o)) d m ->
       ~ In 47 m /\
       ~ In m [[46]; [46; 46]; [83; 116; 114; 101; 97; 109; 68; 97; 116; 97; 46; 98; 105; 110]]) ->
    (forall k i j d d' m, item_sub tr k i -> item_sub tr k j -> item_entry tr i d -> item_entry tr j d' ->
       safe_name ho (v_byte_order (opened_volume o)) d m ->
       safe_name ho (v_byte_order (opened_volume o)) d' m -> i = j) ->
    vacant (x_disk w) (path_join p n) ->
    defined (fst (export_file ho rd (opened_volume o) (Some tr) p n w)).
Proof.
  intros u rd o t tr ho p n w Hu HB HO Ht HP HU HV.
  destruct (C42_opened_shape u rd o t tr Hu HB HO Ht) as (H1 & H2 & (d & H3) & H4).
  eapply export_file_own; eauto.
Qed.
Print Assumptions C43_own_names.

Example C43_case_own_names :
  exists o t tr, xf_open Big = (Ok o, t) /\ o_tree o = Some tr /\
    names_c (v_byte_order (opened_volume o)) tr = true /\
    vacant (x_disk xe_start) (path_join xe_dir xe_leaf).
Proof.
  eexists. eexists. eexists. split; [vm_compute; reflexivity|]. split; [reflexivity|].
  split; [vm_compute; reflexivity|]. split; [reflexivity|intros q; reflexivity].
Qed.

(** [names_c] decides the two hypotheses on names. *)
Example C43_case_own_names_meaning : forall fault e t, names_c e t = true ->
  (forall k j d n, item_sub t k j -> item_entry t j d -> safe_name (xe_host fault) e d n ->
   ~ In 47 n /\ ~ In n [[46]; [46; 46]; [83; 116; 114; 101; 97; 109; 68; 97; 116; 97; 46; 98; 105; 110]]) /\
  (forall k i j d d' n, item_sub t k i -> item_sub t k j -> item_entry t i d -> item_entry t j d' ->
   safe_name (xe_host fault) e d n -> safe_name (xe_host fault) e d' n -> i = j).
Proof. intros fault e t H. split; [now apply names_c_plain|now apply names_c_unique]. Qed.

(** Two streams "ab" in one storage: the second overflows a buffer of three
    bytes. *)
Theorem C43_siblings_refuted :
  exists f ho o t tr,
    (forall k, ho_fault ho k = None) /\ open_read xf_una (file_reader f) [] = (Ok o, t) /\ o_tree o = Some tr /\
    fst (export_file ho (file_reader f) (opened_volume o) (Some tr) xe_dir xe_leaf xe_start) = Undef.
Proof.
  exists (xe_slots (xf_slot Little [97; 98] 2 FREE FREE FREE 0 70) (xf_slot Little [97; 98] 2 FREE FREE FREE 0 70)).
  exists xe_fine. eexists. eexists. eexists. split; [reflexivity|].
  split; [vm_compute; reflexivity|]. split; [reflexivity|]. vm_compute. reflexivity.
Qed.
Print Assumptions C43_siblings_refuted.

(** One item named ".." is enough. *)
Theorem C43_dots_refuted :
  exists f ho o t tr,
    (forall k, ho_fault ho k = None) /\ open_read xf_una (file_reader f) [] = (Ok o, t) /\ o_tree o = Some tr /\
    names_of (v_byte_order (opened_volume o)) tr [1; 2; 3]%nat = [[99; 100]; [46; 46]; [115; 116]] /\
    fst (export_file ho (file_reader f) (opened_volume o) (Some tr) xe_dir xe_leaf xe_start) = Undef.
Proof.
  exists (xe_slots (xf_slot Little [46; 46] 2 FREE FREE FREE 0 70) (xf_slot Little [115; 116] 1 FREE FREE 5 0 0)).
  exists xe_fine. eexists. eexists. eexists. split; [reflexivity|].
  split; [vm_compute; reflexivity|]. split; [reflexivity|]. split; vm_compute; reflexivity.
Qed.
Print Assumptions C43_dots_refuted.

(** Names of nine characters: the second of two siblings gets the name
    "Item00003". *)
Example C43_case_long_names :
  match xe_export xe_fine
    (xe_slots (xf_slot Little [97; 98; 97; 98; 97; 98; 97; 98; 97] 2 FREE FREE FREE 0 70)
              (xf_slot Little [97; 98; 97; 98; 97; 98; 97; 98; 97] 2 FREE FREE FREE 2 10)) with
  | Some (Ok _, s) =>
      on_disk s (data_path [47; 111; 47; 120; 47; 97; 98; 97; 98; 97; 98; 97; 98; 97]) = Some (Data (xf_data 0 70)) /\
      on_disk s (data_path [47; 111; 47; 120; 47; 73; 116; 101; 109; 48; 48; 48; 48; 51]) = Some (Data (xf_data 128 10))
  | _ => False
  end.
Proof. vm_compute. split; reflexivity. Qed.

(** Beyond 99999 items the text does not fit: item 100000 gets the name of
    item 10000. *)
Theorem C43_cut_text_refuted :
  firstn 9 (item_text 99999) = item_text 9999 /\ zlen (item_text 99999) = 10.
Proof. vm_compute. split; reflexivity. Qed.
Print Assumptions C43_cut_text_refuted.
