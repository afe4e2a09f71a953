(** C84: exported documents. *)
From Coq Require Import String ZArith List Bool Lia.
From Verif Require Import Base Spec_IO M_Header M_Table M_Load M_Stream M_Tree M_Open M_Item M_Export
  Spec_Stream Spec_Load Spec_Tree Spec_Open Spec_Content Spec_Item Spec_Export M_Getopt Spec_Getopt M_ExportTool Spec_ExportTool
  L_Base L_Item L_Export L_Export2 L_Export3 P_Export P_ExportTool X_File X_Export P_Write P_SetWrite
  L_Write L_Write2 L_Write3 L_Write4 L_Write6 L_Write7 P_Doc Spec_Stores L_Stores L_Stores2 Spec_Write Spec_SetWrite Spec_Doc L_Doc Spec_DocExport L_DocExport.
Import ListNotations.
Open Scope Z_scope.

Lemma document_expected ho u rd h root doc safe : holds u rd h root doc -> (forall k, ho_fault ho k = None) ->
  names_ok (host_name ho (fh_byte_order h) safe) (doc_items doc) -> own_names safe (doc_items doc) ->
  exists o t tr d, open_read u rd [] = (Ok o, t) /\ o_tree o = Some tr /\ item_entry tr 0 d /\
    exportable ho rd (opened_volume o) tr /\
    forall dir q x, expected ho rd (opened_volume o) tr 0 dir q x <-> In (q, x) (exported safe (doc_items doc) dir).
Proof.
  intros HH HF HN HOwn. destruct (holds_opens u rd h root doc HH) as (o & t & tr & H1 & H2 & H3 & H4 & H5 & _).
  assert (He : v_byte_order (opened_volume o) = fh_byte_order h) by (cbn [opened_volume v_byte_order]; rewrite H3; reflexivity).
  pose proof H4 as (nd & N1 & _ & N3 & _).
  assert (HE : exportable ho rd (opened_volume o) tr).
  { eapply document_exportable; [exact (hd_una _ _ _ _ _ HH)|exact (hd_bytes _ _ _ _ _ HH)|exact H1|exact H2|exact H5|exact H4| |exact HOwn].
    rewrite He. exact HN. }
  exists o, t, tr, (n_entry nd). split; [exact H1|]. split; [exact H2|]. split; [exists nd; auto|]. split; [exact HE|].
  intros dir q x. rewrite (expected_split ho rd (opened_volume o) tr HE HF).
  assert (HN' : names_ok (host_name ho (v_byte_order (opened_volume o)) safe) (doc_items doc)) by (rewrite He; exact HN).
  rewrite <- (effects ho rd (opened_volume o) tr safe H5 _ _ N3 HN' dir q x).
  split; intros (j & d & n & Hj & HR); exists j, d, n; (split; [|exact HR]).
  - destruct Hj as (nd' & A & B). assert (nd' = nd) by congruence. now subst.
  - exists nd. auto.
Qed.

(** * Theorems *)

(** The export of a document with items of their own names: their directories,
    the data of all streams, nothing else. *)
Theorem C84_export :
  forall ho u rd h root doc safe p n w,
    holds u rd h root doc -> names_ok (host_name ho (fh_byte_order h) safe) (doc_items doc) -> own_names safe (doc_items doc) ->
    (forall k, ho_fault ho k = None) -> ~ In n [[46]; [46; 46]] -> vacant (x_disk w) (path_join p n) ->
    exists o t w', open_read u rd [] = (Ok o, t) /\
      export_file ho rd (opened_volume o) (o_tree o) p n w = (Ok tt, w') /\
      forall q x, on_disk (x_disk w') q = Some x <->
        on_disk (x_disk w) q = Some x \/ (q = path_join p n /\ x = Directory) \/
        In (q, x) (exported safe (doc_items doc) (path_join p n)).
Proof.
  intros ho u rd h root doc safe p n w HH HN HOwn HF Hn HV.
  destruct (document_expected ho u rd h root doc safe HH HF HN HOwn) as (o & t & tr & d & H1 & H2 & H3 & H4 & H5).
  destruct (C42_export_exact ho rd (opened_volume o) tr p n w d H4 HF H3 Hn HV) as (w' & E1 & E2).
  exists o, t, w'. split; [exact H1|]. rewrite H2. split; [exact E1|]. intros q x. now rewrite (E2 q x), H5.
Qed.
Print Assumptions C84_export.

(** A document whose root has no sub link: the directory. *)
Theorem C84_no_items :
  forall ho u rd f h root doc p n w,
    una_ok u -> stores u f h root doc -> io_bytes rd -> io_sound rd f -> io_total rd f -> de_sub root = FREE ->
    (forall k, ho_fault ho k = None) -> ~ In n [[46]; [46; 46]] -> on_disk (x_disk w) (path_join p n) = None ->
    exists o t w', open_read u rd [] = (Ok o, t) /\
      export_file ho rd (opened_volume o) (o_tree o) p n w = (Ok tt, w') /\
      forall q x, on_disk (x_disk w') q = Some x <->
        on_disk (x_disk w) q = Some x \/ (q = path_join p n /\ x = Directory).
Proof.
  intros ho u rd f h root doc p n w Hu HS0 HB HS HT HE HF Hn HV.
  destruct (stored_opens u rd f Hu HB HS HT h root doc HS0) as (o & t & H1 & _ & _ & H2 & _).
  apply H2 in HE. clear H2. rename HE into H2. exists o, t. rewrite H2.
  assert (HM : fst (make_directory ho p n w) = Ok tt /\
               x_disk (snd (make_directory ho p n w)) = (path_join p n, Directory) :: x_disk w).
  { unfold make_directory. rewrite call_fst, call_snd, HF, (not_dots n Hn), HV. auto. }
  destruct (make_directory ho p n w) as [r w'] eqn:E. cbn [fst snd] in HM. destruct HM as (-> & HD).
  exists w'. split; [exact H1|]. split; [unfold export_file, xbind; rewrite E; reflexivity|].
  intros q x. rewrite HD. cbn [on_disk]. destruct (list_eq_dec Z.eq_dec q (path_join p n)) as [->|Hq].
  - rewrite HV. split; [intros [= <-]; auto|]. intros [H|(_ & ->)]; [discriminate|reflexivity].
  - split; [auto|]. intros [H|(H & _)]; [exact H|congruence].
Qed.
Print Assumptions C84_no_items.

(** The data of the stream that names lead to is in the directories of these
    names. *)
Theorem C84_stream :
  forall ho u rd h root doc safe p n w names nm c m s,
    holds u rd h root doc -> names_ok (host_name ho (fh_byte_order h) safe) (doc_items doc) -> own_names safe (doc_items doc) ->
    (forall k, ho_fault ho k = None) -> ~ In n [[46]; [46; 46]] -> vacant (x_disk w) (path_join p n) ->
    reached doc (fun q n => if list_eq_dec Z.eq_dec q (safe n) then true else false) Top names = Some (At (Stream nm c m s)) ->
    exists o t w', open_read u rd [] = (Ok o, t) /\
      export_file ho rd (opened_volume o) (o_tree o) p n w = (Ok tt, w') /\
      on_disk (x_disk w') (data_path (fold_left path_join names (path_join p n))) = Some (Data s).
Proof.
  intros ho u rd h root doc safe p n w names nm c m s HH HN HOwn HF Hn HV HR.
  destruct (C84_export ho u rd h root doc safe p n w HH HN HOwn HF Hn HV) as (o & t & w' & H1 & H2 & H3).
  exists o, t, w'. split; [exact H1|]. split; [exact H2|]. apply H3. right. right.
  apply (reached_exported safe doc names Top nm c m s _ HR). intros ->. discriminate HR.
Qed.
Print Assumptions C84_stream.

(** A run of olecfexport. *)
Theorem C84_tool :
  forall m s w target h root doc safe,
    let rd := ma_reader m (full_path m (st_source s)) in
    let dir := export_directory m target in
    holds (ma_una m) rd h root doc ->
    names_ok (host_name (ma_host m) (fh_byte_order h) safe) (doc_items doc) -> own_names safe (doc_items doc) ->
    x_trace w = [] -> (forall k, ho_fault (ma_host m) k = None) ->
    st_target s = Some target -> target <> [] ->
    (forall c, st_codepage s = Some c -> exists b, ma_codepage m c = Ok b) ->
    vacant (x_disk w) dir ->
    (forall f, st_log s = Some f -> on_disk (x_disk w) (full_path m f) <> Some Directory /\
       full_path m f <> dir /\ forall y, full_path m f <> dir ++ 47 :: y) ->
    exists w' l, export_start_run m s w = (Ok tt, w', l) /\ plain_lines l /\
      (forall q, In q (created l) <-> q = dir \/ In (q, Directory) (exported safe (doc_items doc) dir)) /\
      forall q x, (forall f, st_log s = Some f -> q <> full_path m f) ->
        (on_disk (x_disk w') q = Some x <->
         on_disk (x_disk w) q = Some x \/ (q = dir /\ x = Directory) \/ In (q, x) (exported safe (doc_items doc) dir)).
Proof.
  intros m s w target h root doc safe rd dir HH HN HOwn HT HF Ht Htn HC HV HL.
  destruct (document_expected (ma_host m) (ma_una m) rd h root doc safe HH HF HN HOwn) as (o & t & tr & d & H1 & H2 & H3 & H4 & H5).
  destruct (C75_exact m s w target o t tr HT HF (hd_una _ _ _ _ _ HH) (hd_bytes _ _ _ _ _ HH) Ht Htn HC H1 H2 H4 HV HL)
    as (w' & l & E1 & E2 & E3).
  exists w', l. split; [exact E1|]. split; [exact E2|].
  assert (E4 : forall q x, (forall f, st_log s = Some f -> q <> full_path m f) ->
        (on_disk (x_disk w') q = Some x <->
         on_disk (x_disk w) q = Some x \/ (q = dir /\ x = Directory) \/ In (q, x) (exported safe (doc_items doc) dir))).
  { intros q x Hq. rewrite (E3 q x Hq). unfold dir. rewrite <- (H5 (export_directory m target) q x). reflexivity. }
  split; [|exact E4].
  intros q. destruct (C75_log m s w _ w' l E1) as (HLog & _). rewrite (HLog q).
  assert (Hin : forall x, In (q, x) (exported safe (doc_items doc) dir) -> exists y, q = dir ++ 47 :: y).
  { intros x. apply exported_in. }
  split.
  - intros (A & B).
    assert (Hq : forall f, st_log s = Some f -> q <> full_path m f).
    { intros f Hf ->. destruct (C75_success m s w _ w' l HT E1) as (target' & o' & tr' & _ & _ & _ & _ & _ & HS & _).
      rewrite (HS f [] Hf (or_intror (conj A eq_refl))) in B. discriminate B. }
    apply (E4 q Directory Hq) in B. destruct B as [B|[(B & _)|B]]; [congruence|auto|auto].
  - intros H.
    assert (Hd : q = dir \/ exists y, q = dir ++ 47 :: y) by (destruct H as [H|H]; [auto|right; eapply Hin, H]).
    assert (Hq : forall f, st_log s = Some f -> q <> full_path m f).
    { intros f Hf Hq. destruct (HL f Hf) as (_ & L1 & L2). destruct Hd as [Hd|(y & Hd)]; [congruence|]. apply (L2 y). congruence. }
    destruct HV as (V1 & V2). split; [destruct Hd as [->|(y & ->)]; [exact V1|apply V2]|].
    apply (E4 q Directory Hq). destruct H as [->|H]; auto.
Qed.
Print Assumptions C84_tool.

(** * A case: the document of P_SetWrite *)
Definition xx_safe (e : endian) (n : list Z) : list Z :=
  map (fun c => if c =? 47 then 95 else c) (xf_strip (xf_units e n)).

Definition xx_start : xstate := {| x_disk := [(text_of "/w/log", Data [33])]; x_calls := 0; x_trace := [] |}.

Example C84_case :
  let m := xt_machine xe_fine (write (xw_format Little) xs_doc) in
  holds xf_una (ma_reader m (full_path m (text_of "a.doc"))) (w_h (xw_format Little) xs_doc) (w_root (xw_format Little) xs_doc) xs_doc /\
  names_ok (host_name xe_fine Little (xx_safe Little)) (doc_items xs_doc) /\
  own_names (xx_safe Little) (doc_items xs_doc) /\ (forall k, ho_fault xe_fine k = None) /\
  vacant (x_disk xx_start) (export_directory m (text_of "a.doc")) /\
  (forall f, st_log xt_settings = Some f -> on_disk (x_disk xx_start) (full_path m f) <> Some Directory /\
     full_path m f <> export_directory m (text_of "a.doc") /\
     forall y, full_path m f <> export_directory m (text_of "a.doc") ++ 47 :: y) /\
  reached xs_doc (fun q n => if list_eq_dec Z.eq_dec q (xx_safe Little n) then true else false) Top [[98]; [100]]
    = Some (At (Stream [100; 0] 0 0 (set_written Little xs_set))) /\
  exported (xx_safe Little) (doc_items xs_doc) (export_directory m (text_of "a.doc")) =
    [(text_of "/w/a.doc.export/a", Directory); (text_of "/w/a.doc.export/a/StreamData.bin", Data [10; 20; 30]);
     (text_of "/w/a.doc.export/b", Directory); (text_of "/w/a.doc.export/b/StreamData.bin", Data []);
     (text_of "/w/a.doc.export/b/c", Directory); (text_of "/w/a.doc.export/b/c/StreamData.bin", Data []);
     (text_of "/w/a.doc.export/b/d", Directory);
     (text_of "/w/a.doc.export/b/d/StreamData.bin", Data (set_written Little xs_set))] /\
  let '(r, w', _) := export_start_run m xt_settings xx_start in
  r = Ok tt /\ on_disk (x_disk w') (text_of "/w/a.doc.export/b/d/StreamData.bin") = Some (Data (set_written Little xs_set)).
Proof.
  intros m. split; [exact (xs_holds Little)|]. split.
  { cbn [names_ok doc_items xs_doc]. repeat split; try (eexists; split; reflexivity); vm_compute; intuition discriminate. }
  split. { cbn [own_names doc_items xs_doc members]. vm_compute. intuition discriminate. }
  split; [reflexivity|]. split; [split; [reflexivity|intros q; reflexivity]|].
  split. { intros f [= <-]. split; [discriminate|]. split; [discriminate|]. intros y. discriminate. }
  split; [reflexivity|]. split; [reflexivity|]. vm_compute. split; reflexivity.
Qed.
