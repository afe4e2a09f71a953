(** Lemmas on what olecfinfo prints: a whole run. *)
From Coq Require Import String ZArith List Bool Lia Arith Permutation.
From Verif Require Import Base Spec_IO M_Table M_Header M_Load M_Stream M_Tree M_Open M_Item M_Mount M_File
  M_Prop M_PyProp M_Info Spec_Stream Spec_Content Spec_Tree Spec_File Spec_Prop Spec_PyProp Spec_Info Spec_Export
  L_Base L_Tree L_Tree2 L_Tree3 L_Open L_Open2 L_Session L_File L_Export3 L_Sound L_Prop3 L_Info L_Info2 L_Info3.
Import ListNotations.
Open Scope Z_scope.

(** Printing of pieces that depend on what was read before. *)
Definition prints_some (m : pio unit) (Q : list (option (list Z)) -> Prop) : Prop :=
  forall w, exists l t', Q l /\ m w = (if snd (printed l) then Ok tt else Err,
                                      {| p_out := p_out w ++ fst (printed l); p_trace := t' |}).

Lemma prints_prints_some m a : prints m a -> prints_some m (fun l => l = a).
Proof. intros H w. destruct (H w) as (t & Ht). exists a, t. auto. Qed.

Lemma prints_some_bind m k (P Q : list (option (list Z)) -> Prop) : prints_some m P -> prints_some (k tt) Q ->
  prints_some (pbind m k) (fun l => exists a b, P a /\ Q b /\ l = a ++ b).
Proof.
  intros Hm Hk w. destruct (Hm w) as (a & t & Ha & Ht).
  destruct (Hk {| p_out := p_out w ++ fst (printed a); p_trace := t |}) as (b & t' & Hb & Ht').
  exists (a ++ b). unfold pbind. rewrite Ht, printed_app. destruct (snd (printed a)).
  - exists t'. split; [eauto|]. rewrite Ht'. cbn [fst snd p_out]. now rewrite app_assoc.
  - exists t. split; [eauto|]. reflexivity.
Qed.

Lemma prints_some_then m m' (P Q : list (option (list Z)) -> Prop) : prints_some m P -> prints_some m' Q ->
  prints_some (pbind m (fun _ => m')) (fun l => exists a b, P a /\ Q b /\ l = a ++ b).
Proof. intros Hm Hk. exact (prints_some_bind m (fun _ => m') P Q Hm Hk). Qed.

Section Run.
Variables (lib : infolib) (text : list Z -> fv_encoding -> option (list Z))
  (empty : fv_type -> option (list Z)) (names : list Z -> endian -> option (list Z))
  (date : Z -> option (list Z)) (u : una) (rd : reader) (o : opened).
Hypothesis HL : infolib_ok lib text empty names date.
Hypothesis Hu : una_ok u.
Hypothesis HB : io_bytes rd.
Hypothesis HO : sound_file u o.

Let v := opened_volume o.

Lemma information_prints s cp name heading : shows s o ->
  prints_some (information_fprint lib u rd name heading (file_volume s) (o_tree o) cp)
    (information lib text empty date u rd v (o_tree o) cp name (heading ++ [10])).
Proof.
  intros HS. unfold information_fprint, information, get_root_item.
  destruct (o_tree o) as [t|] eqn:Et.
  2:{ intros w. destruct (prints_ret w) as (t' & Ht'). exists [], t'. split; [reflexivity|exact Ht']. }
  rewrite (shows_volume s o t HS Et). fold v.
  assert (Hroot : valid_item t 0).
  { destruct (sound_first u o t Hu HO Et) as (d & Hd). exists d. exact Hd. }
  destruct (sound_by_name u o t Hu HO Et 0%nat
              (fun n => una_utf8_compare u name n (v_byte_order v)) Hroot) as [Hdef Hval].
  { intros n. apply (uo_utf8 u Hu). }
  change (rbind (sub_nodes t 0) (sub_node_loop t (fun n => una_utf8_compare u name n (v_byte_order v))))
    with (sub_node_by_utf8_name u (v_byte_order v) t 0 name) in *.
  intros w. cbn [plift]. unfold pbind at 1. cbn [plift]. unfold pbind at 1.
  change (plift (sub_node_by_utf8_name u (v_byte_order v) t 0 name) w)
    with (sub_node_by_utf8_name u (v_byte_order v) t 0 name, w).
  destruct (sub_node_by_utf8_name u (v_byte_order v) t 0 name) as [[j|]| | |]; try contradiction.
  - destruct (Hval j eq_refl) as (d & Hd).
    pose proof (sound_item u o t Hu HO Et j d Hd) as HD.
    pose proof Hd as (n & Hn & Hnd).
    unfold pbind at 1. unfold node_value, plift. rewrite Hn, Hnd.
    unfold pbind, print, set_stream_fprint. cbn [p_out p_trace]. unfold pbind. cbn [p_out p_trace].
    pose proof (get_set_defined (pl_values (il_prop lib)) rd v d cp
                  (sf_volume u o HO) HD HB 0 (p_trace w)) as Hg.
    destruct (get_set (pl_values (il_prop lib)) rd v d cp 0 (p_trace w)) as [[[x c]| | |] t'] eqn:Eg;
      cbn [fst] in Hg; try contradiction; cbn [p_out p_trace].
    + cbv beta iota. pose proof (get_set_fine _ _ _ _ _ HB _ _ _ _ _ Eg) as Hx.
      destruct (set_prints lib text empty names date HL cp x Hx
                  {| p_out := p_out w ++ heading ++ [NL]; p_trace := t' |}) as (t'' & ->).
      exists (Some (heading ++ [10]) :: set_pieces lib text empty date cp x), t''. split.
      * exists d. split; [exact Hd|]. left. exists c, x, (p_trace w), t'. auto.
      * cbn [printed fst snd p_out]. rewrite <- !app_assoc. reflexivity.
    + exists [Some (heading ++ [10]); None], t'. split.
      * exists d. split; [exact Hd|]. right. exists (p_trace w), t'. auto.
      * cbn [printed fst snd p_out]. rewrite !app_nil_r. reflexivity.
  - exists [], (p_trace w). split; [reflexivity|]. unfold pret. cbn. rewrite app_nil_r. destruct w; reflexivity.
  - exists [None], (p_trace w). split; [reflexivity|]. cbn. rewrite app_nil_r. destruct w; reflexivity.
Qed.

Lemma file_prints s : shows s o -> prints (file_fprint s) (file_pieces (o_header o)).
Proof.
  intros (_ & _ & H1 & H2 & H3 & H4 & _). unfold file_fprint, file_pieces.
  pose proof (sf_volume u o HO) as HV.
  assert (S1 : 0 <= fh_sector_size (o_header o) <= 4294967295).
  { destruct (vo_ss _ HV) as (a & Ha & E). cbn [opened_volume v_sector_size] in E. rewrite E.
    pose proof (Z.pow_le_mono_r 2 a 15 ltac:(lia) ltac:(lia)). pose proof (Z.pow_nonneg 2 a ltac:(lia)). lia. }
  assert (S2 : 0 <= fh_short_sector_size (o_header o) <= 4294967295).
  { destruct (vo_sss _ HV) as (a & Ha & E). cbn [opened_volume v_short_sector_size] in E. rewrite E.
    pose proof (Z.pow_le_mono_r 2 a 15 ltac:(lia) ltac:(lia)). pose proof (Z.pow_nonneg 2 a ltac:(lia)). lia. }
  eapply prints_lift.
  { unfold get_size32. rewrite H3, (proj2 (Z.ltb_ge _ _)) by lia. reflexivity. }
  eapply prints_lift.
  { unfold get_size32. rewrite H4, (proj2 (Z.ltb_ge _ _)) by lia. reflexivity. }
  cbv beta. rewrite H1, H2, !str_text.
  match goal with
  | |- prints (pbind (print ?a) (fun _ => pbind (print ?b) (fun _ => pbind (print ?c) (fun _ => pbind (print ?d) _)))) _ =>
      apply (prints_same _ ([Some a] ++ [Some b] ++ [Some c] ++ [Some d] ++ [Some [NL]]))
  end.
  - cbn [printed app fst snd]. f_equal. rewrite !app_nil_r. change TAB with 9. change NL with 10. flat. reflexivity.
  - do 4 (apply prints_bind; [apply prints_print|]). apply prints_print.
Qed.

Lemma items_prints s : shows s o ->
  exists L, lists_all (o_tree o) L /\
    prints (items_fprint lib (file_endian s) (o_tree o))
      (items_pieces lib names (fh_byte_order (o_header o)) (o_tree o) L).
Proof.
  intros HS. assert (He : file_endian s = fh_byte_order (o_header o)).
  { destruct HS as (_ & _ & _ & _ & _ & _ & _ & H & _). unfold file_endian. now rewrite H. }
  rewrite He. unfold items_fprint, items_pieces, lists_all, get_root_item.
  destruct (o_tree o) as [t|] eqn:Et.
  - pose proof (sound_shape u o t Hu HO Et) as HT.
    destruct (sound_first u o t Hu HO Et) as (d & n & Hn & _).
    assert (Hk : (0 < length (tr_nodes t))%nat) by (apply nth_error_Some; congruence).
    destruct (item_prints lib text empty names date HL (fh_byte_order (o_header o)) t HT
                (length (tr_nodes t)) 0%nat 0%nat Hk ltac:(lia)) as (L & HLi & HP).
    exists L. split; [exact HLi|]. eapply prints_lift; [reflexivity|]. cbv beta iota.
    change (Some (text_of "Storage and stream items:" ++ [10]) ::
      map (item_piece (il_signed lib) names (fh_byte_order (o_header o)) t) L ++ [Some [10]])
      with (([Some (text_of "Storage and stream items:" ++ [10])] ++
      map (item_piece (il_signed lib) names (fh_byte_order (o_header o)) t) L) ++ [Some [10]]).
    apply prints_bind; [|apply prints_print]. apply prints_bind; [|exact HP].
    rewrite str_text. apply prints_print.
  - exists []. split; [reflexivity|]. eapply prints_lift; [reflexivity|]. cbv beta iota.
    apply (prints_same _ ([Some (text_of "No storage and stream items" ++ [10])] ++ [Some [10]])).
    + cbn [printed app fst snd]. rewrite <- app_assoc. reflexivity.
    + rewrite str_text. apply prints_bind; apply prints_print.
Qed.
End Run.

Theorem info_run_ok lib text empty names date u ev w allocation codepage :
  infolib_ok lib text empty names date -> una_ok u -> io_bytes (ev_reader ev) ->
  let rd := ev_reader ev in
  let r := olecfinfo lib u ev w allocation codepage in
  (r = (Ok false, []) /\
   (ev_is_open ev = false \/ ev_open ev = false \/ exists t, open_read u rd [] = (Err, t))) \/
  (exists o t L s1 s2,
     ev_is_open ev = true /\ ev_open ev = true /\ open_read u rd [] = (Ok o, t) /\
     lists_all (o_tree o) L /\
     information lib text empty date u rd (opened_volume o) (o_tree o) 1252 summary_name summary_heading s1 /\
     information lib text empty date u rd (opened_volume o) (o_tree o) 1252 document_name document_heading s2 /\
     let l := file_pieces (o_header o) ++
              items_pieces lib names (fh_byte_order (o_header o)) (o_tree o) L ++
              allocation_pieces allocation ++ s1 ++ s2 in
     r = (Ok (snd (printed l) && ev_close ev), fst (printed l))).
Proof.
  intros HL Hu HB rd r. unfold r, olecfinfo, file_open. fold rd.
  set (w1 := {| w_open := w_open w; w_own := w_own w + 1 |}).
  destruct (open_handle_cases u ev w1 new_file Own 1 Hu HB eq_refl eq_refl eq_refl)
    as [(io' & _ & w' & E & _ & _ & Hopen & _)|(io' & o & t & w' & Hk & Hs & HO & _ & _ & Hi & E & _ & _)].
  - left. rewrite E. split; [reflexivity|].
    destruct (ev_is_open ev); [|now left]. destruct (ev_open ev); [|right; now left].
    right. right. apply Hopen. repeat split; auto.
  - right. rewrite E. cbv beta iota. cbn [fs_io fs_handle fs_opened fs_data new_file fs_created].
    set (s := {| fs_io := io'; fs_handle := Some Own; fs_created := true; fs_opened := true;
                 fs_data := Some (data_of o) |}).
    pose proof (opened_sound u rd o t Hu HB HO) as HSo.
    assert (HS : shows s o) by (split; [discriminate|split; [reflexivity|exact Hs]]).
    assert (Hopen : ev_open ev = true).
    { destruct (ev_open ev) eqn:Eo; [reflexivity|]. exfalso. revert E. unfold file_open_handle.
      cbn [new_file fs_handle]. rewrite Hi, Eo. cbn. discriminate. }
    assert (Hcp : io_codepage io' = 1252) by (destruct Hk as [Hk _]; rewrite Hk; reflexivity).
    rewrite Hcp. change (file_tree s) with (o_tree o).
    destruct (items_prints lib text empty names date u o HL Hu HSo s HS) as (L & HLi & HPi).
    assert (HA : prints (if allocation then unallocated_fprint else pret tt) (allocation_pieces allocation)).
    { destruct allocation; [|apply prints_ret]. unfold unallocated_fprint, allocation_pieces. rewrite str_text.
      apply (prints_same _ ([Some (text_of "Unallocated blocks:" ++ [10])] ++ [Some [10]])).
      - cbn [printed app fst snd]. rewrite <- app_assoc. reflexivity.
      - apply prints_bind; apply prints_print. }
    pose proof (prints_some_then _ _ _ _
      (prints_prints_some _ _ (file_prints u o HSo s HS))
      (prints_some_then _ _ _ _ (prints_prints_some _ _ HPi)
        (prints_some_then _ _ _ _
          (prints_prints_some _ (allocation_pieces allocation)
             HA)
          (prints_some_then _ _ _ _
            (information_prints lib text empty names date u rd o HL Hu HB HSo s 1252
               (5 :: str "SummaryInformation") (str "Summary information:") HS)
            (information_prints lib text empty names date u rd o HL Hu HB HSo s 1252
               (5 :: str "DocumentSummaryInformation") (str "Document summary information:") HS)))))
      as HP.
    destruct (HP {| p_out := []; p_trace := [] |}) as (l & t' & HQ & HR). clear HP.
    change (io_bytes rd) in HB.
    destruct HQ as (a1 & b1 & -> & (a2 & b2 & -> & (a3 & b3 & -> & (s1 & s2 & H1 & H2 & ->) & ->) & ->) & ->).
    exists o, t, L, s1, s2. do 4 (split; [assumption|]).
    rewrite !str_text in H1, H2. split; [exact H1|]. split; [exact H2|]. cbv zeta.
    unfold summary_fprint, document_summary_fprint. rewrite HR.
    set (l := file_pieces (o_header o) ++ _). cbn [p_out app].
    destruct (snd (printed l)).
    + unfold file_close. cbn [s fs_handle fs_opened andb]. destruct (ev_close ev); reflexivity.
    + reflexivity.
Qed.
