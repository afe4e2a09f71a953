(** Lemmas on files that hold a document: opening them, and written files. *)
From Coq Require Import ZArith List Bool Lia Sorted Relations.
From Verif Require Import Base Spec_IO M_Header M_Table M_Load M_Stream M_Tree M_Open M_Item
  Spec_Stream Spec_Load Spec_Tree Spec_Open Spec_Content L_Base L_Load L_Stream2 L_Open2 L_Exact L_Tree L_Tree2 L_Tree3 L_Session
  P_Tree L_Export3 Spec_Write L_Write L_Write2 L_Write3 L_Write4 L_Write5 L_Write6 L_Write7 Spec_Stores L_Stores.
Import ListNotations.
Open Scope Z_scope.

Lemma no_targets l d : de_sub d = FREE -> forall s, ~ sub_item l d s.
Proof. intros E s (c & Hc & _). unfold sub_targets in Hc. rewrite E in Hc. destruct Hc. Qed.

Lemma contains_empty f v l ds fo : contains f v l ds fo -> (ds = [] <-> fo = Empty).
Proof. intros H. destruct H; split; congruence. Qed.

Lemma children_none l d : de_sub d = FREE -> children l d [].
Proof. intros E. split; [constructor|]. intros s. split; [intros []|intros H]. now apply no_targets in H. Qed.

Section Open.
Variables (u : una) (rd : reader) (f : list Z).
Hypothesis Hu : una_ok u.
Hypothesis HB : io_bytes rd.
Hypothesis HS : io_sound rd f.
Hypothesis HT : io_total rd f.

Lemma file_bytes : Forall is_byte f.
Proof.
  apply Forall_forall. intros b Hb. apply In_nth_error in Hb as (j & Hj).
  assert (Hz : znth f (Z.of_nat j) = Some b). { unfold znth. rewrite (proj2 (Z.ltb_ge (Z.of_nat j) 0)) by lia. now rewrite Nat2Z.id. }
  pose proof (znth_range _ _ _ Hz) as Hp. destruct (HT [] (Z.of_nat j) 1 ltac:(lia) ltac:(lia) ltac:(lia)) as (l & R1 & R2).
  destruct (HS [] (Z.of_nat j) 1 l ltac:(lia) ltac:(lia) R1 R2) as (_ & E). rewrite (slice_1 _ _ _ Hz) in E.
  assert (HF : Forall is_byte l) by (eapply HB; eauto). rewrite E in HF. now inversion HF.
Qed.

Lemma stored_opens h root doc : stores u f h root doc ->
  exists o t, open_read u rd [] = (Ok o, t) /\ o_header o = h /\ first_root (o_entries o) root /\
    (de_sub root = FREE <-> o_tree o = None) /\
    (o_tree o = None -> doc_items doc = Empty) /\
    (forall tr, o_tree o = Some tr -> exists nd,
       nth_error (tr_nodes tr) 0 = Some nd /\ n_entry nd = root /\
       (forall k x, nth_error (tr_nodes tr) k = Some x -> de_type (n_entry x) = 1 -> de_size (n_entry x) = 0) /\
       shows rd (opened_volume o) tr (n_subs nd) (doc_items doc)).
Proof.
  intros (msat & sat & ssat & l & ds & Hf & HF & HM & HL & HR & H0 & N1 & N2 & N3 & HC & HD).
  destruct (says_open u rd f Hu HB HS HT h msat sat ssat l HF HM HL) as (o & t & HO & E1 & _ & E2 & E3 & E4).
  exists o, t. split; [exact HO|]. split; [exact E1|]. rewrite E4. split; [exact HR|].
  pose proof (opened_tree u rd Hu HB o t HO) as HTr. rewrite E4 in HTr. unfold create_tree in HTr.
  rewrite (proj2 (find_root_first _ _) HR) in HTr.
  assert (Hn : de_sub root = FREE <-> o_tree o = None).
  { destruct l as [|e l'] eqn:El; [destruct HR as (_ & [|] & post & E & _); discriminate E|]. cbv iota in HTr.
    change UNUSED with FREE in HTr. destruct (de_sub root =? FREE) eqn:Ef.
    - apply Z.eqb_eq in Ef. apply Ok_inj in HTr. split; congruence.
    - apply Z.eqb_neq in Ef. destruct (process_entry _ _ _ _ _ _ _ _); try discriminate HTr. cbn [rbind] in HTr. apply Ok_inj in HTr.
      split; [congruence|]. rewrite <- HTr. discriminate. }
  split; [exact Hn|]. split.
  - intros Ht. apply Hn in Ht. apply (contains_empty _ _ _ _ _ HD). eapply children_unique; [exact HC|now apply children_none].
  - intros tr Ht. destruct (opened_made u rd Hu HB o t HO tr Ht) as (root' & HMd).
    assert (root' = root). { eapply opened_root_unique; eauto. now rewrite E4. } subst root'.
    destruct (made_root _ _ _ _ _ HMd) as (nd & Hk & Hnd). exists nd. split; [exact Hk|]. split; [exact Hnd|].
    assert (HR' : first_root (o_entries o) root) by now rewrite E4.
    assert (Hv : opened_volume o = volume_of h sat ssat root).
    { rewrite (volume_opened u rd o t tr root Hu HB HO Ht HR'). now rewrite E1, E2, E3. }
    rewrite <- Hv in HD. rewrite <- E4 in HD, HC. split.
    + eapply stored_no_data; eauto.
    + destruct (node_children u rd o t tr root Hu HB HO Ht HR' H0 0 nd Hk) as (ds' & F1 & F2). rewrite Hnd in F2.
      rewrite (children_unique _ _ _ _ F2 HC) in F1. eapply contains_shows; eauto.
Qed.

(** The converse. *)
Lemma shows_stored o t tr nd doc : open_read u rd [] = (Ok o, t) -> moderate (o_header o) -> o_tree o = Some tr ->
  nth_error (tr_nodes tr) 0 = Some nd -> de_id (n_entry nd) = 0 ->
  de_name (n_entry nd) = doc_name doc -> de_ctime (n_entry nd) = doc_ctime doc -> de_mtime (n_entry nd) = doc_mtime doc ->
  (forall k x, nth_error (tr_nodes tr) k = Some x -> de_type (n_entry x) = 1 -> de_size (n_entry x) = 0) ->
  shows rd (opened_volume o) tr (n_subs nd) (doc_items doc) ->
  stores u f (o_header o) (n_entry nd) doc.
Proof.
  intros HO HM Ht Hk H0 N1 N2 N3 HN HD.
  destruct (open_says u rd f Hu HB HS HT o t HO HM) as (HF & HL & _).
  destruct (opened_made u rd Hu HB o t HO tr Ht) as (root & HMd).
  destruct (made_root _ _ _ _ _ HMd) as (nd' & Hk' & Hnd). assert (nd' = nd) by congruence. subst nd'.
  assert (HR : first_root (o_entries o) root) by (apply find_root_first; exact (proj1 HMd)).
  rewrite Hnd in *. destruct (node_children u rd o t tr root Hu HB HO Ht HR H0 0 nd Hk) as (ds & F1 & F2). rewrite Hnd in F2.
  exists (o_msat o), (o_sat o), (o_ssat o), (o_entries o), ds.
  rewrite <- (volume_opened u rd o t tr root Hu HB HO Ht HR).
  split; [exact file_bytes|]. repeat (split; [assumption|]). eapply shows_contains; eauto.
Qed.
End Open.

(** * Files and documents *)
Lemma stores_root u f h root doc : stores u f h root doc -> de_type root = 5 /\ de_name root = doc_name doc /\
  de_ctime root = doc_ctime doc /\ de_mtime root = doc_mtime doc /\ de_id root = 0 /\ moderate h /\ Forall is_byte f.
Proof.
  intros (msat & sat & ssat & l & ds & Hf & HF & HM & HL & (HR & _) & H0 & N1 & N2 & N3 & HC & HD). auto 10.
Qed.

Lemma stores_unique u f h root doc h' root' doc' : una_ok u ->
  stores u f h root doc -> stores u f h' root' doc' -> h = h' /\ root = root' /\ doc = doc'.
Proof.
  intros Hu (msat & sat & ssat & l & ds & Hf & HF & HM & HL & HR & H0 & N1 & N2 & N3 & HC & HD)
    (msat' & sat' & ssat' & l' & ds' & _ & HF' & HM' & HL' & HR' & _ & N1' & N2' & N3' & HC' & HD').
  pose proof (file_reader_bytes f Hf) as B. pose proof (file_reader_sound f) as S. pose proof (file_reader_total f) as T.
  destruct (says_open u _ f Hu B S T _ _ _ _ _ HF HM HL) as (o & t & HO & E1 & _ & E3 & E4 & E5).
  destruct (says_open u _ f Hu B S T _ _ _ _ _ HF' HM' HL') as (o' & t' & HO' & E1' & _ & E3' & E4' & E5').
  rewrite HO in HO'. apply pair_equal_spec in HO' as (HO' & _). apply Ok_inj in HO'. subst o'.
  assert (root' = root). { apply find_root_first in HR, HR'. rewrite <- E5 in HR. rewrite <- E5' in HR'. congruence. }
  subst root'. split; [congruence|]. split; [reflexivity|]. rewrite <- E5 in HC, HD. rewrite <- E5' in HC', HD'.
  rewrite (children_unique _ _ _ _ HC' HC) in HD'. rewrite <- E1, <- E3, <- E4 in HD. rewrite <- E1', <- E3', <- E4' in HD'.
  pose proof (contains_unique _ _ _ _ _ HD _ HD'). destruct doc, doc'. cbn in *. congruence.
Qed.

Lemma entries_no_data fm fo : forall id ns nb d, In d (w_entries fm id ns nb fo) -> de_type d = 1 -> de_size d = 0.
Proof.
  induction fo as [|n c m s r IH|n c m a IHa r IHr]; intros id ns nb d H Ht; cbn [w_entries] in H.
  - destruct H.
  - destruct H as [<-|H]; [discriminate Ht|]. eapply IH; eauto.
  - destruct H as [<-|H]; [reflexivity|]. apply in_app_or in H as [H|H]; [eapply IHa|eapply IHr]; eauto.
Qed.

Lemma written_stored u fm doc : una_ok u -> writable fm doc ->
  comparable u (fm_order fm) (doc_name doc) -> names_ok (comparable u (fm_order fm)) (doc_items doc) ->
  stores u (write fm doc) (w_h fm doc) (w_root fm doc) doc.
Proof.
  intros Hu W HC HCs. pose proof (write_bytes fm doc W) as Hf. pose proof (file_reader_bytes _ Hf) as B.
  pose proof (file_reader_sound (write fm doc)) as S. pose proof (file_reader_total (write fm doc)) as T.
  destruct (written_opens u _ fm doc Hu W HC HCs B S T) as (o & t & H1 & H2 & H3 & H4 & H5).
  pose proof (written_tree u _ fm doc Hu W HCs B S T o t H1 H2 H3 H4 H5) as H.
  destruct (doc_items doc) as [|n c m s r|n c m a r] eqn:Ed.
  - eexists _, _, _, _, []. split; [exact Hf|]. split; [exact (write_says fm doc W)|]. split; [exact (write_moderate fm doc W)|].
    split; [apply (write_links fm doc W u HC); unfold w_items; rewrite Ed; exact HCs|]. split; [exact (directory_root fm doc)|].
    split; [reflexivity|]. split; [reflexivity|]. split; [reflexivity|]. split; [reflexivity|].
    split; [|rewrite Ed; constructor]. apply children_none. cbn [de_sub w_root]. unfold w_items. now rewrite Ed.
  - rewrite <- Ed in H. destruct H as (tr & nd & E1 & E2 & E3 & E4). rewrite <- H2, <- E3.
    eapply (shows_stored u (file_reader (write fm doc))); eauto; rewrite ?E3; try reflexivity.
    + rewrite H2. apply (write_moderate fm doc W).
    + intros k x Hk Ht. destruct (C22_entries_once u _ o t tr Hu B H1 E1) as (_ & _ & HI).
      assert (Hin : In (n_entry x) (o_entries o)). { apply HI. unfold tree_entries. apply in_map. eapply nth_error_In; eauto. }
      rewrite H5 in Hin. unfold w_directory in Hin. destruct Hin as [Hin|Hin]; [rewrite <- Hin in Ht; discriminate Ht|eapply entries_no_data; eauto].
  - rewrite <- Ed in H. destruct H as (tr & nd & E1 & E2 & E3 & E4). rewrite <- H2, <- E3.
    eapply (shows_stored u (file_reader (write fm doc))); eauto; rewrite ?E3; try reflexivity.
    + rewrite H2. apply (write_moderate fm doc W).
    + intros k x Hk Ht. destruct (C22_entries_once u _ o t tr Hu B H1 E1) as (_ & _ & HI).
      assert (Hin : In (n_entry x) (o_entries o)). { apply HI. unfold tree_entries. apply in_map. eapply nth_error_In; eauto. }
      rewrite H5 in Hin. unfold w_directory in Hin. destruct Hin as [Hin|Hin]; [rewrite <- Hin in Ht; discriminate Ht|eapply entries_no_data; eauto].
Qed.
