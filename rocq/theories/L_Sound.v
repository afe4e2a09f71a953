(** Lemmas on files that were opened, also such whose tables could not be read
    for lack of memory. *)
From Coq Require Import ZArith List Bool Lia Sorted.
From Verif Require Import Base Spec_IO Spec_Stream Spec_Load Spec_Tree Spec_Open L_Base M_Table M_Header M_Load M_Stream
  M_Tree M_Open M_Item M_Mem Spec_Mem L_Tree L_Tree2 L_Tree3 L_Header L_Load L_Load2 L_Open L_Open2 L_Item L_Session
  L_Export3 L_Mem5 Spec_Export.
Import ListNotations.
Open Scope Z_scope.

Record sound_file (u : una) (o : opened) : Prop := {
  sf_volume : volume_ok (opened_volume o);
  sf_entries : entries_ok (o_entries o);
  sf_dirents : Forall dirent_ok (o_entries o);
  sf_tree : create_tree u (fh_byte_order (o_header o)) (o_entries o) = Ok (o_tree o)
}.

Lemma opened_sound u rd o t : una_ok u -> io_bytes rd -> open_read u rd [] = (Ok o, t) -> sound_file u o.
Proof.
  intros Hu HB HO. destruct (opened_entries u rd Hu HB o t HO) as (H1 & H2 & _). constructor; auto.
  - exact (opened_volume_ok u rd Hu HB o t HO).
  - exact (opened_tree u rd Hu HB o t HO).
Qed.

Lemma opens_sound u rd t a b o t' : una_ok u -> io_bytes rd -> opens u rd t a b o t' -> sound_file u o.
Proof.
  intros Hu HB (m & t1 & t2 & t3 & t4 & HH & _ & HS & HSS & HD & HT).
  destruct (proj2 (header_step rd t HB) _ _ _ HH) as (HF & _).
  assert (A : Forall is_u32 (o_sat o) /\ zlen (o_sat o) <= 33554432).
  { destruct HS as [[_ E]|(_ & _ & Hl & k & Hk)]; [|split; [rewrite Hk; apply zeros_fine|exact Hl]].
    destruct (step_sat rd (o_header o) HB HF (o_msat o) t2) as (x & t'' & E' & H). rewrite E in E'. congruence. }
  destruct A as [A1 A2]. pose proof (power_range _ (hf_ss _ HF)) as Hr.
  destruct (read_directory_cases rd (fh_byte_order (o_header o)) (fh_sector_size (o_header o)) (o_sat o)
              (fh_root_directory_sector_identifier (o_header o)) t4 (hf_ss _ HF) A1 A2 (hf_root _ HF))
    as [(d & Hd & _)|(_ & Hm & _ & l & t5 & Hd & Od)]; rewrite Hd in HD; [discriminate|].
  apply pair_equal_spec in HD as [HD _]. apply Ok_inj in HD. subst l.
  destruct (power_128 _ (hf_ss _ HF) Hm) as (H128 & Hss & _).
  assert (R128 : 128 <= fh_sector_size (o_header o) <= 32768) by lia.
  destruct (directory_ok rd _ _ _ _ _ _ _ HB R128 Hss Od) as (E1 & E2 & _).
  assert (R4 : 4 <= fh_sector_size (o_header o)) by lia.
  assert (B : Forall is_u32 (o_ssat o) /\ zlen (o_ssat o) <= 33554432).
  { destruct HSS as [[_ E]|(_ & _ & Hl & k & Hk)]; [|split; [rewrite Hk; apply zeros_fine|exact Hl]].
    destruct (read_ssat_outcome rd (fh_byte_order (o_header o)) (fh_sector_size (o_header o)) (o_sat o)
                (fh_ssat_sector_identifier (o_header o)) (fh_number_of_ssat_sectors (o_header o)) t3
                (hf_ss _ HF) ltac:(lia) A1 A2 (hf_ssat _ HF)) as (x & t'' & E' & H).
    { pose proof (hf_nssat _ HF) as Hn. unfold is_u32 in Hn. lia. }
    rewrite E in E'. apply pair_equal_spec in E' as [E' _]. apply Ok_inj in E'. subst x.
    destruct (ssat_outcome_ok _ _ _ _ _ _ _ _ _ R4 HB H) as (H1 & _ & H2). auto. }
  destruct B as [B1 B2].
  constructor; auto. constructor; cbn [opened_volume v_sector_size v_short_sector_size v_sat v_ssat v_container_start v_minimum_size]; auto.
  - destruct (hf_ss _ HF) as (x & Hx1 & Hx2). exists x. split; [|exact Hx2]. split; [|apply Hx1].
    assert (~ x < 7); [|lia]. intros Hlt. rewrite Hx2 in H128.
    assert (2 ^ x <= 2 ^ 6) by (apply Z.pow_le_mono_r; lia). change (2 ^ 6) with 64 in *. lia.
  - apply (hf_sss _ HF).
  - destruct (o_tree o) as [tr|]; [|apply u32_zero].
    destruct (create_tree_made _ _ _ _ Hu E1 HT) as (root & _ & Hin & _ & _ & -> & _).
    exact (do_sector _ (proj1 (Forall_forall _ _) E2 _ Hin)).
  - apply (hf_min _ HF).
Qed.

Section Sound.
Variables (u : una) (o : opened) (tr : tree).
Hypothesis Hu : una_ok u.
Hypothesis HS : sound_file u o.
Hypothesis Ht : o_tree o = Some tr.

Lemma sound_made : exists root, tree_made u (fh_byte_order (o_header o)) (o_entries o) root tr.
Proof. pose proof (sf_tree _ _ HS) as HC. rewrite Ht in HC. exact (create_tree_made u _ _ _ Hu (sf_entries _ _ HS) HC). Qed.

Lemma sound_shape : tree_shape tr.
Proof.
  destruct sound_made as (root & HM). pose proof (made_wf u _ _ root tr HM) as W.
  assert (HV : forall k j, item_sub tr k j -> exists d, nth_error (vw (final tr)) j = Some (d, Some k)).
  { intros k j Hs. eapply sub_vw; eauto. destruct Hs as (n & Hn & _). exists (n_entry n), n. auto. }
  constructor.
  - intros k j Hs. destruct (HV _ _ Hs) as (d & Hd).
    assert (Hj : (0 < j)%nat).
    { destruct j; [|lia]. destruct (wf_root _ _ W) as (d0 & vs & H0). rewrite H0 in Hd. discriminate. }
    destruct (wf_parent _ _ W _ _ _ Hj Hd) as (p & [= <-] & Hp). split; [exact Hp|].
    change (tr_nodes tr) with (t_nodes (final tr)). rewrite <- vw_length. apply nth_error_Some. congruence.
  - intros k k' j H1 H2. destruct (HV _ _ H1) as (d & Hd). destruct (HV _ _ H2) as (d' & Hd'). congruence.
  - intros k n Hn. change (tr_nodes tr) with (t_nodes (final tr)) in Hn.
    destruct (wf_subs _ _ W _ _ Hn) as ((ids & Hids & Hso) & _).
    apply (NoDup_map_inv (id_of (t_nodes (final tr)))). rewrite Hids. apply FinFun.Injective_map_NoDup.
    + intros a b E. congruence.
    + clear - Hso. induction Hso as [|a l Hs IH Hall]; constructor; auto.
      intros Hin. rewrite Forall_forall in Hall. specialize (Hall _ Hin). lia.
Qed.

Lemma sound_item k d : item_entry tr k d -> dirent_ok d.
Proof.
  intros Hk. destruct sound_made as (root & HM).
  apply (proj1 (Forall_forall _ _) (sf_dirents _ _ HS)). apply (made_incl u _ _ root tr HM).
  destruct Hk as (n & Hn & <-). unfold tree_entries. apply in_map. eapply nth_error_In; eauto.
Qed.

Lemma sound_first : exists d, item_entry tr 0 d.
Proof. destruct sound_made as (root & HM). exists root. eapply made_root; eauto. Qed.

Lemma sound_by_name k compare : (exists d, item_entry tr k d) -> (forall n, defined (compare n)) ->
  defined (rbind (sub_nodes tr k) (sub_node_loop tr compare)) /\
  forall j, rbind (sub_nodes tr k) (sub_node_loop tr compare) = Ok (Some j) -> exists d, item_entry tr j d.
Proof.
  intros (d & nd & Hn & Hd) Hc. unfold sub_nodes. rewrite Hn. cbn [rbind].
  assert (HV : Forall (fun j => exists d, item_entry tr j d) (n_subs nd)).
  { destruct sound_made as (root & HM). destruct (made_sorted u _ (o_entries o) root tr HM k nd Hn) as (ds & HF & _).
    clear - HF. induction HF; constructor; eauto. }
  destruct (sub_node_loop_cases tr compare (n_subs nd) Hc HV) as [[-> _]|(pre & j & post & E & _ & [[He ->]|[_ ->]])].
  - split; [exact I|discriminate].
  - split; [exact I|]. intros j' [= <-]. destruct He as (x & Hx & _). exists x; auto.
  - split; [exact I|discriminate].
Qed.
End Sound.
