(** Lemmas on what olecfinfo tells of a damaged document. *)
From Coq Require Import String ZArith List Bool Lia.
From Verif Require Import Base Spec_IO M_Table M_Header M_Load M_Stream M_Tree M_Open M_Item M_File
  M_Prop M_PyProp M_Info Spec_Stream Spec_Content Spec_Tree Spec_Prop Spec_PyProp Spec_Item Spec_Write Spec_Info
  L_Base X_Linear L_Prop3 L_Export L_Info2 L_Info3 L_Info4 L_Info5 L_Info6 P_Prop P_Info Spec_Fault L_Fault2 Spec_Doc L_Doc
  Spec_DocInfo L_DocInfo Spec_Requests L_Requests L_Careful Spec_Salvage Spec_InfoDamage.
Import ListNotations.
Open Scope Z_scope.

(** * The sub items of the root *)
Lemma shows_item rd v t js fo : shows rd v t js fo -> forall j, In j js ->
  exists nd, nth_error (tr_nodes t) j = Some nd /\
    (de_type (n_entry nd) = 1 \/ exists s, is_readable_stream rd v (n_entry nd) s).
Proof.
  induction 1 as [|j js nd n c m s r H1 H2 H3 H4 H5 H6 H7 H8 IH|j js nd n c m a r H1 H2 IHa H3 H4 H5 H6 H7 IH]; intros k Hk.
  - destruct Hk.
  - destruct Hk as [<-|Hk]; [|auto]. exists nd. split; [exact H1|]. right. exists s. exact H7.
  - destruct Hk as [<-|Hk]; [|auto]. exists nd. auto.
Qed.

Lemma sub_node_in t cmp js j : sub_node_loop t cmp js = Ok (Some j) -> In j js.
Proof.
  induction js as [|k js IH]; cbn [sub_node_loop]; [discriminate|]. intros H.
  apply rbind_ok in H as (d & _ & H). apply rbind_ok in H as ([] & _ & H).
  - left. congruence.
  - right. auto.
Qed.

(** * One set, read by two I/O layers *)
Section Two.
Variable lib : infolib.
Variable text : list Z -> fv_encoding -> option (list Z).
Variable empty : fv_type -> option (list Z).
Variable date : Z -> option (list Z).
Variable u : una.
Variables rd rd0 : reader.
Variable f : list Z.
Variable v : volume.
Variable o : option tree.
Hypothesis HV : volume_ok v.
Hypothesis HD : forall t j d, o = Some t -> item_entry t j d -> dirent_ok d.
Hypothesis HS : io_sound rd f.
Hypothesis HS0 : io_sound rd0 f.
Hypothesis HT0 : io_total rd0 f.

Lemma information_two q heading l l0 :
  information lib text empty date u rd v o 1252 q heading l ->
  information lib text empty date u rd0 v o 1252 q heading l0 ->
  l = l0 \/ l = [Some heading; None] /\ exists r, l0 = Some heading :: r.
Proof.
  unfold information. destruct o as [t|] eqn:Eo; [|intros -> ->; auto].
  destruct (sub_node_by_utf8_name u (v_byte_order v) t 0 q) as [[j|]| | |] eqn:Ej.
  2-5: intros -> ->; auto.
  intros (d & Hd & H) (d0 & Hd0 & H0). rewrite (entry_fun t j d0 d Hd0 Hd) in H0. clear d0 Hd0.
  pose proof (HD t j d eq_refl Hd) as Hok.
  destruct H as [(c & x & tr & tr' & Hg & ->)|(tr & tr' & Hg & ->)].
  - left. destruct H0 as [(c0 & x0 & tr0 & tr0' & Hg0 & ->)|(tr0 & tr0' & Hg0 & ->)];
      destruct (careful_ok _ _ tr _ _ tr0 (get_set_careful _ rd rd0 f v d 1252 0 HS HS0 HT0 HV Hok) Hg) as (t1 & G); [|congruence].
    rewrite Hg0 in G. apply pair_equal_spec in G as [G _]. apply Ok_inj in G. apply pair_equal_spec in G as [-> _]. reflexivity.
  - right. split; [reflexivity|]. destruct H0 as [(c0 & x0 & tr0 & tr0' & Hg0 & ->)|(tr0 & tr0' & Hg0 & ->)]; eauto.
Qed.

(** The stream is delivered. *)
Lemma information_whole t fo q heading l l0 : o = Some t ->
  (exists nd, nth_error (tr_nodes t) 0 = Some nd /\ shows rd0 v t (n_subs nd) fo) ->
  information lib text empty date u rd v o 1252 q heading l ->
  information lib text empty date u rd0 v o 1252 q heading l0 ->
  of_item u v t q (can_read rd v) -> l = l0.
Proof.
  intros Et (nd0 & N0 & N1) H H0 HR. destruct (information_two q heading l l0 H H0) as [->|(-> & r & ->)]; [reflexivity|].
  rewrite Et in H, H0. unfold information in H, H0.
  destruct (sub_node_by_utf8_name u (v_byte_order v) t 0 q) as [[j|]| | |] eqn:Ej; try (symmetry in H; discriminate).
  destruct H as (d & Hd & H). destruct H0 as (d0 & Hd0 & H0). rewrite (entry_fun t j d0 d Hd0 Hd) in H0. clear d0 Hd0.
  pose proof (HD t j d Et Hd) as Hok.
  assert (Hj : In j (n_subs nd0)).
  { unfold sub_node_by_utf8_name, sub_nodes in Ej. rewrite N0 in Ej. cbn [rbind] in Ej. exact (sub_node_in _ _ _ _ Ej). }
  destruct (shows_item _ _ _ _ _ N1 j Hj) as (nd & N2 & N3).
  assert (Hn : item_entry t j (n_entry nd)) by (exists nd; auto). rewrite <- (entry_fun t j d (n_entry nd) Hd Hn) in N3.
  destruct H0 as [(c0 & x0 & tr0 & tr0' & Hg0 & E0)|(tr0 & tr0' & _ & E0)]; [|congruence].
  destruct N3 as [N3|(s & R1 & R2 & R3 & _ & R5 & _)]; [rewrite (get_set_no_stream _ _ _ _ _ _ _ N3) in Hg0; discriminate|].
  destruct H as [(c & x & tr & tr' & Hg & E)|(tr & tr' & Hg & _)].
  - destruct (careful_ok _ _ tr _ _ tr0 (get_set_careful _ rd rd0 f v d 1252 0 HS HS0 HT0 HV Hok) Hg) as (t1 & G).
    rewrite Hg0 in G. apply pair_equal_spec in G as [G _]. apply Ok_inj in G. apply pair_equal_spec in G as [-> _]. congruence.
  - destruct (careful_ok _ _ tr0 _ _ tr (get_set_careful _ rd0 rd0 f v d 1252 0 HS0 HS0 HT0 HV Hok) Hg0) as (t1 & G).
    rewrite <- (get_set_alike _ rd rd0 f v d 1252 0 HS HS0 HT0 R1 R2 R3 R5 (HR j d Ej Hd) tr) in G. congruence.
Qed.
End Two.
