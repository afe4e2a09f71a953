(** Lemmas on what olecfinfo prints: the lines of the listing and what is shown
    of a property set. *)
From Coq Require Import String ZArith List Bool Lia.
From Verif Require Import Base Spec_IO M_Table M_Header M_Load M_Stream M_Tree M_Open M_Item M_Mount M_File
  M_Prop M_PyProp M_Info Spec_Stream Spec_Content Spec_Tree Spec_Prop Spec_PyProp Spec_Info Spec_Export
  L_Base L_Open2 L_Export3 L_Prop3 L_Info2 L_Info3 L_Info4.
Import ListNotations.
Open Scope Z_scope.

Lemma entry_fun t k d d' : item_entry t k d -> item_entry t k d' -> d = d'.
Proof. intros (n & Hn & <-) (n' & Hn' & <-). congruence. Qed.

Lemma opened_list u rd o t tr : una_ok u -> io_bytes rd -> open_read u rd [] = (Ok o, t) -> o_tree o = Some tr ->
  exists L, listed tr 0 0 L.
Proof.
  intros Hu HB HO Ht. pose proof (opened_shape u rd o t tr Hu HB HO Ht) as HT.
  destruct (opened_first u rd o t tr Hu HB HO Ht) as (d & n & Hn & _).
  assert (Hk : (0 < length (tr_nodes tr))%nat) by (apply nth_error_Some; congruence).
  assert (G : forall fuel k level, (k < length (tr_nodes tr))%nat -> (length (tr_nodes tr) - k <= fuel)%nat ->
            exists L, listed tr level k L).
  { induction fuel as [|fuel IH]; intros k level Hk' Hf; [lia|].
    destruct (nth_error (tr_nodes tr) k) as [nd|] eqn:En; [|apply nth_error_None in En; lia].
    assert (Hs : forall subs, (forall j, In j subs -> In j (n_subs nd)) -> exists L, listed_all tr (S level) subs L).
    { induction subs as [|j subs IHs]; intros Hin; [exists []; constructor|].
      assert (Hj : item_sub tr k j) by (exists nd; split; [exact En|apply Hin; now left]).
      pose proof (ts_later _ HT _ _ Hj) as Hl.
      destruct (IH j (S level)) as (L1 & H1); [|lia|].
      { lia. }
      destruct IHs as (L2 & H2); [intros x Hx; apply Hin; now right|].
      exists (L1 ++ L2). now constructor. }
    destruct (Hs (n_subs nd)) as (L & HL); [auto|]. eexists. econstructor; eauto. }
  exact (G _ 0%nat 0%nat Hk (le_n _)).
Qed.

Lemma item_piece_line lib text empty names date u rd o t tr e x line :
  infolib_ok lib text empty names date -> una_ok u -> io_bytes rd ->
  open_read u rd [] = (Ok o, t) -> o_tree o = Some tr ->
  item_piece (il_signed lib) names e tr x = Some line ->
  exists body, line = body ++ [10] /\ Forall (printable (il_signed lib)) body /\ ~ In 10 body.
Proof.
  intros HL Hu HB HO Ht H. unfold item_piece in H.
  destruct (nth_error (tr_nodes tr) (snd x)) as [n|] eqn:En; [|discriminate].
  destruct (names (de_name (n_entry n)) e) as [name|] eqn:Ena; [|discriminate].
  injection H as <-. rewrite item_line_body.
  assert (Hd : dirent_ok (n_entry n)) by (eapply opened_item_ok; eauto; exists n; split; [exact En|reflexivity]).
  assert (HP : Forall (printable (il_signed lib)) (item_body (il_signed lib) (fst x) name (de_size (n_entry n)))).
  { apply body_printable.
    - pose proof (ik_name _ _ _ _ _ HL (de_name (n_entry n)) e) as Hn. rewrite Ena in Hn. tauto.
    - destruct Hd. unfold is_u32 in *. change (10 ^ 20) with 100000000000000000000. lia. }
  eexists. split; [reflexivity|]. split; [exact HP|]. eapply no_newline; eauto.
Qed.

(** The pieces of a set depend on what it says only. *)
Section View.
Variables (lib : infolib) (text : list Z -> fv_encoding -> option (list Z))
  (empty : fv_type -> option (list Z)) (date : Z -> option (list Z)) (cp : Z).

Lemma numbered_concat {A B C : Type} (f : nat * A -> list C) (v : A -> B) :
  (forall i a a', v a = v a' -> f (i, a) = f (i, a')) ->
  forall l l', map v l = map v l' -> concat (map f (numbered l)) = concat (map f (numbered l')).
Proof.
  intros Hf. unfold numbered. generalize 1%nat as k. intros k l. revert k.
  induction l as [|a l IH]; intros k [|a' l'] H; try discriminate; [reflexivity|].
  cbn [map] in H. injection H as H1 H2. cbn [length seq combine map concat].
  now rewrite (Hf k _ _ H1), (IH (S k) _ H2).
Qed.

Lemma property_pieces_view e class i p p' : property_view p = property_view p' ->
  property_pieces lib text empty date cp e class (i, p) = property_pieces lib text empty date cp e class (i, p').
Proof.
  unfold property_view. intros H. injection H as H1 H2 H3.
  unfold property_pieces, identifier_line, type_line, data_piece. cbn [fst snd]. now rewrite H1, H2, H3.
Qed.

Lemma map_zlen {A B : Type} (v : A -> B) l l' : map v l = map v l' -> zlen l = zlen l'.
Proof. intros H. unfold zlen. rewrite <- (map_length v l), H, map_length. reflexivity. Qed.

Lemma section_pieces_view e i x x' : section_view x = section_view x' ->
  section_pieces lib text empty date cp e (i, x) = section_pieces lib text empty date cp e (i, x').
Proof.
  unfold section_view. intros H. injection H as H1 H2.
  unfold section_pieces. cbn [fst snd]. rewrite H1, (map_zlen _ _ _ H2). f_equal.
  eapply numbered_concat; [|exact H2]. intros. now apply property_pieces_view.
Qed.

Lemma set_pieces_view x x' : set_view x = set_view x' ->
  set_pieces lib text empty date cp x = set_pieces lib text empty date cp x'.
Proof.
  unfold set_view. intros H. injection H as H1 H2 H3 H4 H5 H6.
  unfold set_pieces. rewrite H4, H1, (map_zlen _ _ _ H6). f_equal.
  eapply numbered_concat; [|exact H6]. intros. now apply section_pieces_view.
Qed.
End View.
