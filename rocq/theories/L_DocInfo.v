(** Lemmas on what olecfinfo tells of a document. *)
From Coq Require Import String ZArith List Bool Lia.
From Verif Require Import Base Spec_IO M_Table M_Header M_Load M_Stream M_Tree M_Open M_Item M_File
  M_Prop M_PyProp M_Info Spec_Stream Spec_Content Spec_Tree Spec_Prop Spec_PyProp Spec_Item Spec_Write Spec_Info
  L_Base X_Linear L_Prop3 L_Export L_Info2 L_Info3 L_Info4 L_Info5 L_Info6 P_Prop P_Info Spec_Doc L_Doc Spec_DocInfo.
Import ListNotations.
Open Scope Z_scope.

(** * The listing *)
Section Listing.
Variable rd : reader.
Variable v : volume.
Variable t : tree.
Variable names : list Z -> endian -> option (list Z).
Variable e : endian.
Variable name : list Z -> list Z.
Hypothesis Hsize : forall k nd, nth_error (tr_nodes t) k = Some nd -> de_type (n_entry nd) = 1 -> de_size (n_entry nd) = 0.

Lemma shows_pictured js fo : shows rd v t js fo -> names_ok (fun n => names n e = Some (name n)) fo ->
  pictured_all names e t js (pictures name fo).
Proof.
  induction 1 as [|j js nd n c m s r H1 H2 H3 H4 H5 H6 H7 H8 IH|j js nd n c m a r H1 H2 IHa H3 H4 H5 H6 H7 IH];
    cbn [names_ok pictures]; intros HN.
  - constructor.
  - destruct HN as (N1 & N2). constructor; [|auto].
    destruct H7 as (_ & _ & _ & _ & _ & f & _ & _ & _ & Hl & _). rewrite Hl.
    econstructor; [exact H1|rewrite H4; exact N1|rewrite H2; constructor].
  - destruct HN as (N1 & N2 & N3). constructor; [|auto].
    rewrite <- (Hsize j nd H1 H3). econstructor; [exact H1|rewrite H4; exact N1|auto].
Qed.
End Listing.

(** * The property sets *)
Lemma get_set_no_stream lib rd v d cp c t : de_type d = 1 -> get_set lib rd v d cp c t = (Err, t).
Proof. intros H. unfold get_set, pseek, stream_seek_offset. rewrite H. reflexivity. Qed.

Section Sets.
Variable lib : infolib.
Variable text : list Z -> fv_encoding -> option (list Z).
Variable empty : fv_type -> option (list Z).
Variable date : Z -> option (list Z).
Variable u : una.
Variable rd : reader.
Variable v : volume.
Variable t : tree.
Variable doc : document.
Hypothesis HL : lib_accepts (pl_values (il_prop lib)).
Hypothesis Hsize : forall k nd, nth_error (tr_nodes t) k = Some nd -> de_type (n_entry nd) = 1 -> de_size (n_entry nd) = 0.
Hypothesis HI : item_at rd v t doc Top 0.
Hypothesis HS : Forall (fun s => zlen s < 2 ^ 32 - 1) (streams (doc_items doc)).

Lemma information_shown same qs q heading l : In q qs ->
  compares (fun q n => una_utf8_compare u q n (v_byte_order v)) same qs doc ->
  information lib text empty date u rd v (Some t) 1252 q heading l ->
  set_shown lib text empty date same doc q heading l.
Proof.
  intros Hq HC H.
  pose proof (lookup_reached rd v t doc Hsize (fun q n => una_utf8_compare u q n (v_byte_order v)) same [q] Top 0%nat HI) as HA.
  cbn [below] in HA. unfold compares in HC.
  assert (HN : names_ok (fun n => forall q', In q' [q] -> una_utf8_compare u q' n (v_byte_order v) = Ok (same q' n)) (doc_items doc)).
  { revert HC. generalize (doc_items doc). induction f as [|n c m s r IH|n c m a IHa r IH]; cbn [names_ok].
    - auto.
    - intros (A & B). split; [|auto]. intros q' [<-|[]]. now apply A.
    - intros (A & B & C). split; [|auto]. intros q' [<-|[]]. now apply A. }
  specialize (HA HN). clear HN HC. cbn [reached lookup_names below] in HA.
  change (do subs <- sub_nodes t 0; sub_node_loop t (fun n => una_utf8_compare u q n (v_byte_order v)) subs)
    with (sub_node_by_utf8_name u (v_byte_order v) t 0 q) in HA.
  unfold set_shown. pose proof (members_streams doc (doc_items doc)) as HM.
  destruct (find (fun i => same q (name_of i)) (members (doc_items doc))) as [i|] eqn:Ef.
  - apply find_some in Ef as (Hin & _). specialize (HM i Hin) as (_ & HM).
    destruct HA as (k & HA & HK).
    assert (Hj : sub_node_by_utf8_name u (v_byte_order v) t 0 q = Ok (Some k)).
    { destruct (sub_node_by_utf8_name u (v_byte_order v) t 0 q) as [[k'|]| | |]; cbn [rbind lookup_names] in HA; congruence. }
    destruct HK as (nd & Hn & He & _ & Hr). assert (Hd : item_entry t k (n_entry nd)) by (exists nd; auto).
    unfold information in H. rewrite Hj in H. destruct H as (d & Hd' & H).
    rewrite (entry_fun t k d (n_entry nd) Hd' Hd) in H. clear d Hd'.
    destruct i as [n c m s|n c m a].
    + destruct H as [(c' & x & tr & tr' & Hg & ->)|(tr & tr' & Hg & ->)].
      * left. exists x. split; [|reflexivity].
        exact (C44_set_is_in_the_stream _ _ _ _ _ _ _ _ _ _ _ (readable_is_stream _ _ _ _ Hr) Hg).
      * right. split; [|reflexivity]. intros x Hx.
        assert (Hs : zlen s < 2 ^ 32 - 1) by (rewrite Forall_forall in HS; apply HS; eapply HM; reflexivity).
        destruct (C44_set_exact (pl_values (il_prop lib)) rd v (n_entry nd) s 1252 0 tr x Hr HL Hs ltac:(lia) Hx)
          as (y & c' & t' & Hg' & _). congruence.
    + cbn [entry_of] in He. destruct He as (He & _).
      destruct H as [(c' & x & tr & tr' & Hg & ->)|(tr & tr' & Hg & ->)]; [|reflexivity].
      rewrite (get_set_no_stream _ _ _ _ _ _ _ He) in Hg. discriminate.
  - unfold information in H.
    destruct (sub_node_by_utf8_name u (v_byte_order v) t 0 q) as [[k'|]| | |]; cbn [rbind lookup_names] in HA; try discriminate; auto.
Qed.
End Sets.

(** * What the overview tells *)
Lemma lines_inj_rest signed : forall a b r s, Forall line_clear a -> Forall line_clear b ->
  concat (map (line_text signed) a) ++ 10 :: r = concat (map (line_text signed) b) ++ 10 :: s -> a = b /\ r = s.
Proof.
  assert (No : forall l n z a r s, concat (map (line_text signed) ((l, n, z) :: a)) ++ r = 10 :: s ->
    clear_name n -> 0 <= z < 4294967296 -> False).
  { intros l n z a r s H [Hn _] Hz. cbn [map concat] in H. unfold line_text at 1 in H. cbn [fst snd] in H.
    rewrite item_line_body in H. pose proof (body_printable signed l n z) as HP.
    assert (HN : Forall is_byte n) by (eapply Forall_impl; [|exact Hn]; cbn; tauto).
    specialize (HP HN ltac:(lia)). pose proof (no_newline signed _ HP) as Hno.
    assert (Hne : item_body signed l n z <> []).
    { unfold item_body. intros E. apply (f_equal (@length Z)) in E. rewrite !app_length in E. cbn in E. lia. }
    destruct (item_body signed l n z) as [|c q]; [congruence|]. cbn in H. apply Hno. left. congruence. }
  induction a as [|[[l n] z] a IH]; intros [|[[l' n'] z'] b] r s Ha Hb H.
  - cbn in H. split; [reflexivity|congruence].
  - exfalso. inversion Hb as [|? ? [H1 H2] _]; subst. eapply (No l' n' z' b); [symmetry; exact H|exact H1|exact H2].
  - exfalso. inversion Ha as [|? ? [H1 H2] _]; subst. eapply (No l n z a); [exact H|exact H1|exact H2].
  - inversion Ha as [|? ? [H1 H2] Ha']; subst. inversion Hb as [|? ? [H3 H4] Hb']; subst. cbn [fst snd] in *.
    cbn [map concat] in H. unfold line_text in H at 1 3. cbn [fst snd] in H. rewrite !item_line_body, <- !app_assoc in H.
    cbn [app] in H.
    assert (HB : forall m, clear_name m -> Forall is_byte m).
    { intros m [Hm _]. eapply Forall_impl; [|exact Hm]. cbn. tauto. }
    apply first_split in H as [H5 H6].
    + apply body_inj in H5 as (-> & -> & ->); auto. destruct (IH b r s Ha' Hb' H6) as [-> ->]. auto.
    + apply (no_newline signed). apply body_printable; [auto|lia].
    + apply (no_newline signed). apply body_printable; [auto|lia].
Qed.

Lemma picture_tells_rest signed x y r s : clear x -> clear y ->
  picture_text signed 0 x ++ 10 :: r = picture_text signed 0 y ++ 10 :: s -> x = y /\ r = s.
Proof.
  intros Hx Hy H. rewrite !picture_lines in H.
  apply lines_inj_rest in H as [H ->]; [|now apply clear_lines..].
  destruct (flatten_inj x y 0%nat [] []) as [-> _]; cbn; auto. now rewrite !app_nil_r.
Qed.

Lemma integer_split x y c r s : 0 <= x < 10 ^ 20 -> 0 <= y < 10 ^ 20 -> c <> 45 -> ~ (48 <= c <= 57) ->
  integer x ++ c :: r = integer y ++ c :: s -> x = y /\ r = s.
Proof.
  intros Hx Hy Hc Hc' H.
  assert (HN : forall z, 0 <= z < 10 ^ 20 -> ~ In c (integer z)).
  { intros z Hz Hin. pose proof (integer_chars z ltac:(lia)) as HF. rewrite Forall_forall in HF. destruct (HF _ Hin); lia. }
  apply first_split in H as [H1 H2]; [|now apply HN..]. split; [|exact H2].
  apply (reads_fun (integer x)); [apply integer_reads; lia|]. rewrite H1. apply integer_reads. lia.
Qed.
