(** Lemmas on written files: the document that is read back. *)
From Coq Require Import ZArith List Bool Lia.
From Verif Require Import Base Spec_IO M_Header M_Table M_Load M_Stream M_Tree M_Open M_Item
  Spec_Stream Spec_Load Spec_Tree Spec_Open Spec_Content Spec_Write L_Base L_Load L_Load2 L_Header L_Stream L_Stream2 L_Open2 L_Exact
  L_Tree L_Tree2 L_Tree3 L_Session L_Fuse L_Write L_Write2 L_Write3 L_Write4 L_Write5 L_Write6.
Import ListNotations.
Open Scope Z_scope.

Lemma slice_all (s : list Z) : slice s 0 (zlen s) = s.
Proof. unfold slice, zlen. rewrite Nat2Z.id. cbn [Z.to_nat skipn]. apply firstn_all. Qed.

(** * Reading whole streams *)
Lemma read_whole rd v d s t : is_readable_stream rd v d s -> zlen s <= 2 ^ 30 \/ 4 <= stream_sector_size v d ->
  exists c t', stream_read_buffer rd v d 0 (de_size d) (de_size d) t = (Ok (s, c), t').
Proof.
  intros HR Hf. pose proof HR as (_ & HD & _ & _ & _ & f & _ & _ & Hty & Hlen & _). pose proof (zlen_nonneg s).
  pose proof (do_size _ HD) as Hu. unfold is_u32 in Hu. destruct (Z.eq_dec (de_size d) 0) as [E|E].
  - rewrite E. assert (s = []) by (destruct s; [reflexivity|rewrite zlen_cons in Hlen; pose proof (zlen_nonneg s); lia]). subst s.
    exists 0, t. unfold stream_read_buffer. rewrite Hty, E. reflexivity.
  - destruct (read_buffer_full rd v d s 0 (de_size d) t HR) as (t' & H'); try lia.
    + unfold SSIZE_MAX. lia.
    + unfold few_sectors. rewrite <- Hlen. change (2 ^ 30) with 1073741824 in Hf. destruct Hf; auto.
    + rewrite <- Hlen in *. rewrite slice_all in H'. eauto.
Qed.

Lemma stream_sectors v d : 4 <= v_sector_size v -> 4 <= v_short_sector_size v -> 4 <= stream_sector_size v d.
Proof. intros. unfold stream_sector_size. destruct (is_short v d); assumption. Qed.

(** * The client *)
Section Client.
Variable rd : reader.
Variable v : volume.
Variable t : tree.

Definition few_in (x : forest) : Prop :=
  (4 <= v_sector_size v /\ 4 <= v_short_sector_size v) \/ Forall (fun s => zlen s <= 2 ^ 30) (streams x).

Lemma sub_item_at k nd pre j js : nth_error (tr_nodes t) k = Some nd -> n_subs nd = pre ++ j :: js ->
  get_sub_item t k (zlen (n_subs nd) - Z.of_nat (S (length js))) = Ok j.
Proof.
  intros Hk E. unfold get_sub_item, sub_nodes. rewrite Hk. cbn [rbind]. rewrite E, zlen_app, zlen_cons.
  replace (zlen pre + _ - _) with (zlen pre) by (unfold zlen; lia).
  rewrite znth_app_r by lia. rewrite Z.sub_diag. reflexivity.
Qed.

Lemma items_from_shows below js x : shows rd v t js x -> few_in x ->
  (forall j nd a, nth_error (tr_nodes t) j = Some nd -> shows rd v t (n_subs nd) a -> few_in a -> (depth a < depth x)%nat -> below j = Some a) ->
  forall k nd pre, nth_error (tr_nodes t) k = Some nd -> n_subs nd = pre ++ js ->
    items_from rd v t below k (zlen (n_subs nd)) (length js) = Some x.
Proof.
  intros HS. induction HS as [|j js nd n c m s r Hj Hsub Hty Hn Hc Hm HR HS IH|j js nd n c m a r Hj Ha _ Hty Hn Hc Hm HS IH];
    intros HF HB k nd0 pre Hk E; cbn [items_from length]; [reflexivity| |].
  - rewrite (sub_item_at k nd0 pre j js Hk E). unfold node_value. rewrite Hj.
    rewrite (IH) with (pre := pre ++ [j]); auto.
    + rewrite Hty. change (2 =? 2) with true. cbv iota.
      destruct (read_whole rd v (n_entry nd) s [] HR) as (c' & t' & ->).
      { destruct HF as [[H1 H2]|HF]; [right; now apply stream_sectors|]. left. now inversion HF. }
      now subst.
    + destruct HF as [HF|HF]; [now left|right]. now inversion HF.
    + now rewrite <- app_assoc.
  - rewrite (sub_item_at k nd0 pre j js Hk E). unfold node_value. rewrite Hj.
    assert (HF' : few_in a /\ few_in r).
    { destruct HF as [HF|HF]; [split; now left|]. cbn [streams] in HF. apply Forall_app in HF as [H1 H2]. split; now right. }
    rewrite (IH) with (pre := pre ++ [j]); auto.
    + rewrite Hty. change (1 =? 2) with false. cbv iota. rewrite (HB j nd a Hj Ha (proj1 HF')); [now subst|]. cbn [depth]. lia.
    + apply HF'.
    + intros j' nd' a' H1 H2 H3 H4. apply (HB j' nd' a' H1 H2 H3). cbn [depth]. lia.
    + now rewrite <- app_assoc.
Qed.

Lemma items_below_shows fuel : forall k nd x, nth_error (tr_nodes t) k = Some nd -> shows rd v t (n_subs nd) x -> few_in x ->
  (depth x <= fuel)%nat -> items_below rd v t fuel k = Some x.
Proof.
  induction fuel as [|fuel IH]; intros k nd x Hk HS HF Hd.
  - exfalso. assert (1 <= depth x)%nat; [|lia]. clear. induction x; cbn [depth]; lia.
  - cbn [items_below]. unfold get_number_of_sub_items, sub_nodes. rewrite Hk. cbn [rbind]. unfold zlen at 2. rewrite Nat2Z.id.
    apply items_from_shows with (pre := []); auto. intros j nd' a H1 H2 H3 H4. apply (IH j nd' a H1 H2 H3). lia.
Qed.
End Client.

(** * Opening a written file *)
Section Open.
Variable u : una.
Variable rd : reader.
Variable fm : format.
Variable doc : document.
Hypothesis Hu : una_ok u.
Hypothesis W : writable fm doc.
Hypothesis HC : comparable u (fm_order fm) (doc_name doc).
Hypothesis HCs : names_ok (comparable u (fm_order fm)) (doc_items doc).
Hypothesis HB : io_bytes rd.
Hypothesis HS : io_sound rd (write fm doc).
Hypothesis HT : io_total rd (write fm doc).

Lemma written_opens : exists o t, open_read u rd [] = (Ok o, t) /\ o_header o = w_h fm doc /\
  o_sat o = w_sat fm doc /\ o_ssat o = w_ssat fm doc /\ o_entries o = w_directory fm doc.
Proof.
  destruct (says_open u rd _ Hu HB HS HT _ _ _ _ _ (write_says fm doc W) (write_moderate fm doc W)) as (o & t & H1 & H2 & H3 & H4 & H5 & H6).
  - exact (write_links fm doc W u HC HCs).
  - exists o, t. auto.
Qed.

Lemma written_tree o t : open_read u rd [] = (Ok o, t) -> o_header o = w_h fm doc ->
  o_sat o = w_sat fm doc -> o_ssat o = w_ssat fm doc -> o_entries o = w_directory fm doc ->
  match doc_items doc with
  | Empty => o_tree o = None
  | _ => exists tr nd, o_tree o = Some tr /\ nth_error (tr_nodes tr) 0 = Some nd /\ n_entry nd = w_root fm doc /\
           shows rd (opened_volume o) tr (n_subs nd) (doc_items doc)
  end.
Proof.
  intros HO E1 E2 E3 E4. pose proof (opened_tree u rd Hu HB o t HO) as HTr. rewrite E4 in HTr.
  pose proof (proj2 (find_root_first _ _) (directory_root fm doc)) as HFR.
  assert (G : doc_items doc = Empty \/ exists tr, o_tree o = Some tr).
  { unfold create_tree in HTr. rewrite HFR in HTr. change (w_directory fm doc) with (w_root fm doc :: w_entries fm 1 0 (w_big_at fm doc) (w_items doc)) in HTr.
    cbv iota in HTr. cbn [de_sub w_root] in HTr. unfold w_items in HTr. destruct (doc_items doc); [now left| |]; right.
    - change (1 =? UNUSED) with false in HTr. cbv iota in HTr. destruct (process_entry _ _ _ _ _ _ _ _) as [st| | |]; try discriminate HTr.
      cbn [rbind] in HTr. injection HTr as HTr. eauto.
    - change (1 =? UNUSED) with false in HTr. cbv iota in HTr. destruct (process_entry _ _ _ _ _ _ _ _) as [st| | |]; try discriminate HTr.
      cbn [rbind] in HTr. injection HTr as HTr. eauto. }
  assert (G2 : forall tr, o_tree o = Some tr -> exists nd, nth_error (tr_nodes tr) 0 = Some nd /\ n_entry nd = w_root fm doc /\
           shows rd (opened_volume o) tr (n_subs nd) (doc_items doc)).
  { intros tr Ht. destruct (opened_made u rd Hu HB o t HO tr Ht) as (root & HM).
    assert (root = w_root fm doc). { eapply opened_root_unique; eauto. rewrite E4. apply directory_root. }
    subst root. rewrite E4 in HM. destruct (made_root _ _ _ _ _ HM) as (nd & Hk & Hnd). exists nd. split; [exact Hk|]. split; [exact Hnd|].
    assert (V : volume_is fm doc (opened_volume o)).
    { constructor; cbn [opened_volume v_sector_size v_short_sector_size v_sat v_ssat v_container_start v_minimum_size];
        rewrite ?E1, ?E2, ?E3; try reflexivity.
      - eapply opened_volume_ok; eauto.
      - rewrite Ht. destruct HM as (_ & _ & _ & _ & -> & _). reflexivity. }
    pose proof (directory_placed fm doc) as HP.
    apply (shows_items fm doc W rd HS HT u _ tr HM _ V (doc_items doc) 1 0 (w_big_at fm doc)); [exact HP|apply (ready_all fm doc W)|].
    apply (node_subs fm doc W u _ tr HM 0 nd 1 0 (w_big_at fm doc) (w_items doc) Hk HP). rewrite Hnd. reflexivity. }
  destruct (doc_items doc) eqn:Ed.
  - unfold create_tree in HTr. rewrite HFR in HTr. cbn [de_sub w_root] in HTr. unfold w_items in HTr. rewrite Ed in HTr.
    cbn in HTr. unfold w_directory in HTr. congruence.
  - destruct G as [G|(tr & G)]; [discriminate G|]. destruct (G2 tr G) as (nd & H). eauto.
  - destruct G as [G|(tr & G)]; [discriminate G|]. destruct (G2 tr G) as (nd & H). eauto.
Qed.

End Open.
