(** Lemmas on written property sets: the getters, and streams of documents. *)
From Coq Require Import ZArith List Bool Lia.
From Verif Require Import Base Spec_IO M_Table M_Load M_Stream M_Tree M_Item Spec_Stream Spec_Load Spec_Content Spec_Write
  M_Prop Spec_Prop Spec_SetWrite L_Base L_Header L_Prop L_Write L_SetWrite.
Import ListNotations.
Open Scope Z_scope.

(** * Values *)
Lemma znth_same {A} (l m : list A) : l = m -> forall k, znth l k = znth m k.
Proof. congruence. Qed.

Lemma view_property y x i j id v :
  set_view y = said Little x -> value_in x i j = Some (id, v) ->
  exists sec p, get_section y i = Ok sec /\ get_property sec j = Ok p /\ in_set y p /\
    pv_id p = id /\ pv_type p = type_of v /\ stored p = Some (content_of Little v).
Proof.
  intros HV HI. unfold value_in in HI. destruct (znth (st_sections x) i) as [sx|] eqn:Ei; [|discriminate].
  pose proof (f_equal snd HV) as Hs. unfold set_view, said in Hs. cbn [snd] in Hs.
  pose proof (znth_same _ _ Hs i) as Hi. rewrite !znth_map', Ei in Hi.
  destruct (znth (ps_sections y) i) as [sec|] eqn:Es; [|discriminate]. cbn [option_map] in Hi.
  assert (Hi' : section_view sec = (fst sx, map (fun p => (fst p, type_of (snd p), Some (content_of Little (snd p)))) (snd sx))) by congruence.
  clear Hi. apply (f_equal snd) in Hi'. cbn [snd section_view] in Hi'.
  pose proof (znth_same _ _ Hi' j) as Hj. rewrite !znth_map', HI in Hj.
  destruct (znth (sc_properties sec) j) as [p|] eqn:Ep; [|discriminate]. cbn [option_map fst snd] in Hj.
  assert (Hp : property_view p = (id, type_of v, Some (content_of Little v))) by congruence.
  exists sec, p. unfold get_section, get_property. rewrite Es, Ep. split; [reflexivity|]. split; [reflexivity|].
  split; [exists sec; split; eapply znth_In; eassumption|].
  unfold property_view in Hp. apply pair_equal_spec in Hp. destruct Hp as (Hp & H3). apply pair_equal_spec in Hp. tauto.
Qed.

Lemma value_in_ok x i j id v : set_ok x -> value_in x i j = Some (id, v) -> value_ok v.
Proof.
  intros H HI. unfold value_in in HI. destruct (znth (st_sections x) i) as [sx|] eqn:Ei; [|discriminate].
  pose proof (so_sections x H) as HS. rewrite Forall_forall in HS.
  destruct (HS sx (znth_In _ _ _ Ei)) as (_ & HF). rewrite Forall_forall in HF.
  exact (proj2 (HF (id, v) (znth_In _ _ _ HI))).
Qed.

Lemma stored_data lib p l : lib_copies lib -> stored p = Some l ->
  get_data_size lib p = Ok (zlen l) /\ get_data lib p (zlen l) = Ok l.
Proof.
  intros HL H. unfold stored in H. unfold get_data_size, get_data, on_value.
  destruct (pv_value p) as [w|]; [|discriminate].
  assert (E : match fv_data w with Some (l, _) => l | None => [] end = l) by (destruct (fv_data w) as [[? ?]|]; congruence).
  destruct (HL w) as (H1 & H2). rewrite E in H1, H2. rewrite H1, H2. auto.
Qed.

(** * Injectivity *)
Lemma bytes_of_injective e n x y : 0 <= x < 256 ^ Z.of_nat n -> 0 <= y < 256 ^ Z.of_nat n ->
  bytes_of e n x = bytes_of e n y -> x = y.
Proof. intros Hx Hy E. rewrite <- (number_bytes e n x Hx), <- (number_bytes e n y Hy). now rewrite E. Qed.

Lemma wide_inj l : forall m, Forall (fun c => 0 < c < 65536) l -> Forall (fun c => 0 < c < 65536) m ->
  flat_map (bytes_of Little 2) l = flat_map (bytes_of Little 2) m -> l = m.
Proof.
  induction l as [|a l IH]; intros [|b m] Hl Hm E; try reflexivity; try (cbn [flat_map] in E; discriminate).
  inversion_clear Hl as [|? ? Ha Hl']. inversion_clear Hm as [|? ? Hb Hm'].
  cbn [flat_map] in E.
  assert (E2 : bytes_of Little 2 a = bytes_of Little 2 b /\ flat_map (bytes_of Little 2) l = flat_map (bytes_of Little 2) m).
  { cbn [bytes_of le_bytes app] in E. cbn [bytes_of le_bytes]. split; [congruence|]. congruence. }
  destruct E2 as (E2 & E3). f_equal; [|now apply IH].
  apply (bytes_of_injective Little 2); [change (256 ^ Z.of_nat 2) with 65536; lia|change (256 ^ Z.of_nat 2) with 65536; lia|exact E2].
Qed.

Lemma value_inj v w : value_ok v -> value_ok w -> type_of v = type_of w ->
  content_of Little v = content_of Little w -> v = w.
Proof.
  intros Hv Hw HT HC.
  assert (NT : forall t, In t (map fst number_types) -> t <> 0x0b /\ t <> 0x48 /\ t <> 0x1e /\ t <> 0x1f /\ ~ In t blob_types).
  { intros t H. cbn in H. repeat (destruct H as [<-|H]; [repeat split; try lia; cbn; lia|]). destruct H. }
  assert (BT : forall t, In t blob_types -> t <> 0x0b /\ t <> 0x48 /\ t <> 0x1e /\ t <> 0x1f).
  { intros t H. cbn in H. repeat (destruct H as [<-|H]; [repeat split; lia|]). destruct H. }
  destruct v as [t x|b|l|l|l|t l], w as [t' x'|b'|l'|l'|l'|t' l']; cbn [type_of content_of value_ok] in *;
    try discriminate HT;
    try (exfalso; destruct Hv as (Hv & _); destruct (NT _ Hv) as (? & ? & ? & ? & ?); congruence);
    try (exfalso; destruct Hw as (Hw & _); destruct (NT _ Hw) as (? & ? & ? & ? & ?); congruence);
    try (exfalso; destruct Hv as (Hv & _); destruct (BT _ Hv) as (? & ? & ? & ?); congruence);
    try (exfalso; destruct Hw as (Hw & _); destruct (BT _ Hw) as (? & ? & ? & ?); congruence).
  - subst t'. f_equal. destruct Hv as (Ht & Hx). destruct Hw as (_ & Hx'). destruct (number_size_in t Ht) as (_ & Hn).
    apply (bytes_of_injective Little (Z.to_nat (number_size t))); rewrite ?Z2Nat.id by lia; assumption.
  - exfalso. subst t'. destruct Hv as (Hv & _). destruct Hw as (Hw & _). destruct (NT _ Hv) as (_ & _ & _ & _ & N). exact (N Hw).
  - destruct b, b'; congruence.
  - congruence.
  - apply app_inv_tail in HC. congruence.
  - apply app_inv_tail in HC. f_equal. apply wide_inj; tauto.
  - exfalso. subst t'. destruct Hv as (Hv & _). destruct Hw as (Hw & _). destruct (NT _ Hw) as (_ & _ & _ & _ & N). exact (N Hv).
  - congruence.
Qed.

Lemma map_inj_in {A B} (f : A -> B) (l m : list A) :
  (forall a b, In a l -> In b m -> f a = f b -> a = b) -> map f l = map f m -> l = m.
Proof.
  revert m. induction l as [|a l IH]; intros [|b m] Hf E; try discriminate; [reflexivity|].
  cbn [map] in E. assert (f a = f b /\ map f l = map f m) as (E1 & E2) by (split; congruence).
  f_equal; [apply Hf; [now left|now left|exact E1]|].
  apply IH; [|exact E2]. intros x y Hx Hy. apply Hf; now right.
Qed.

Lemma said_inj x y : set_ok x -> set_ok y -> said Little x = said Little y -> x = y.
Proof.
  intros Hx Hy H. unfold said in H. repeat (apply pair_equal_spec in H; destruct H as (H & ?)).
  destruct x as [f1 v1 c1 s1], y as [f2 v2 c2 s2]. pose proof (so_sections _ Hx) as HX. pose proof (so_sections _ Hy) as HY.
  cbn [st_format st_version st_class st_sections] in *.
  assert (E : s1 = s2); [|congruence]. clear - H0 HX HY.
  rewrite Forall_forall in HX, HY. revert H0. apply map_inj_in.
  intros [ca pa] [cb pb] Ha Hb E. cbn [fst snd] in E. apply pair_equal_spec in E. destruct E as (E1 & E2).
  f_equal; [exact E1|]. destruct (HX _ Ha) as (_ & Fa). destruct (HY _ Hb) as (_ & Fb). cbn [snd] in Fa, Fb. rewrite Forall_forall in Fa, Fb.
  revert E2. apply map_inj_in. intros [ia va] [ib vb] Hia Hib E. cbn [fst snd] in E.
  repeat (apply pair_equal_spec in E; destruct E as (E & ?)). f_equal; [exact E|].
  apply value_inj; [exact (proj2 (Fa _ Hia))|exact (proj2 (Fb _ Hib))|assumption|congruence].
Qed.

(** * Streams of documents *)
Section Doc.
Variable rd : reader.
Variable v : volume.
Variable t : tree.

Lemma shows_stream js fo : shows rd v t js fo -> forall i s, item_nth fo i = Some (inl s) ->
  exists j nd, nth_error js i = Some j /\ nth_error (tr_nodes t) j = Some nd /\
    is_readable_stream rd v (n_entry nd) s.
Proof.
  induction 1 as [|j js nd n c m s r H1 H2 H3 H4 H5 H6 H7 H8 IH|j js nd n c m a r H1 H2 _ H3 H4 H5 H6 H7 IH];
    intros i s' Hi; cbn [item_nth] in Hi.
  - discriminate.
  - destruct i as [|i]; [|exact (IH i s' Hi)]. assert (s' = s) by congruence. subst s'. exists j, nd. auto.
  - destruct i as [|i]; [discriminate|exact (IH i s' Hi)].
Qed.

Lemma shows_storage js fo : shows rd v t js fo -> forall i a, item_nth fo i = Some (inr a) ->
  exists j nd, nth_error js i = Some j /\ nth_error (tr_nodes t) j = Some nd /\ shows rd v t (n_subs nd) a.
Proof.
  induction 1 as [|j js nd n c m s r H1 H2 H3 H4 H5 H6 H7 H8 IH|j js nd n c m a r H1 H2 _ H3 H4 H5 H6 H7 IH];
    intros i a' Hi; cbn [item_nth] in Hi.
  - discriminate.
  - destruct i as [|i]; [discriminate|exact (IH i a' Hi)].
  - destruct i as [|i]; [|exact (IH i a' Hi)]. assert (a' = a) by congruence. subst a'. exists j, nd. auto.
Qed.

Lemma get_sub_item_nth k nd i j : nth_error (tr_nodes t) k = Some nd -> nth_error (n_subs nd) i = Some j ->
  get_sub_item t k (Z.of_nat i) = Ok j.
Proof.
  intros Hk Hj. unfold get_sub_item, sub_nodes. rewrite Hk. cbn [rbind]. unfold znth.
  rewrite (proj2 (Z.ltb_ge _ 0)) by lia. now rewrite Nat2Z.id, Hj.
Qed.

Lemma follow_stream path : forall k nd fo s, nth_error (tr_nodes t) k = Some nd -> shows rd v t (n_subs nd) fo ->
  stream_at fo path = Some s ->
  exists j d, follow t k path = Ok j /\ node_value t j = Ok d /\ is_readable_stream rd v d s.
Proof.
  induction path as [|i path IH]; intros k nd fo s Hk HS H; cbn [stream_at] in H; [discriminate|].
  destruct (item_nth fo i) as [[s'|a]|] eqn:Ei; [| |discriminate].
  - destruct path; [|discriminate]. assert (s' = s) by congruence. subst s'.
    destruct (shows_stream _ _ HS i s Ei) as (j & nd' & Hj & Hn & Hr).
    exists j, (n_entry nd'). cbn [follow]. rewrite (get_sub_item_nth k nd i j Hk Hj). cbn [rbind].
    split; [reflexivity|]. split; [|exact Hr]. unfold node_value. now rewrite Hn.
  - destruct (shows_storage _ _ HS i a Ei) as (j & nd' & Hj & Hn & Hs).
    destruct (IH j nd' a s Hn Hs H) as (j' & d & H1 & H2 & H3). exists j', d.
    cbn [follow]. rewrite (get_sub_item_nth k nd i j Hk Hj). cbn [rbind]. auto.
Qed.
End Doc.
