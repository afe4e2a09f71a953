(** Lemmas on written files: the contents of streams and the items. *)
From Coq Require Import ZArith List Bool Lia Sorted Relations Relation_Operators.
From Verif Require Import Base Spec_IO M_Header M_Table M_Load M_Stream M_Tree M_Open M_Item
  Spec_Stream Spec_Load Spec_Tree Spec_Open Spec_Content Spec_Write L_Base L_Load L_Load2 L_Header L_Stream L_Open2 L_Exact
  L_Tree L_Tree2 L_Tree3 L_Session L_Write L_Write2 L_Write3 L_Write4 L_Write5.
Import ListNotations.
Open Scope Z_scope.

Section Items.
Variable fm : format.
Variable doc : document.
Hypothesis W : writable fm doc.

Notation ss := (w_ss fm).
Notation sss := (w_sss fm).
Notation fo := (w_items doc).
Notation f := (write fm doc).

Variable rd : reader.
Hypothesis HS : io_sound rd f.
Hypothesis HT : io_total rd f.

(** The volume of the file. *)
Record volume_is (v : volume) : Prop := {
  vi_ok : volume_ok v;
  vi_ss : v_sector_size v = ss;
  vi_sss : v_short_sector_size v = sss;
  vi_min : v_minimum_size v = fm_minimum fm;
  vi_sat : v_sat v = w_sat fm doc;
  vi_ssat : v_ssat v = w_ssat fm doc;
  vi_start : v_container_start v = if w_n_con fm doc =? 0 then EOC else w_con_at fm doc
}.

(** Where the streams of a forest are. *)
Definition data_at (k base : Z) (bytes : list Z) (l : list (list Z)) : Prop :=
  exists pre post, bytes = pre ++ w_data k l ++ post /\ zlen pre = base * k.

Record ready (ns nb : Z) (x : forest) : Prop := {
  rd_shorts : chains_at (w_ssat fm doc) sss ns (w_shorts fm x);
  rd_longs : chains_at (w_sat fm doc) ss nb (w_longs fm x);
  rd_short_data : data_at sss ns (w_short_bytes fm doc) (w_shorts fm x);
  rd_long_data : data_at ss (nb - w_big_at fm doc) (p_big fm doc) (w_longs fm x);
  rd_ns : 0 <= ns;
  rd_nb : w_big_at fm doc <= nb;
  rd_bytes : Forall (fun s => Forall is_byte s /\ zlen s < 2 ^ 32) (streams x)
}.

Lemma data_at_app k base bytes a b : 0 < k -> data_at k base bytes (a ++ b) -> data_at k base bytes a /\ data_at k (base + w_blocks k a) bytes b.
Proof.
  intros Hk (pre & post & -> & Hp). rewrite w_data_app, <- app_assoc. split.
  - exists pre, (w_data k b ++ post). auto.
  - exists (pre ++ w_data k a), post. rewrite <- app_assoc. split; [reflexivity|]. rewrite zlen_app, zlen_w_data by exact Hk. lia.
Qed.

Lemma ready_all : ready 0 (w_big_at fm doc) fo.
Proof.
  constructor.
  - apply ssat_shorts.
  - apply (sat_big fm doc W).
  - exists [], []. rewrite app_nil_r. split; reflexivity.
  - exists [], []. rewrite app_nil_r, Z.sub_diag. split; reflexivity.
  - lia.
  - lia.
  - apply W.
Qed.

Lemma ready_stream ns nb n c m s r : ready ns nb (AddStream n c m s r) ->
  let b := blocks (if w_small fm s then sss else ss) (zlen s) in
  ready (if w_small fm s then ns + b else ns) (if w_small fm s then nb else nb + b) r.
Proof.
  intros [H1 H2 H3 H4 H5 H6 H7] b. pose proof (ss_gt0 _ _ W) as Hss. pose proof (sss_gt0 _ _ W) as Hsss.
  rewrite w_shorts_stream in *. rewrite w_longs_stream in *. cbn [streams] in H7. inversion H7; subst.
  apply chains_at_app in H1 as [H1 H1']; [|exact Hsss]. apply chains_at_app in H2 as [H2 H2']; [|exact Hss].
  apply data_at_app in H3 as [H3 H3']; [|exact Hsss]. apply data_at_app in H4 as [H4 H4']; [|exact Hss].
  unfold b. pose proof (blocks_nonneg sss (zlen s) Hsss (zlen_nonneg s)). pose proof (blocks_nonneg ss (zlen s) Hss (zlen_nonneg s)).
  destruct (w_small fm s); cbn [w_blocks fold_right] in *; rewrite ?Z.add_0_r in *; constructor; auto; try lia.
  replace (nb + blocks ss (zlen s) - w_big_at fm doc) with (nb - w_big_at fm doc + blocks ss (zlen s)) by lia. exact H4'.
Qed.

Lemma ready_storage ns nb n c m a r : ready ns nb (AddStorage n c m a r) ->
  ready ns nb a /\ ready (ns + w_blocks sss (w_shorts fm a)) (nb + w_blocks ss (w_longs fm a)) r.
Proof.
  intros [H1 H2 H3 H4 H5 H6 H7]. pose proof (ss_gt0 _ _ W) as Hss. pose proof (sss_gt0 _ _ W) as Hsss.
  rewrite w_shorts_storage in *. rewrite w_longs_storage in *. cbn [streams] in H7. apply Forall_app in H7 as [H7 H7'].
  apply chains_at_app in H1 as [H1 H1']; [|exact Hsss]. apply chains_at_app in H2 as [H2 H2']; [|exact Hss].
  apply data_at_app in H3 as [H3 H3']; [|exact Hsss]. apply data_at_app in H4 as [H4 H4']; [|exact Hss].
  pose proof (w_blocks_nonneg sss (w_shorts fm a) Hsss). pose proof (w_blocks_nonneg ss (w_longs fm a) Hss).
  split; constructor; auto; try lia.
  replace (nb + w_blocks ss (w_longs fm a) - w_big_at fm doc) with (nb - w_big_at fm doc + w_blocks ss (w_longs fm a)) by lia. exact H4'.
Qed.

(** A byte of the first stream of the data. *)
Lemma data_at_byte k base bytes s l i b : data_at k base bytes (s :: l) -> 0 <= base -> 0 < k -> znth s i = Some b ->
  znth bytes (base * k + i) = Some b.
Proof.
  intros (pre & post & -> & Hp) Hb Hk H. pose proof (znth_range _ _ _ H) as Hr. pose proof (zlen_nonneg pre).
  unfold w_data. cbn [flat_map]. unfold fill at 1. rewrite <- !app_assoc.
  rewrite znth_app_r by lia. replace (base * k + i - zlen pre) with i by lia. rewrite znth_app_l by lia. exact H.
Qed.

Lemma con_chain v : volume_is v -> forall j, 0 <= j < zlen (w_short_bytes fm doc) ->
  chain_position (v_sat v) (v_sector_size v) (v_container_start v) j ((w_con_at fm doc + 1) * ss + j).
Proof.
  intros V j Hj. pose proof (ss_gt0 _ _ W) as Hss. rewrite (vi_sat v V), (vi_ss v V), (vi_start v V).
  assert (Hn : j / ss < w_n_con fm doc) by (apply blocks_last; lia). assert (0 <= j / ss) by (apply Z.div_pos; lia).
  replace (w_n_con fm doc =? 0) with false by lia.
  exists (w_con_at fm doc + j / ss). split.
  - replace (w_con_at fm doc + j / ss) with (w_con_at fm doc + Z.of_nat (Z.to_nat (j / ss))) by lia.
    apply (chain_at_sector _ _ (w_n_con fm doc)); [apply (sat_con fm doc W)|lia].
  - pose proof (Z.div_mod j ss ltac:(lia)). lia.
Qed.

Lemma con_used v : volume_is v -> container_used v.
Proof.
  intros V k Hk. rewrite (vi_sat v V), (vi_start v V) in Hk.
  pose proof (zlen_sat fm doc W) as HL. destruct (ss_4 _ _ W) as [_ R4]. pose proof (n_sat_range _ _ W) as Rs.
  assert (Hz : zlen (w_sat fm doc) <= 892928) by nia. clear HL.
  destruct (w_n_con fm doc =? 0) eqn:E.
  - assert (G : forall k x, nth_sector (w_sat fm doc) EOC k x -> x = EOC).
    { clear -Hz. induction 1 as [|k id id' H IH Hn]; [reflexivity|]. rewrite IH in Hn. apply znth_range in Hn. unfold EOC in Hn. lia. }
    apply G in Hk. discriminate Hk.
  - pose proof (n_con_nonneg _ _ W). apply Z.eqb_neq in E. pose proof (parts_at _ _ W).
    destruct (chain_at_only _ _ _ k UNUSED (sat_con fm doc W) ltac:(lia) ltac:(unfold EOC; lia) Hk) as [H1|H1]; [discriminate H1|].
    unfold UNUSED in H1. lia.
Qed.

Lemma stream_readable v ns nb n c m s r : volume_is v -> ready ns nb (AddStream n c m s r) ->
  forall d, de_type d = 2 -> de_size d = zlen s ->
    de_sector d = (if blocks (if w_small fm s then sss else ss) (zlen s) =? 0 then EOC else if w_small fm s then ns else nb) ->
    is_readable_stream rd v d s.
Proof.
  intros V HR d Hty Hsz Hse. pose proof (ss_gt0 _ _ W) as Hss. pose proof (sss_gt0 _ _ W) as Hsss.
  destruct HR as [H1 H2 H3 H4 H5 H6 H7]. cbn [streams] in H7. inversion H7 as [|? ? [Hb Hl] _]; subst. clear H7.
  rewrite w_shorts_stream in *. rewrite w_longs_stream in *. change (2 ^ 32) with 4294967296 in Hl.
  pose proof (zlen_nonneg s) as Hz.
  assert (Hsm : (de_size d <? v_minimum_size v) = w_small fm s) by (rewrite Hsz, (vi_min v V); reflexivity).
  split; [apply V|]. split.
  { split; [rewrite Hse|rewrite Hsz; unfold is_u32; lia]. destruct (_ =? 0) eqn:E0; [unfold is_u32, EOC; lia|]. apply Z.eqb_neq in E0.
    destruct (w_small fm s).
    - cbn [app] in H1. apply chains_at_cons in H1 as [H1 _]; [|exact Hsss].
      pose proof (chain_at_inside _ _ _ H1 (blocks_nonneg sss (zlen s) Hsss Hz)) as Hi. rewrite (zlen_ssat fm doc W) in Hi.
      destruct (ss_4 _ _ W) as [_ R4]. pose proof (n_ssat_range _ _ W). pose proof (blocks_nonneg sss (zlen s) Hsss Hz). unfold is_u32. nia.
    - cbn [app] in H2. apply chains_at_cons in H2 as [H2 _]; [|exact Hss].
      pose proof (chain_at_inside _ _ _ H2 (blocks_nonneg ss (zlen s) Hss Hz)) as Hi. rewrite (zlen_sat fm doc W) in Hi.
      destruct (ss_4 _ _ W) as [_ R4]. pose proof (n_sat_range _ _ W). pose proof (blocks_nonneg ss (zlen s) Hss Hz). unfold is_u32. nia. }
  split; [intros _; split; [rewrite (vi_ss v V), (vi_sss v V); apply (sss_pos _ _ W)|now apply con_used]|].
  split; [exact Hb|].
  assert (Hpos : forall i, 0 <= i < zlen s -> de_sector d = if w_small fm s then ns else nb).
  { intros i Hi. rewrite Hse. replace (blocks (if w_small fm s then sss else ss) (zlen s) =? 0) with false; [reflexivity|].
    symmetry. apply Z.eqb_neq. intros E. apply blocks_0 in E; [lia|destruct (w_small fm s); lia|lia]. }
  split.
  { unfold intact. rewrite Hsm, Hsz. intros i Hi. rewrite (Hpos i Hi). destruct (w_small fm s).
    - rewrite (vi_sss v V), (vi_ssat v V). cbn [app] in H1. apply chains_at_cons in H1 as [H1 _]; [|exact Hsss].
      pose proof (chain_at_inside _ _ _ H1 (blocks_nonneg sss (zlen s) Hsss Hz)) as Hin.
      pose proof (blocks_last sss (zlen s) i Hsss Hi). assert (0 <= i / sss) by (apply Z.div_pos; lia).
      split; [lia|]. exists (ns + i / sss). split; [|lia].
      replace (ns + i / sss) with (ns + Z.of_nat (Z.to_nat (i / sss))) by lia. apply (chain_at_sector _ _ _ _ H1). lia.
    - rewrite (vi_ss v V), (vi_sat v V). cbn [app] in H2. apply chains_at_cons in H2 as [H2 _]; [|exact Hss].
      pose proof (chain_at_inside _ _ _ H2 (blocks_nonneg ss (zlen s) Hss Hz)) as Hin.
      pose proof (blocks_last ss (zlen s) i Hss Hi). assert (0 <= i / ss) by (apply Z.div_pos; lia).
      split; [lia|]. exists (nb + i / ss). split; [|lia].
      replace (nb + i / ss) with (nb + Z.of_nat (Z.to_nat (i / ss))) by lia. apply (chain_at_sector _ _ _ _ H2). lia. }
  exists f. split; [exact HS|]. split; [exact HT|]. split; [exact Hty|]. split; [now symmetry|].
  intros i b Hi. pose proof (znth_range _ _ _ Hi) as Hr. unfold stream_position. rewrite Hsm, (Hpos i Hr). destruct (w_small fm s).
  - cbn [app] in *. apply chains_at_cons in H1 as [H1 _]; [|exact Hsss].
    pose proof (blocks_last sss (zlen s) i Hsss Hr). assert (0 <= i / sss) by (apply Z.div_pos; lia).
    pose proof (data_at_byte sss ns _ s _ i b H3 H5 Hsss Hi) as Hj. pose proof (znth_range _ _ _ Hj) as Hjr.
    exists ((w_con_at fm doc + 1) * ss + (ns * sss + i)). split.
    + exists (ns + i / sss). rewrite (vi_ssat v V), (vi_sss v V). split.
      * replace (ns + i / sss) with (ns + Z.of_nat (Z.to_nat (i / sss))) by lia. apply (chain_at_sector _ _ _ _ H1). lia.
      * replace ((ns + i / sss) * sss + i mod sss) with (ns * sss + i) by (pose proof (Z.div_mod i sss ltac:(lia)); lia).
        now apply con_chain.
    + destruct (region_con fm doc W) as (pre & post & Hf & Hp & _). apply (region_byte f pre (p_con fm doc) post ss (w_con_at fm doc) Hf Hp).
      unfold p_con, fill. rewrite znth_app_l by lia. exact Hj.
  - cbn [app] in *. apply chains_at_cons in H2 as [H2 _]; [|exact Hss].
    pose proof (blocks_last ss (zlen s) i Hss Hr). assert (0 <= i / ss) by (apply Z.div_pos; lia).
    pose proof (data_at_byte ss (nb - w_big_at fm doc) _ s _ i b H4 ltac:(lia) Hss Hi) as Hj.
    exists ((nb + 1) * ss + i). split.
    + exists (nb + i / ss). rewrite (vi_sat v V), (vi_ss v V). split.
      * replace (nb + i / ss) with (nb + Z.of_nat (Z.to_nat (i / ss))) by lia. apply (chain_at_sector _ _ _ _ H2). lia.
      * pose proof (Z.div_mod i ss ltac:(lia)). lia.
    + destruct (region_big fm doc W) as (pre & post & Hf & Hp & _).
      replace ((nb + 1) * ss + i) with ((w_big_at fm doc + 1) * ss + ((nb - w_big_at fm doc) * ss + i)) by lia.
      apply (region_byte f pre (p_big fm doc) post ss (w_big_at fm doc) Hf Hp). exact Hj.
Qed.

(** * Links *)
Lemma directory_numbered : numbered (w_directory fm doc).
Proof. intros k d. apply directory_ids. Qed.

Lemma directory_short : zlen (w_directory fm doc) <= 4294967295.
Proof. unfold zlen. rewrite directory_length. pose proof (count_range _ _ W). lia. Qed.

Definition w_root : dirent :=
  {| de_id := 0; de_type := 5; de_name := doc_name doc; de_prev := FREE; de_next := FREE;
     de_sub := match fo with Empty => FREE | _ => 1 end;
     de_ctime := doc_ctime doc; de_mtime := doc_mtime doc;
     de_sector := if w_n_con fm doc =? 0 then EOC else w_con_at fm doc;
     de_size := zlen (w_short_bytes fm doc) |}.

Lemma directory_placed : placed_at fm (w_directory fm doc) 1 0 (w_big_at fm doc) fo.
Proof. split; [lia|]. exists [w_root], []. rewrite app_nil_r. split; reflexivity. Qed.

Lemma directory_root : first_root (w_directory fm doc) w_root.
Proof. split; [reflexivity|]. exists [], (w_entries fm 1 0 (w_big_at fm doc) fo). split; [reflexivity|constructor]. Qed.

Lemma entries_comparable u e x : forall id ns nb, names_ok (comparable u e) x -> Forall (name_comparable u e) (w_entries fm id ns nb x).
Proof.
  induction x as [|n c m s r IH|n c m a IHa r IHr]; intros id ns nb H; cbn [w_entries names_ok] in *; [constructor| |].
  - destruct H as [H1 H2]. constructor; [exact H1|now apply IH].
  - destruct H as (H1 & H2 & H3). constructor; [exact H1|]. apply Forall_app. split; [now apply IHa|now apply IHr].
Qed.

Lemma write_links u : comparable u (fm_order fm) (doc_name doc) -> names_ok (comparable u (fm_order fm)) fo ->
  links_ok u (fm_order fm) (w_directory fm doc).
Proof.
  intros Hc Hcs. right. exists w_root. split; [exact directory_root|]. right. left. split; [reflexivity|].
  pose proof directory_placed as HP.
  exists (Entry w_root (unfolding_of fm 1 0 (w_big_at fm doc) fo) Nothing Nothing).
  assert (E : unfolded (Entry w_root (unfolding_of fm 1 0 (w_big_at fm doc) fo) Nothing Nothing) = w_directory fm doc).
  { cbn [unfolded app]. rewrite !app_nil_r, unfolded_of. reflexivity. }
  split.
  { constructor.
    - erewrite (link_sub fm _ directory_numbered directory_short); [|exact HP|reflexivity].
      apply unfolds_heads; [exact directory_numbered|exact directory_short|exact HP].
    - cbn. constructor.
    - cbn. constructor. }
  rewrite E. split.
  { apply NoDup_nth_error. intros i j Hi H. rewrite map_length in Hi. rewrite !nth_error_map in H.
    destruct (nth_error (w_directory fm doc) i) as [a|] eqn:Ea; [|apply nth_error_None in Ea; lia].
    destruct (nth_error (w_directory fm doc) j) as [b|] eqn:Eb; [|discriminate H]. cbn in H. injection H as H.
    apply directory_ids in Ea, Eb. lia. }
  split; [reflexivity|]. split; [reflexivity|]. constructor.
  - split; [intros [H _]; apply H; reflexivity|exact Hc].
  - apply Forall_and; [|now apply entries_comparable].
    apply entries_not_dangling; [exact directory_numbered|exact directory_short|exact HP].
Qed.

(** * Items *)
Section Tree.
Variable u : una.
Variable e : endian.
Variable tr : tree.
Hypothesis HM : tree_made u e (w_directory fm doc) w_root tr.
Variable v : volume.
Hypothesis V : volume_is v.

Lemma node_subs j nd id ns nb x : nth_error (tr_nodes tr) j = Some nd -> placed_at fm (w_directory fm doc) id ns nb x ->
  de_sub (n_entry nd) = link_to id x -> Forall2 (item_entry tr) (n_subs nd) (tops fm id ns nb x).
Proof.
  intros Hj HP Hsub. destruct (made_sorted u e _ _ _ HM j nd Hj) as (ds & F & S).
  assert (Hd : item_entry tr j (n_entry nd)) by (exists nd; auto).
  replace (tops fm id ns nb x) with ds; [exact F|]. apply sorted_eq; [exact S|apply tops_sorted|]. intros s.
  rewrite (tops_spec fm _ directory_numbered directory_short x id ns nb s HP).
  pose proof (made_subs u e _ _ _ HM j (n_entry nd) s eq_refl Hd) as HS2.
  unfold sub_item in HS2. rewrite (link_sub fm _ directory_numbered directory_short _ _ _ _ _ HP Hsub) in HS2. rewrite <- HS2.
  split.
  - intros Hs. apply In_nth_error in Hs as (k & Hk). clear -F Hj Hk. 
    assert (G : exists i, nth_error (n_subs nd) k = Some i /\ item_entry tr i s).
    { revert k Hk. induction F as [|a b la lb Hab F IH]; intros k Hk; [destruct k; discriminate Hk|]. destruct k as [|k]; cbn [nth_error] in *.
      - injection Hk as <-. eauto.
      - now apply IH. }
    destruct G as (i & Hi & Hs). exists i. split; [|exact Hs]. exists nd. split; [exact Hj|]. eapply nth_error_In, Hi.
  - intros (i & (nd' & Hj' & Hi) & Hs). assert (nd' = nd) by congruence. subst nd'. clear -F Hi Hs.
    induction F as [|a b la lb Hab F IH]; [destruct Hi|]. destruct Hi as [->|Hi]; [|right; now apply IH].
    left. destruct Hab as (x1 & E1 & <-), Hs as (x2 & E2 & <-). congruence.
Qed.

Lemma shows_items x : forall id ns nb js, placed_at fm (w_directory fm doc) id ns nb x -> ready ns nb x ->
  Forall2 (item_entry tr) js (tops fm id ns nb x) -> shows rd v tr js x.
Proof.
  induction x as [|n c m s r IH|n c m a IHa r IHr]; intros id ns nb js HP HR F; cbn [tops w_entries firstn app] in F.
  - inversion F; subst. constructor.
  - inversion F as [|j d js' ds Hd F']; subst. destruct Hd as (nd & Hj & Hnd).
    pose proof (placed_stream fm _ _ _ _ _ _ _ _ _ HP) as HP'. pose proof (ready_stream _ _ _ _ _ _ _ HR) as HR'. cbv zeta in HP', HR'.
    apply sh_stream with (nd := nd); try (rewrite Hnd; reflexivity); [exact Hj| | |].
    + assert (HP0 : placed_at fm (w_directory fm doc) 1 0 0 Empty).
      { split; [lia|]. exists [w_root], (w_entries fm 1 0 (w_big_at fm doc) fo). split; reflexivity. }
      assert (F0 : Forall2 (item_entry tr) (n_subs nd) (tops fm 1 0 0 Empty)).
      { apply (node_subs j nd 1 0 0 Empty Hj HP0). rewrite Hnd. reflexivity. }
      cbn [tops] in F0. inversion F0. reflexivity.
    + eapply stream_readable; [exact V|exact HR| | |]; rewrite Hnd; reflexivity.
    + exact (IH _ _ _ _ HP' HR' F').
  - inversion F as [|j d js' ds Hd F']; subst. destruct Hd as (nd & Hj & Hnd).
    pose proof (placed_subs fm _ _ _ _ _ _ _ _ _ HP) as HP1. pose proof (placed_rest fm _ _ _ _ _ _ _ _ _ HP) as HP2.
    destruct (ready_storage _ _ _ _ _ _ _ HR) as [HR1 HR2].
    apply sh_storage with (nd := nd); try (rewrite Hnd; reflexivity); [exact Hj| |].
    + apply (IHa (id + 1) ns nb); [exact HP1|exact HR1|]. apply (node_subs j nd _ _ _ _ Hj HP1). rewrite Hnd. reflexivity.
    + exact (IHr _ _ _ _ HP2 HR2 F').
Qed.
End Tree.
End Items.
