(** Lemmas on written files: what the file says. *)
From Coq Require Import ZArith List Bool Lia.
From Verif Require Import Base Spec_IO M_Header M_Table M_Load M_Stream M_Tree M_Open M_Item
  Spec_Stream Spec_Load Spec_Tree Spec_Open Spec_Content Spec_Write L_Base L_Load L_Load2 L_Header L_Stream L_Open2
  L_Write L_Write2 L_Write3.
Import ListNotations.
Open Scope Z_scope.

Section Regions.
Variable fm : format.
Variable doc : document.
Hypothesis W : writable fm doc.

Notation ss := (w_ss fm).
Notation sss := (w_sss fm).
Notation fo := (w_items doc).
Notation f := (write fm doc).

Definition region (base n : Z) (R : list Z) : Prop :=
  exists pre post, f = pre ++ R ++ post /\ zlen pre = (base + 1) * ss /\ 0 <= base /\ 0 <= n /\ base + n < 4294967295 /\ zlen R = n * ss.

Lemma region_sat : region 0 (w_n_sat fm doc) (p_sat fm doc).
Proof.
  pose proof (n_sat_range _ _ W). exists (p_header fm doc), (p_ssat fm doc ++ p_dir fm doc ++ p_con fm doc ++ p_big fm doc).
  split; [reflexivity|]. rewrite (zlen_p_header _ _ W), (zlen_p_sat _ _ W). lia.
Qed.

Lemma region_ssat : region (w_ssat_at fm doc) (w_n_ssat fm doc) (p_ssat fm doc).
Proof.
  pose proof (n_sat_range _ _ W). pose proof (n_ssat_range _ _ W). pose proof (parts_at _ _ W). pose proof (at_eqs fm doc).
  exists (p_header fm doc ++ p_sat fm doc), (p_dir fm doc ++ p_con fm doc ++ p_big fm doc).
  split; [rewrite <- !app_assoc; reflexivity|].
  rewrite zlen_app, (zlen_p_header _ _ W), (zlen_p_sat _ _ W), (zlen_p_ssat _ _ W). lia.
Qed.

Lemma region_dir : region (w_dir_at fm doc) (w_n_dir fm doc) (p_dir fm doc).
Proof.
  pose proof (n_sat_range _ _ W). pose proof (n_ssat_range _ _ W). pose proof (n_dir_range _ _ W).
  pose proof (parts_at _ _ W). pose proof (at_eqs fm doc) as (E1 & E2 & E3 & E4).
  exists (p_header fm doc ++ p_sat fm doc ++ p_ssat fm doc), (p_con fm doc ++ p_big fm doc).
  split; [rewrite <- !app_assoc; reflexivity|].
  rewrite !zlen_app, (zlen_p_header _ _ W), (zlen_p_sat _ _ W), (zlen_p_ssat _ _ W), (zlen_p_dir _ _ W). rewrite E2, E1 in *. lia.
Qed.

Lemma region_con : region (w_con_at fm doc) (w_n_con fm doc) (p_con fm doc).
Proof.
  pose proof (n_sat_range _ _ W). pose proof (n_ssat_range _ _ W). pose proof (n_dir_range _ _ W). pose proof (n_con_nonneg _ _ W).
  pose proof (parts_at _ _ W). pose proof (at_eqs fm doc) as (E1 & E2 & E3 & E4).
  exists (p_header fm doc ++ p_sat fm doc ++ p_ssat fm doc ++ p_dir fm doc), (p_big fm doc).
  split; [rewrite <- !app_assoc; reflexivity|].
  rewrite !zlen_app, (zlen_p_header _ _ W), (zlen_p_sat _ _ W), (zlen_p_ssat _ _ W), (zlen_p_dir _ _ W), (zlen_p_con _ _ W). rewrite E3, E2, E1 in *. lia.
Qed.

Lemma region_big : region (w_big_at fm doc) (w_n_big fm doc) (p_big fm doc).
Proof.
  pose proof (n_sat_range _ _ W). pose proof (n_ssat_range _ _ W). pose proof (n_dir_range _ _ W). pose proof (n_con_nonneg _ _ W).
  pose proof (n_big_nonneg _ _ W).
  pose proof (parts_at _ _ W). pose proof (at_eqs fm doc) as (E1 & E2 & E3 & E4).
  exists (p_header fm doc ++ p_sat fm doc ++ p_ssat fm doc ++ p_dir fm doc ++ p_con fm doc), [].
  split; [rewrite <- !app_assoc, app_nil_r; reflexivity|].
  rewrite !zlen_app, (zlen_p_header _ _ W), (zlen_p_sat _ _ W), (zlen_p_ssat _ _ W), (zlen_p_dir _ _ W), (zlen_p_con _ _ W), (zlen_p_big _ _ W).
  rewrite E4, E3, E2, E1 in *. lia.
Qed.

(** * Chains in the table *)
Lemma sat_ssat : chain_at (w_sat fm doc) (w_ssat_at fm doc) (w_n_ssat fm doc).
Proof.
  pose proof (n_sat_range _ _ W). unfold w_sat, fill. rewrite <- !app_assoc. eexists. eexists. split; [reflexivity|].
  rewrite zlen_repeat. pose proof (at_eqs fm doc). lia.
Qed.

Lemma sat_dir : chain_at (w_sat fm doc) (w_dir_at fm doc) (w_n_dir fm doc).
Proof.
  pose proof (n_sat_range _ _ W). pose proof (n_ssat_range _ _ W). unfold w_sat, fill. rewrite <- !app_assoc.
  exists (repeat 4294967293 (Z.to_nat (w_n_sat fm doc)) ++ w_chain (w_ssat_at fm doc) (Z.to_nat (w_n_ssat fm doc))).
  eexists. split; [rewrite <- !app_assoc; reflexivity|].
  rewrite zlen_app, zlen_repeat, zlen_w_chain by lia. pose proof (at_eqs fm doc). lia.
Qed.

Lemma sat_con : chain_at (w_sat fm doc) (w_con_at fm doc) (w_n_con fm doc).
Proof.
  pose proof (n_sat_range _ _ W). pose proof (n_ssat_range _ _ W). pose proof (n_dir_range _ _ W). unfold w_sat, fill. rewrite <- !app_assoc.
  exists (repeat 4294967293 (Z.to_nat (w_n_sat fm doc)) ++ w_chain (w_ssat_at fm doc) (Z.to_nat (w_n_ssat fm doc)) ++
          w_chain (w_dir_at fm doc) (Z.to_nat (w_n_dir fm doc))).
  eexists. split; [rewrite <- !app_assoc; reflexivity|].
  rewrite !zlen_app, zlen_repeat, !zlen_w_chain by lia. pose proof (at_eqs fm doc). lia.
Qed.

(** The chains of streams. *)
Definition chains_at (tbl : list Z) (k base : Z) (l : list (list Z)) : Prop :=
  exists pre post, tbl = pre ++ w_chains k base l ++ post /\ zlen pre = base.

Lemma sat_big : chains_at (w_sat fm doc) ss (w_big_at fm doc) (w_longs fm fo).
Proof.
  pose proof (n_sat_range _ _ W). pose proof (n_ssat_range _ _ W). pose proof (n_dir_range _ _ W). pose proof (n_con_nonneg _ _ W).
  unfold w_sat, fill. rewrite <- !app_assoc.
  exists (repeat 4294967293 (Z.to_nat (w_n_sat fm doc)) ++ w_chain (w_ssat_at fm doc) (Z.to_nat (w_n_ssat fm doc)) ++
          w_chain (w_dir_at fm doc) (Z.to_nat (w_n_dir fm doc)) ++ w_chain (w_con_at fm doc) (Z.to_nat (w_n_con fm doc))).
  eexists. split; [rewrite <- !app_assoc; reflexivity|].
  rewrite !zlen_app, zlen_repeat, !zlen_w_chain by lia. pose proof (at_eqs fm doc). lia.
Qed.

Lemma ssat_shorts : chains_at (w_ssat fm doc) sss 0 (w_shorts fm fo).
Proof. unfold w_ssat, fill. exists []. eexists. split; reflexivity. Qed.

Lemma chains_at_cons tbl k base s l : 0 < k -> chains_at tbl k base (s :: l) ->
  chain_at tbl base (blocks k (zlen s)) /\ chains_at tbl k (base + blocks k (zlen s)) l.
Proof.
  intros Hk (pre & post & -> & Hp). cbn [w_chains]. pose proof (blocks_nonneg k (zlen s) Hk (zlen_nonneg s)). split.
  - exists pre, (w_chains k (base + blocks k (zlen s)) l ++ post). rewrite <- !app_assoc. auto.
  - exists (pre ++ w_chain base (Z.to_nat (blocks k (zlen s)))), post. rewrite <- !app_assoc. split; [reflexivity|].
    rewrite zlen_app, zlen_w_chain by lia. lia.
Qed.

Lemma chains_at_app tbl k base a b : 0 < k -> chains_at tbl k base (a ++ b) ->
  chains_at tbl k base a /\ chains_at tbl k (base + w_blocks k a) b.
Proof.
  intros Hk. revert base. induction a as [|s a IH]; intros base H.
  - cbn [app w_blocks fold_right] in *. rewrite Z.add_0_r. split; [|exact H].
    destruct H as (pre & post & -> & Hp). exists pre, (w_chains k base b ++ post). cbn. auto.
  - cbn [app] in H. destruct (chains_at_cons _ _ _ _ _ Hk H) as [H1 H2]. destruct (IH _ H2) as [H3 H4]. split.
    + destruct H as (pre & post & -> & Hp). exists pre.
      exists (w_chains k (base + w_blocks k (s :: a)) b ++ post). split; [|exact Hp]. f_equal. rewrite app_assoc. f_equal.
      clear. revert base. change (s :: a ++ b) with ((s :: a) ++ b). generalize (s :: a). clear. intros l.
      induction l as [|s l IH]; intros base; [cbn; f_equal; lia|]. cbn [app w_chains]. rewrite IH, <- app_assoc, w_blocks_cons. do 3 f_equal. lia.
    + rewrite w_blocks_cons. replace (base + (blocks k (zlen s) + w_blocks k a)) with (base + blocks k (zlen s) + w_blocks k a) by lia. exact H4.
Qed.

(** * What the file says *)
Definition w_h : file_header := header_of_values (fm_order fm) (w_header_values fm doc).

Lemma region_words base n tbl : region base n (w_table fm tbl) -> Forall is_u32 tbl ->
  words_of_sectors (fm_order fm) f ss (region_ids base n) = tbl.
Proof.
  intros (pre & post & Hf & Hp & H1 & H2 & H3 & HR) Hu. destruct (ss_4 _ _ W) as [E4 R4].
  unfold words_of_sectors, region_ids. rewrite flat_map_map.
  assert (Hz : zlen tbl = n * (ss / 4)) by (rewrite zlen_w_table in HR; nia).
  rewrite <- (pieces (ss / 4) (Z.to_nat n) tbl) by (rewrite ?Z2Nat.id by lia; lia).
  apply flat_map_ext_seq. intros k Hk.
  rewrite (region_sector f pre (w_table fm tbl) post ss base n Hf Hp H1 H2 H3 (ss_gt0 _ _ W) HR) by lia.
  rewrite E4 at 1 2. replace (Z.of_nat k * (4 * (ss / 4))) with (4 * (Z.of_nat k * (ss / 4))) by lia.
  rewrite slice_w_table by nia. apply words_w_table. now apply Forall_slice.
Qed.

Lemma region_ids_inside base n R : region base n R -> Forall (sector_inside f ss) (region_ids base n).
Proof.
  intros (pre & post & Hf & Hp & H1 & H2 & H3 & HR). eapply region_all_inside; eauto. apply (ss_gt0 _ _ W).
Qed.

Lemma region_ids_valid base n R : region base n R -> base + n <= 892928 -> Forall (fun id => id <> EOC /\ id <> FREE) (region_ids base n).
Proof.
  intros (pre & post & Hf & Hp & H1 & H2 & H3 & HR) Hb. apply Forall_forall. intros x Hx.
  apply region_ids_In in Hx. unfold EOC, FREE. lia.
Qed.

Lemma chain_at_start tbl base n : chain_at tbl base n -> 0 <= n -> chain_start tbl base (region_ids base n).
Proof.
  intros H Hn k id Hk. apply region_ids_nth in Hk as [-> Hk]. apply (chain_at_sector tbl base n k H). lia.
Qed.

Lemma msat_used : used_ids (hv_msat_values (w_header_values fm doc)) = region_ids 0 (w_n_sat fm doc).
Proof.
  unfold used_ids, region_ids. cbn [w_header_values hv_msat_values]. rewrite filter_app.
  assert (H2 : forall n, filter (fun id => negb (id =? FREE)) (repeat FREE n) = []) by (induction n; cbn; auto).
  rewrite H2, app_nil_r. pose proof (n_sat_range _ _ W) as Hr.
  change (fun k => 0 + Z.of_nat k) with Z.of_nat.
  assert (Hb : forall k, In k (seq 0 (Z.to_nat (w_n_sat fm doc))) -> (k < 109)%nat) by (intros k Hk; apply in_seq in Hk; lia).
  induction (seq 0 (Z.to_nat (w_n_sat fm doc))) as [|k l IH]; [reflexivity|]. cbn [map filter].
  assert (Hk : (k < 109)%nat) by (apply Hb; now left). replace (Z.of_nat k =? FREE) with false by (unfold FREE; lia).
  cbn [negb]. f_equal. apply IH. intros j Hj. apply Hb. now right.
Qed.

Lemma write_says : file_says f w_h (hv_msat_values (w_header_values fm doc)) (w_sat fm doc) (w_ssat fm doc) (w_directory fm doc).
Proof.
  destruct (header_says _ _ W) as (A1 & A2 & A3). pose proof (ss_pos _ _ W). destruct (ss_4 _ _ W) as [E4 R4]. destruct (ss_128 _ _ W) as [E128 R128].
  pose proof (n_sat_range _ _ W) as Rsat. pose proof (n_ssat_range _ _ W) as Rssat. pose proof (n_dir_range _ _ W) as Rdir.
  pose proof (parts_at _ _ W) as Rat.
  unfold file_says, w_h. cbn [header_of_values fh_byte_order fh_sector_size fh_msat_sector_identifier
    fh_number_of_msat_sectors fh_number_of_sat_sectors fh_ssat_sector_identifier fh_number_of_ssat_sectors
    fh_root_directory_sector_identifier w_header_values hv_sector_exponent hv_msat hv_msat_sectors hv_sat_sectors hv_ssat hv_ssat_sectors hv_root].
  fold ss. rewrite (header_slice _ _ W).
  split; [exact A1|]. split; [exact A2|]. split; [lia|].
  split; [left; split; [reflexivity|]; split; [reflexivity|exact A3]|].
  split.
  { unfold allocation_table. replace (w_n_sat fm doc * (ss / 4) <=? 33554432) with true by nia.
    fold (hv_msat_values (w_header_values fm doc)).
    change (map Z.of_nat (seq 0 (Z.to_nat (w_n_sat fm doc))) ++ repeat FREE (109 - Z.to_nat (w_n_sat fm doc))) with (hv_msat_values (w_header_values fm doc)).
    rewrite msat_used. exists (Z.to_nat (w_n_sat fm doc)). rewrite <- (region_ids_length 0 (w_n_sat fm doc)) at 3 5 6. rewrite firstn_all.
    split; [lia|]. split; [rewrite region_ids_length; lia|].
    split; [apply (region_ids_inside _ _ _ region_sat)|]. split; [left; lia|].
    rewrite (region_words 0 _ _ region_sat (sat_u32 _ _ W)). rewrite Z2Nat.id by lia. rewrite Z.sub_diag. cbn. now rewrite app_nil_r. }
  split.
  { unfold short_table. replace (w_n_ssat fm doc * (ss / 4) <=? 33554432) with true by nia.
    exists (region_ids (w_ssat_at fm doc) (w_n_ssat fm doc)). rewrite zlen_region_ids by lia.
    split; [lia|]. split; [lia|].
    split.
    { destruct (w_n_ssat fm doc =? 0) eqn:E.
      - apply Z.eqb_eq in E. rewrite E. intros k id Hk. destruct k; discriminate Hk.
      - apply chain_at_start; [exact sat_ssat|lia]. }
    split; [apply (region_ids_valid _ _ _ region_ssat); lia|]. split; [apply (region_ids_inside _ _ _ region_ssat)|].
    split; [left; reflexivity|]. rewrite (region_words _ _ _ region_ssat (ssat_u32 _ _ W)).
    rewrite Z.sub_diag. cbn. now rewrite app_nil_r. }
  split; [unfold EOC; lia|].
  exists (region_ids (w_dir_at fm doc) (w_n_dir fm doc)), EOC. rewrite region_ids_length.
  split; [apply chain_at_start; [exact sat_dir|lia]|].
  split; [apply chain_at_end; [exact sat_dir|lia]|].
  split; [apply region_ids_NoDup|].
  split; [apply (region_ids_valid _ _ _ region_dir); lia|]. split; [apply (region_ids_inside _ _ _ region_dir)|].
  split; [left; split; [now left|rewrite zlen_region_ids; lia]|].
  assert (HB : bytes_of_sectors f ss (region_ids (w_dir_at fm doc) (w_n_dir fm doc)) = p_dir fm doc).
  { destruct region_dir as (pre & post & Hf & Hp & H1 & H2 & H3 & HR). eapply region_bytes; eauto. apply (ss_gt0 _ _ W). }
  rewrite HB. unfold p_dir, fill. pose proof (directory_fits _ _ W) as HF.
  split; [intros k _; now apply slots_not_long|].
  pose proof (zlen_p_dir _ _ W) as Hz. unfold p_dir in Hz. rewrite zlen_fill in Hz by apply (ss_gt0 _ _ W).
  set (D := flat_map (w_slot fm) (w_directory fm doc)) in *.
  assert (HD : zlen D = 128 * zlen (w_directory fm doc)) by (apply zlen_slots, HF).
  pose proof (blocks_enough ss (zlen D) (ss_gt0 _ _ W) (zlen_nonneg D)) as Hen.
  assert (Hm : exists m, (Z.to_nat (w_n_dir fm doc) * Z.to_nat (ss / 128) = length (w_directory fm doc) + m)%nat).
  { exists (Z.to_nat (w_n_dir fm doc) * Z.to_nat (ss / 128) - length (w_directory fm doc))%nat. unfold zlen in HD at 2. nia. }
  destruct Hm as (m & ->). symmetry. apply slots_entries_slots; [exact HF|]. intros k d. apply directory_ids.
Qed.

Lemma write_moderate : moderate w_h.
Proof.
  destruct (ss_4 _ _ W) as [E4 R4]. pose proof (n_sat_range _ _ W). pose proof (n_ssat_range _ _ W). unfold moderate, w_h.
  cbn [header_of_values fh_sector_size fh_number_of_msat_sectors fh_number_of_sat_sectors fh_number_of_ssat_sectors w_header_values hv_sector_exponent
    hv_msat_sectors hv_sat_sectors hv_ssat_sectors]. fold ss. change (Z.max 1 0) with 1. nia.
Qed.
End Regions.
