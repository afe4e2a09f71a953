(** Lemmas on olecfexport when requests for memory can fail: the export of
    items. *)
From Coq Require Import ZArith List Bool Lia Permutation.
From Verif Require Import Base Spec_IO Spec_Stream Spec_Load Spec_Tree Spec_Open L_Base M_Table M_Header M_Load M_Stream M_Tree
  M_Open M_Item M_Mount M_File M_Export M_Getopt M_ExportTool M_Mem Spec_Mem M_InfoTool M_ExportMem Spec_Export
  L_Export L_Export2 L_Mem L_Mem2 L_Mem3 L_Mem5 L_Mem6 L_ExportMem.
Import ListNotations.
Open Scope Z_scope.

Lemma lbind_unit (m : lio unit) w : lbind m (fun _ => quiet (xret tt)) w = m w.
Proof. unfold lbind, quiet, xret. destruct (m w) as [[[[]| | |] w'] l]; rewrite ?app_nil_r; reflexivity. Qed.

Lemma lbind_quiet {A B} (a : A) (k : A -> lio B) w : lbind (quiet (xret a)) k w = k a w.
Proof. unfold lbind, quiet, xret. destruct (k a w) as [r l]. reflexivity. Qed.

Lemma lbind_assoc {A B C} (m : lio A) (f : A -> lio B) (g : B -> lio C) w :
  lbind m (fun a => lbind (f a) g) w = lbind (lbind m f) g w.
Proof.
  unfold lbind. destruct (m w) as [[[a| | |] w'] l]; try reflexivity.
  destruct (f a w') as [[[b| | |] w''] l']; try reflexivity.
  destruct (g b w'') as [r l'']. now rewrite app_assoc.
Qed.

Lemma lbind_ext {A B} (m : lio A) (f g : A -> lio B) w : (forall a w, f a w = g a w) -> lbind m f w = lbind m g w.
Proof. intros E. unfold lbind. destruct (m w) as [[[a| | |] w'] l]; try reflexivity. now rewrite E. Qed.

Lemma exists_def ho p n w : defined (fst (file_exists ho p n w)).
Proof. unfold file_exists. rewrite call_fst. destruct (ho_fault _ _); exact I. Qed.
Lemma mkdir_def ho p n w : defined (fst (make_directory ho p n w)).
Proof.
  unfold make_directory. rewrite call_fst. destruct (ho_fault _ _); [exact I|].
  destruct (dot_name n); [exact I|]. destruct (on_disk _ _); exact I.
Qed.
Lemma open_def ho p w : defined (fst (open_write ho p w)).
Proof. unfold open_write. rewrite call_fst. destruct (ho_fault _ _); exact I. Qed.
Lemma close_def ho w : defined (fst (close_file ho w)).
Proof. unfold close_file. rewrite call_fst. destruct (ho_fault _ _); exact I. Qed.

(** The blocks of both sides. *)
Ltac same := let x := fresh "x" in intros x; cnts; lia.

Section Items.
Variables (safe : Prop) (mem : memory) (ho : host) (rd : reader) (v : volume) (t : tree).
Hypothesis HT : safe -> tree_shape t.
Hypothesis HV : safe -> volume_ok v.
Hypothesis HD : safe -> forall k d, item_entry t k d -> dirent_ok d.
Hypothesis HN : safe -> forall k d m, item_entry t k d -> safe_name ho (v_byte_order v) d m -> 9 <= zlen m.

Lemma sub_items_sim one one_log dir : forall subs index,
  (forall k index, In k subs -> sim safe [] (one k index dir) (one_log k index dir)) ->
  sim safe [] (e_sub_items mem one index subs dir) (sub_items_loop_log one_log index subs dir).
Proof.
  induction subs as [|k subs IH]; intros index H; cbn [e_sub_items sub_items_loop_log]; [apply sim_ret|].
  apply sim_obtain. intros p s F O.
  assert (IH' : sim safe [p] (drop p (e_sub_items mem one (index + 1) subs dir)) (sub_items_loop_log one_log (index + 1) subs dir)).
  { apply sim_drop with []; [same|]. apply IH. intros k' i Hk. apply H. now right. }
  destruct (H k index (or_introl eq_refl) s F) as (r & s1 & q1 & l1 & E & Q & L & G & D & S); [intros x; rewrite cnt_nil; lia|].
  unfold ends. rewrite E. destruct r as [u| | |].
  - destruct (D I) as [M T]. destruct (IH' s1 (proj1 M)) as (r & s2 & q2 & l2 & E2 & Q2 & L2 & G2 & D2 & S2); [own|].
    exists r, s2, (q1 ++ q2), (l1 ++ l2). split; [exact E2|]. split; [rewrite Q2, Q, app_assoc; reflexivity|].
    split; [rewrite L2, L, app_assoc; reflexivity|]. split.
    + intros GG. apply granted_split in GG as [GA GB]. rewrite (G GA), (G2 GB). reflexivity.
    + split; [|exact S2]. intros Dr. destruct (D2 Dr) as [M2 T2]. split.
      * apply (moved_trans _ _ _ _ _ _ _ _ _ _ _ M M2). intros x. cnts. lia.
      * intros Ho. apply other_app in Ho as [Ho|Ho].
        { destruct (T Ho) as [T'|(n & Hn)]; [discriminate|]. right. exists n. apply in_or_app. now left. }
        { destruct (T2 Ho) as [T'|(n & Hn)]; [now left|]. right. exists n. apply in_or_app. now right. }
  - destruct (D I) as [M T]. unfold ebind, logged.
    destruct (IH' {| e_host := e_host s1; e_log := e_log s1 ++ [Unable (index + 1)]; e_mem := e_mem s1 |} (proj1 M))
      as (r & s2 & q2 & l2 & E2 & Q2 & L2 & G2 & D2 & S2); [cbn [e_mem]; own|]. cbn [e_mem e_log e_host] in *.
    exists r, s2, (q1 ++ q2), (l1 ++ Unable (index + 1) :: l2). split; [exact E2|]. split; [rewrite Q2, Q, app_assoc; reflexivity|].
    split; [rewrite L2, L, <- !app_assoc; reflexivity|]. split.
    + intros GG. apply granted_split in GG as [GA GB]. rewrite (G GA), (G2 GB). reflexivity.
    + split; [|exact S2]. intros Dr. destruct (D2 Dr) as [M2 T2]. split.
      * apply (moved_trans _ _ _ _ _ _ _ _ _ _ _ M M2). intros x. cnts. lia.
      * intros _. right. exists (index + 1). apply in_or_app. right. now left.
  - exists Undef, s1, q1, l1. split; [reflexivity|]. split; [exact Q|]. split; [exact L|].
    split; [intros GG; rewrite (G GG); reflexivity|]. split; [intros []|exact S].
  - exists NoFuel, s1, q1, l1. split; [reflexivity|]. split; [exact Q|]. split; [exact L|].
    split; [intros GG; rewrite (G GG); reflexivity|]. split; [intros []|exact S].
Qed.

Lemma finish_sim one one_log k d path file item_path :
  item_entry t k d ->
  (forall j index, item_sub t k j -> sim safe [] (one j index path) (one_log j index path)) ->
  sim safe [file; item_path] (e_finish mem ho t one k path file item_path)
    (dl _ <- quiet (close_file ho); dl subs <- quiet (xlift (sub_nodes t k)); sub_items_loop_log one_log 0 subs path).
Proof.
  intros (nd & Hn & Hd) H. unfold e_finish. apply sim_attempt; [apply sim_host; intros _ w; apply close_def|]. intros _.
  apply sim_drop with [item_path]; [same|].
  apply attempt_pure; [intros _; unfold sub_nodes; rewrite Hn; exact I|]. intros subs Hs.
  unfold sub_nodes in Hs. rewrite Hn in Hs. apply Ok_inj in Hs. subst subs.
  apply (sim_ext safe _ _ (dl _ <- sub_items_loop_log one_log 0 (n_subs nd) path; quiet (xret tt))); [apply lbind_unit|].
  apply sim_attempt; [apply sub_items_sim; intros j i Hj; apply H; exists nd; auto|]. intros _.
  apply sim_drop with []; [same|]. apply sim_ret.
Qed.

Lemma data_sim one one_log k d path target_path item_path :
  item_entry t k d ->
  (forall j index, item_sub t k j -> sim safe [] (one j index path) (one_log j index path)) ->
  sim safe [target_path; item_path] (e_data mem ho rd v t one k d path target_path item_path)
    (let target := path_join path stream_data_name in
     dl _ <- quiet (open_write ho target);
     dl _ <- quiet (if 0 <? de_size d
                    then copy_loop ho rd v (Z.to_nat (de_size d / BUFFER_SIZE) + 2) d target 0 (de_size d)
                    else xret tt);
     dl _ <- quiet (close_file ho);
     dl subs <- quiet (xlift (sub_nodes t k));
     sub_items_loop_log one_log 0 subs path).
Proof.
  intros Hk H. unfold e_data. cbv zeta. apply sim_obtain. intros file.
  apply sim_attempt; [apply sim_host; intros _ w; apply open_def|]. intros _.
  apply sim_drop with [file; item_path]; [same|]. destruct (0 <? de_size d) eqn:E0.
  - apply sim_obtain. intros buffer. apply sim_attempt.
    + apply sim_host. intros S w. pose proof (HD S _ _ Hk) as Hok. destruct (Hok) as [_ Hsz]. unfold is_u32 in Hsz.
      apply copy_loop_defined; auto.
      unfold BUFFER_SIZE. pose proof (Z.div_mod (de_size d) 32768 ltac:(lia)).
      pose proof (Z.mod_pos_bound (de_size d) 32768 ltac:(lia)).
      assert (0 <= de_size d / 32768) by (apply Z.div_pos; lia). lia.
    + intros _. apply sim_drop with [file; item_path]; [same|]. eapply finish_sim; eauto.
  - eapply sim_ext; [intros w; symmetry; apply lbind_quiet|]. eapply finish_sim; eauto.
Qed.

Lemma directory_sim one one_log k d dir name item_name item_path :
  item_entry t k d ->
  (forall j index path, item_sub t k j -> sim safe [] (one j index path) (one_log j index path)) ->
  sim safe [item_path; item_name] (e_directory mem ho rd v t one k d dir name item_name item_path)
    (dl _ <- quiet (make_directory ho dir name);
     let path := path_join dir name in
     dl _ <- say (Created path);
     dl there <- quiet (file_exists ho path stream_data_name);
     let target := path_join path stream_data_name in
     if there then say (Skipping target)
     else
       dl _ <- quiet (open_write ho target);
       dl _ <- quiet (if 0 <? de_size d
                      then copy_loop ho rd v (Z.to_nat (de_size d / BUFFER_SIZE) + 2) d target 0 (de_size d)
                      else xret tt);
       dl _ <- quiet (close_file ho);
       dl subs <- quiet (xlift (sub_nodes t k));
       sub_items_loop_log one_log 0 subs path).
Proof.
  intros Hk H. unfold e_directory. cbv zeta. apply sim_drop with [item_path]; [same|].
  apply sim_attempt; [apply sim_host; intros _ w; apply mkdir_def|]. intros _.
  apply sim_attempt; [apply sim_log|]. intros _. apply sim_obtain. intros target_path.
  apply sim_attempt; [apply sim_host; intros _ w; apply exists_def|]. intros [|].
  - eapply sim_ext; [apply lbind_unit|]. apply sim_attempt; [apply sim_log|]. intros _.
    apply sim_drop with [item_path]; [same|]. apply sim_drop with []; [same|]. apply sim_ret.
  - apply (data_sim one one_log); auto.
Qed.

Lemma item_sim fuel : forall k index dir,
  (safe -> (k < length (tr_nodes t))%nat /\ (length (tr_nodes t) - k <= fuel)%nat) ->
  sim safe [] (e_item mem ho rd v t fuel k index dir) (export_item_log ho rd v t fuel k index dir).
Proof.
  induction fuel as [|fuel IH]; intros k index dir Hf.
  { apply sim_undef; [intros []|]. intros S. destruct (Hf S). lia. }
  cbn [e_item export_item_log]. apply attempt_pure.
  { intros S. destruct (Hf S) as [Hk _]. unfold node_value. destruct (nth_error (tr_nodes t) k) eqn:En; [exact I|].
    apply nth_error_None in En. lia. }
  intros d Hd. assert (Hk : item_entry t k d).
  { unfold node_value in Hd. destruct (nth_error (tr_nodes t) k) as [nd|] eqn:En; [|discriminate].
    apply Ok_inj in Hd. exists nd. auto. }
  assert (HS : forall j i path, item_sub t k j -> sim safe [] (e_item mem ho rd v t fuel j i path) (export_item_log ho rd v t fuel j i path)).
  { intros j i path Hj. apply IH. intros S. pose proof (ts_later _ (HT S) _ _ Hj). destruct (Hf S). lia. }
  apply sim_attempt; [apply sim_log|]. intros _. apply sim_obtain. intros item_name. unfold choose_name_log.
  destruct (ho_name ho (de_name d) (v_byte_order v)) as [raw|] eqn:E1; [|eapply sim_ext; [|apply sim_fail]; reflexivity].
  destruct (ho_sanitize ho raw) as [name|] eqn:E2; [|eapply sim_ext; [|apply sim_fail]; reflexivity].
  apply sim_obtain. intros sanitized. apply sim_drop with [sanitized]; [same|]. apply sim_obtain. intros item_path.
  eapply sim_ext; [apply lbind_assoc|]. apply sim_attempt; [apply sim_host; intros _ w; apply exists_def|]. intros [|].
  - apply sim_drop with [sanitized]; [same|]. eapply sim_ext; [apply lbind_assoc|]. apply attempt_pure.
    { intros S. unfold item_name_again. assert (Hl : 9 <= zlen name) by (eapply HN; [exact S|exact Hk|]; exists raw; auto).
      rewrite (proj2 (Z.ltb_ge (zlen name + 1) 10)) by lia. destruct (12 <? _); exact I. }
    intros name' _. eapply sim_ext; [apply lbind_assoc|]. apply sim_attempt; [apply sim_log|]. intros _.
    eapply sim_ext; [intros w; symmetry; apply lbind_quiet|].
    apply sim_obtain. intros item_path'. apply (directory_sim _ (export_item_log ho rd v t fuel)); auto.
  - eapply sim_ext; [intros w; symmetry; apply lbind_quiet|]. apply (directory_sim _ (export_item_log ho rd v t fuel)); auto.
Qed.

Lemma file_sim_some p n : (safe -> (0 < length (tr_nodes t))%nat) ->
  sim safe [] (e_file mem ho rd v (Some t) p n) (export_file_log ho rd v (Some t) p n).
Proof.
  intros H0. unfold e_file, export_file_log.
  apply sim_attempt; [apply sim_host; intros _ w; apply mkdir_def|]. intros _.
  apply sim_attempt; [apply sim_log|]. intros _. apply sim_obtain. intros root_item.
  eapply sim_ext; [apply lbind_unit|]. apply sim_attempt.
  - unfold export_sub_items_log. apply attempt_pure.
    + intros S. unfold sub_nodes. destruct (nth_error (tr_nodes t) 0) eqn:En; [exact I|].
      apply nth_error_None in En. specialize (H0 S). lia.
    + intros subs Hs. apply sub_items_sim. intros k i Hk. apply item_sim. intros S. split; [|lia].
      unfold sub_nodes in Hs. destruct (nth_error (tr_nodes t) 0) as [nd|] eqn:En; [|discriminate]. apply Ok_inj in Hs. subst subs.
      apply (ts_later _ (HT S) 0%nat k). exists nd. auto.
  - intros _. apply sim_drop with []; [same|]. apply sim_ret.
Qed.
End Items.

Lemma file_sim_none safe mem ho rd v p n : sim safe [] (e_file mem ho rd v None p n) (export_file_log ho rd v None p n).
Proof.
  unfold e_file, export_file_log. apply sim_attempt; [apply sim_host; intros _ w; apply mkdir_def|]. intros _.
  eapply sim_ext; [apply lbind_unit|]. apply sim_attempt; [apply sim_log|]. intros _. apply sim_ret.
Qed.
