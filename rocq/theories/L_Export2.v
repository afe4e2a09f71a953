(** Lemmas on the export of items: exports that succeed, and definedness. *)
From Coq Require Import ZArith List Bool Lia Arith.
From Verif Require Import Base Spec_IO M_Table M_Load M_Stream M_Tree M_Open M_Item M_Mount M_Export M_Prop
  Spec_Stream Spec_Content Spec_Tree Spec_Prop Spec_Export L_Base L_Stream L_Stream2 L_Stream3 L_Prop L_Prop2
  L_Export.
Import ListNotations.
Open Scope Z_scope.

Definition adds (s s' : disk) (E : list Z -> file_entry -> Prop) : Prop :=
  forall q x, on_disk s' q = Some x <-> on_disk s q = Some x \/ E q x.

Lemma adds_none s s' (E : list Z -> file_entry -> Prop) q : adds s s' E -> on_disk s q = None ->
  (forall x, ~ E q x) -> on_disk s' q = None.
Proof.
  intros HA Hn HE. destruct (on_disk s' q) as [x|] eqn:Hq; [|reflexivity].
  apply HA in Hq as [Hq|Hq]; [congruence|]. destruct (HE _ Hq).
Qed.

Lemma readable_stream rd v d s : is_readable_stream rd v d s -> is_stream rd v d s.
Proof. intros (H1 & H2 & H3 & H4 & _ & f & H5 & _ & H6). unfold is_stream. eauto 10. Qed.

Section Exact.
Variables (ho : host) (rd : reader) (v : volume) (t : tree).
Hypothesis HE : exportable ho rd v t.
Hypothesis HF : forall k, ho_fault ho k = None.
Let e := v_byte_order v.

Lemma safe_name_fun d n m : safe_name ho e d n -> safe_name ho e d m -> n = m.
Proof. intros (r1 & A1 & A2) (r2 & B1 & B2). congruence. Qed.

Lemma item_entry_fun k d d' : item_entry t k d -> item_entry t k d' -> d = d'.
Proof. intros (n & Hn & <-) (n' & Hn' & <-). congruence. Qed.

(** All that is made for item [j], with the directory [r]. *)
Definition made_for (d : dirent) (r q : list Z) (x : file_entry) : Prop :=
  (q = r /\ x = Directory) \/ (q = data_path r /\ exists s, item_data rd v d s /\ x = Data s).

Definition effect (j : nat) (r q : list Z) (x : file_entry) : Prop :=
  exists i r' d, placed ho e t j r i r' /\ item_entry t i d /\ made_for d r' q x.

Lemma placed_first k p i r : placed ho e t k p i r ->
  (i = k /\ r = p) \/
  exists j d n, item_sub t k j /\ item_entry t j d /\ safe_name ho e d n /\
    placed ho e t j (path_join p n) i r.
Proof.
  induction 1 as [|j q i d n HP IH Hs Hd Hn]; [auto|]. right.
  destruct IH as [[-> ->]|(j0 & d0 & n0 & H1 & H2 & H3 & H4)].
  - exists i, d, n. repeat split; auto. constructor.
  - exists j0, d0, n0. repeat split; auto. econstructor; eauto.
Qed.

Lemma placed_cons k p j d n i r : item_sub t k j -> item_entry t j d -> safe_name ho e d n ->
  placed ho e t j (path_join p n) i r -> placed ho e t k p i r.
Proof.
  intros Hs Hd Hn HP. induction HP as [|i q i' d' n' HP IH Hs' Hd' Hn'].
  - unfold path_join, SLASH. econstructor; eauto. constructor.
  - econstructor; eauto.
Qed.

Lemma placed_le k p i r : placed ho e t k p i r -> (i = k \/ k < i)%nat.
Proof.
  destruct HE as (HT & _).
  induction 1 as [|j q i d n HP IH Hs Hd Hn]; [auto|].
  pose proof (ts_later _ HT _ _ Hs). lia.
Qed.

Lemma placed_below k p i r : placed ho e t k p i r -> r = p \/ below_path p r.
Proof.
  induction 1 as [|j q i d n HP IH Hs Hd Hn]; [auto|]. right.
  destruct IH as [->|(y & ->)]; [exists n; reflexivity|].
  exists (y ++ 47 :: n). rewrite <- app_assoc. reflexivity.
Qed.

Lemma made_below d r q x : made_for d r q x -> q = r \/ below_path r q.
Proof.
  intros [(-> & _)|(-> & _)]; [auto|]. right. rewrite data_path_join. apply join_below.
Qed.

Lemma below_trans p q r : below_path p q -> below_path q r -> below_path p r.
Proof.
  intros (a & ->) (b & ->). exists (a ++ 47 :: b). rewrite <- app_assoc. reflexivity.
Qed.

Lemma effect_below j r q x : effect j r q x -> q = r \/ below_path r q.
Proof.
  intros (i & r' & d & HP & _ & HM). apply placed_below in HP. apply made_below in HM.
  destruct HP as [->|HP]; [exact HM|]. right.
  destruct HM as [->|HM]; [exact HP|]. eapply below_trans; eauto.
Qed.

Lemma effect_split j d r q x : item_entry t j d ->
  (effect j r q x <->
   made_for d r q x \/
   exists i d' n, item_sub t j i /\ item_entry t i d' /\ safe_name ho e d' n /\
     effect i (path_join r n) q x).
Proof.
  intros Hj. split.
  - intros (i & r' & d' & HP & Hi & HM).
    destruct (placed_first _ _ _ _ HP) as [[-> ->]|(j0 & d0 & n0 & H1 & H2 & H3 & H4)].
    + left. rewrite (item_entry_fun _ _ _ Hj Hi). exact HM.
    + right. exists j0, d0, n0. repeat split; auto. exists i, r', d'. auto.
  - intros [HM|(i & d' & n & H1 & H2 & H3 & (i' & r' & d'' & HP & Hi & HM))].
    + exists j, r, d. split; [constructor|]. auto.
    + exists i', r', d''. split; [|auto]. eapply placed_cons; eauto.
Qed.

Lemma expected_split k p q x :
  expected ho rd v t k p q x <->
  exists j d n, item_sub t k j /\ item_entry t j d /\ safe_name ho e d n /\
    effect j (path_join p n) q x.
Proof.
  split.
  - intros (j & r & d & HP & Hne & Hd & HM).
    destruct (placed_first _ _ _ _ HP) as [[-> _]|(j0 & d0 & n0 & H1 & H2 & H3 & H4)]; [congruence|].
    exists j0, d0, n0. repeat split; auto. exists j, r, d. auto.
  - intros (j & d & n & H1 & H2 & H3 & (i & r & d' & HP & Hi & HM)).
    exists i, r, d'. split; [eapply placed_cons; eauto|]. split; [|auto].
    destruct HE as (HT & _). apply placed_le in HP. pose proof (ts_later _ HT _ _ H1). lia.
Qed.

(** * Steps without faults *)
Lemma exists_no_fault p n w : dot_name n = false -> on_disk (x_disk w) (path_join p n) = None ->
  exists w', file_exists ho p n w = (Ok false, w') /\ x_disk w' = x_disk w.
Proof.
  intros H1 H2. unfold file_exists, call. rewrite HF, H1, H2. eexists. split; reflexivity.
Qed.

Lemma mkdir_no_fault p n w : dot_name n = false -> on_disk (x_disk w) (path_join p n) = None ->
  exists w', make_directory ho p n w = (Ok tt, w') /\
    x_disk w' = (path_join p n, Directory) :: x_disk w.
Proof.
  intros H1 H2. unfold make_directory, call. rewrite HF, H1, H2. eexists. split; reflexivity.
Qed.

Lemma open_no_fault p w : exists w', open_write ho p w = (Ok tt, w') /\
  x_disk w' = (p, Data []) :: x_disk w.
Proof. unfold open_write, call. rewrite HF. eexists. split; reflexivity. Qed.

Lemma close_no_fault w : exists w', close_file ho w = (Ok tt, w') /\ x_disk w' = x_disk w.
Proof. unfold close_file, call. rewrite HF. eexists. split; reflexivity. Qed.

Lemma copy_no_fault d target w : (de_size d = 0 \/ exists s, is_readable_stream rd v d s) ->
  exists w', copy_item ho rd v d target w = (Ok tt, w').
Proof.
  intros Hd. unfold copy_item. destruct (0 <? de_size d) eqn:E0; [|exists w; reflexivity].
  destruct Hd as [Hd|(s & Hs)]; [lia|].
  apply (copy_loop_complete ho rd v d s target _ Hs HF); try lia.
  unfold BUFFER_SIZE. pose proof (Z.div_mod (de_size d) 32768 ltac:(lia)).
  pose proof (Z.mod_pos_bound (de_size d) 32768 ltac:(lia)).
  assert (0 <= de_size d / 32768) by (apply Z.div_pos; lia). lia.
Qed.

Lemma not_dots n : ~ In n [[46]; [46; 46]] -> dot_name n = false.
Proof.
  intros H. unfold dot_name.
  destruct (list_eq_dec Z.eq_dec n [46]) as [->|]; [destruct H; left; reflexivity|].
  destruct (list_eq_dec Z.eq_dec n [46; 46]) as [->|]; [destruct H; right; left; reflexivity|reflexivity].
Qed.

(** * The loop over the items of a directory *)
Definition item_claim (fuel : nat) : Prop :=
  forall k0 k d n index dir w,
    item_sub t k0 k -> item_entry t k d -> safe_name ho e d n ->
    (length (tr_nodes t) - k <= fuel)%nat ->
    vacant (x_disk w) (path_join dir n) ->
    exists w', export_item ho rd v t fuel k index dir w = (Ok tt, w') /\
      adds (x_disk w) (x_disk w') (effect k (path_join dir n)).

Lemma loop_claim fuel k0 dir : item_claim fuel -> (length (tr_nodes t) - k0 <= S fuel)%nat ->
  forall subs index w,
    NoDup subs -> (forall j, In j subs -> item_sub t k0 j) ->
    (forall j d n, In j subs -> item_entry t j d -> safe_name ho e d n ->
       vacant (x_disk w) (path_join dir n)) ->
    exists w', sub_items_loop (export_item ho rd v t fuel) index subs dir w = (Ok tt, w') /\
      adds (x_disk w) (x_disk w')
        (fun q x => exists j d n, In j subs /\ item_entry t j d /\ safe_name ho e d n /\
           effect j (path_join dir n) q x).
Proof.
  intros IC Hfuel. destruct HE as (HT & Hitems & Hdist).
  induction subs as [|j subs IH]; intros index w Hnd Hsub Hvac.
  - exists w. split; [reflexivity|]. intros q x. split; [auto|].
    intros [H|(j & d & n & [] & _)]. exact H.
  - cbn [sub_items_loop].
    assert (Hj : item_sub t k0 j) by (apply Hsub; left; reflexivity).
    pose proof (ts_later _ HT _ _ Hj) as Hlt.
    destruct (nth_error (tr_nodes t) j) as [nd|] eqn:Hnode;
      [|apply nth_error_None in Hnode; lia].
    assert (Hd : item_entry t j (n_entry nd)) by (exists nd; auto).
    destruct (Hitems _ _ _ Hj Hd) as ((n & Hn & Hslash & Hres) & _).
    destruct (IC k0 j (n_entry nd) n index dir w Hj Hd Hn) as (w1 & H1 & HA1);
      [lia|eapply Hvac; eauto; left; reflexivity|].
    rewrite H1. inversion Hnd as [|j' l' Hnotin Hnd']. subst.
    destruct (IH (index + 1) w1 Hnd') as (w2 & H2 & HA2).
    + intros i Hi. apply Hsub. right. exact Hi.
    + intros i d' n' Hi Hd' Hn'.
      assert (Hi' : item_sub t k0 i) by (apply Hsub; right; exact Hi).
      destruct (Hvac i d' n' (or_intror Hi) Hd' Hn') as (V1 & V2).
      destruct (Hitems _ _ _ Hi' Hd') as ((n'' & Hn'' & Hslash' & _) & _).
      rewrite (safe_name_fun _ _ _ Hn'' Hn') in *.
      assert (Hne : n <> n').
      { intros ->. apply Hnotin. rewrite (Hdist k0 j i _ _ _ Hj Hi' Hd Hd' Hn Hn'). exact Hi. }
      split.
      * eapply adds_none; [exact HA1|exact V1|]. intros x Hx. apply effect_below in Hx.
        destruct (join_apart dir n n' _ Hslash Hslash' Hne Hx) as (F & _). apply F. reflexivity.
      * intros q. eapply adds_none; [exact HA1|apply V2|]. intros x Hx. apply effect_below in Hx.
        destruct (join_apart dir n n' _ Hslash Hslash' Hne Hx) as (_ & F). apply F. exists q. reflexivity.
    + exists w2. split; [exact H2|]. intros q x. rewrite (HA2 q x), (HA1 q x). split.
      * intros [[H|H]|(i & d' & n' & Hi & Hx)]; [left; exact H| |].
        -- right. exists j, (n_entry nd), n. split; [left; reflexivity|]. auto.
        -- right. exists i, d', n'. split; [right; exact Hi|exact Hx].
      * intros [H|(i & d' & n' & Hi & Hd' & Hn' & Hx)]; [left; left; exact H|].
        destruct Hi as [->|Hi].
        -- left. right. rewrite (item_entry_fun _ _ _ Hd' Hd) in Hn'.
           rewrite (safe_name_fun _ _ _ Hn' Hn) in Hx. exact Hx.
        -- right. exists i, d', n'. auto.
Qed.

Lemma sub_nodes_of k d : item_entry t k d -> exists subs, sub_nodes t k = Ok subs /\ NoDup subs /\
  (forall j, In j subs <-> item_sub t k j).
Proof.
  destruct HE as (HT & _). intros (n & Hn & _). exists (n_subs n). unfold sub_nodes. rewrite Hn.
  split; [reflexivity|]. split; [eapply ts_nodup; eauto|].
  intros j. split; [intros Hj; exists n; auto|]. intros (n' & Hn' & Hj). congruence.
Qed.

Lemma item_exact fuel : item_claim fuel.
Proof.
  induction fuel as [|fuel IH]; intros k0 k d n index dir w Hsub Hd Hn Hfuel (V1 & V2).
  { destruct HE as (HT & _). pose proof (ts_later _ HT _ _ Hsub). lia. }
  pose proof HE as (HT & Hitems & Hdist).
  pose proof (ts_later _ HT _ _ Hsub) as Hlt.
  destruct (Hitems _ _ _ Hsub Hd) as ((n' & Hn' & Hslash & Hres) & Hread).
  rewrite (safe_name_fun _ _ _ Hn' Hn) in *. clear Hn' n'.
  assert (Hdot : dot_name n = false).
  { apply not_dots. intros Hi. apply Hres. destruct Hi as [<-|[<-|[]]]; simpl; auto. }
  rewrite export_item_unfold.
  assert (Hv : node_value t k = Ok d).
  { destruct Hd as (nd & Hnd & <-). unfold node_value. now rewrite Hnd. }
  unfold xbind at 1. rewrite Hv. cbn [xlift].
  destruct (exists_no_fault dir n w Hdot V1) as (w1 & H1 & D1).
  assert (Hch : choose_name ho v d index dir w = (Ok n, w1)).
  { destruct Hn as (raw & Hr & Hs). unfold choose_name. fold e. rewrite Hr, Hs.
    rewrite (xbind_Ok _ _ _ _ _ H1). reflexivity. }
  rewrite (xbind_Ok _ _ _ _ _ Hch).
  rewrite <- D1 in V1, V2 |- *. clear Hch H1 D1 w.
  destruct (mkdir_no_fault dir n w1 Hdot V1) as (w2 & H2 & D2).
  rewrite (xbind_Ok _ _ _ _ _ H2). cbv zeta. set (path := path_join dir n) in *.
  assert (Hnf : on_disk (x_disk w2) (path_join path stream_data_name) = None).
  { rewrite D2, on_disk_other; [apply V2|]. intros E. symmetry in E. exact (join_neq _ _ E). }
  destruct (exists_no_fault path stream_data_name w2 eq_refl Hnf) as (w3 & H3 & D3).
  rewrite (xbind_Ok _ _ _ _ _ H3). set (target := path_join path stream_data_name) in *.
  destruct (open_no_fault target w3) as (w4 & H4 & D4). rewrite (xbind_Ok _ _ _ _ _ H4).
  destruct (copy_item_data ho rd v d target w4) as (l & Hl & Hdata); [rewrite D4; apply on_disk_same|].
  pose proof (copy_item_other ho rd v d target w4) as Hother.
  destruct (copy_no_fault d target w4 Hread) as (w5 & H5).
  rewrite (xbind_Ok _ _ _ _ _ H5). rewrite H5 in Hl, Hdata, Hother. cbn [snd fst] in *.
  destruct (close_no_fault w5) as (w6 & H6 & D6). rewrite (xbind_Ok _ _ _ _ _ H6).
  destruct (sub_nodes_of k d Hd) as (subs & Hsubs & Hnd & Hin).
  unfold xbind. rewrite Hsubs. cbn [xlift].
  (* The disk before the sub items. *)
  assert (HA : adds (x_disk w1) (x_disk w6) (made_for d path)).
  { intros q x. rewrite D6. unfold made_for. rewrite data_path_join. fold target.
    destruct (list_eq_dec Z.eq_dec q target) as [->|Hq].
    - rewrite Hl. split.
      + intros E. right. right. split; [reflexivity|].
        assert (Hit : exists s, item_data rd v d s).
        { destruct Hread as [H0|(s & Hs)]; [exists []; left; auto|exists s; right; now apply readable_stream]. }
        destruct Hit as (s & Hs). exists s. split; [exact Hs|].
        destruct (Hdata s Hs) as (_ & Hls). specialize (Hls eq_refl). congruence.
      + intros [E|[(E & _)|(_ & s & Hs & ->)]].
        * unfold target in E. unfold path_join at 1, SLASH in E. rewrite V2 in E. discriminate.
        * symmetry in E. destruct (join_neq _ _ E).
        * destruct (Hdata s Hs) as (_ & Hls). specialize (Hls eq_refl). congruence.
    - rewrite (Hother q Hq), D4, on_disk_other, D3, D2 by exact Hq.
      rewrite on_disk_cons. destruct (list_eq_dec Z.eq_dec q path) as [->|Hqp].
      + split; [intros E; right; left; split; congruence|].
        intros [E|[(_ & ->)|(E & _)]]; [congruence|reflexivity|congruence].
      + split; [auto|]. intros [E|[(E & _)|(E & _)]]; [exact E|congruence|congruence]. }
  destruct (loop_claim fuel k path IH ltac:(lia) subs 0 w6 Hnd ltac:(intros; now apply Hin))
    as (w7 & H7 & HA7).
  { intros j d' n' Hj Hd' Hn'. apply Hin in Hj.
    destruct (Hitems _ _ _ Hj Hd') as ((n'' & Hn'' & Hslash' & Hres') & _).
    rewrite (safe_name_fun _ _ _ Hn'' Hn') in *.
    assert (Hne : stream_data_name <> n').
    { intros E. apply Hres'. rewrite <- E. simpl. auto. }
    assert (Hx : forall q, (q = path_join path n' \/ below_path (path_join path n') q) ->
                 on_disk (x_disk w6) q = None).
    { intros q Hq. eapply adds_none; [exact HA| |].
      - assert (Hb : below_path path q).
        { destruct Hq as [->|Hq]; [apply join_below|eapply below_join; eauto]. }
        destruct Hb as (y & ->). apply V2.
      - intros x [(-> & _)|(-> & _)].
        + destruct Hq as [Hq|Hq]; [exact (join_neq _ _ Hq)|].
          apply below_join in Hq. destruct Hq as (y & Hq). exact (join_neq _ _ Hq).
        + rewrite data_path_join in Hq.
          destruct (join_apart path stream_data_name n' _ stream_data_plain Hslash' Hne
            (or_introl eq_refl)) as (F1 & F2). destruct Hq; auto. }
    split; [apply Hx; auto|]. intros q. apply Hx. right. exists q. reflexivity. }
  exists w7. split; [exact H7|]. intros q x. rewrite (HA7 q x), (HA q x).
  rewrite (effect_split k d path q x Hd). split.
  - intros [[H|H]|(j & d' & n' & Hj & H)]; auto.
    right. right. exists j, d', n'. split; [now apply Hin|exact H].
  - intros [H|[H|(j & d' & n' & Hj & H)]]; auto.
    right. exists j, d', n'. split; [now apply Hin|exact H].
Qed.

Lemma export_sub_items_exact k d dir w : item_entry t k d ->
  (forall q, on_disk (x_disk w) (dir ++ 47 :: q) = None) ->
  exists w', export_sub_items ho rd v t k dir w = (Ok tt, w') /\
    adds (x_disk w) (x_disk w') (expected ho rd v t k dir).
Proof.
  intros Hd Hv. destruct (sub_nodes_of k d Hd) as (subs & Hsubs & Hnd & Hin).
  unfold export_sub_items, xbind. rewrite Hsubs. cbn [xlift].
  destruct (loop_claim (length (tr_nodes t)) k dir (item_exact _) ltac:(lia) subs 0 w Hnd
    ltac:(intros; now apply Hin)) as (w' & H & HA).
  { intros j d' n' _ _ _. split; [apply Hv|]. intros q. unfold path_join, SLASH.
    rewrite <- app_assoc. apply Hv. }
  exists w'. split; [exact H|]. intros q x. rewrite (HA q x), expected_split. split.
  - intros [H0|(j & d' & n' & Hj & H0)]; [auto|]. right. exists j, d', n'. split; [now apply Hin|exact H0].
  - intros [H0|(j & d' & n' & Hj & H0)]; [auto|]. right. exists j, d', n'. split; [now apply Hin|exact H0].
Qed.
End Exact.

(** * Definedness *)
Section Defined.
Variables (ho : host) (rd : reader) (v : volume) (t : tree).
Hypothesis HT : tree_shape t.
Hypothesis HV : volume_ok v.
Hypothesis HD : forall k d, item_entry t k d -> dirent_ok d.
(** No name is shorter than nine characters. *)
Hypothesis HN : forall k d n, item_entry t k d -> safe_name ho (v_byte_order v) d n -> 9 <= zlen n.

Lemma file_exists_defined p n w : defined (fst (file_exists ho p n w)).
Proof. unfold file_exists. rewrite call_fst. destruct (ho_fault _ _); exact I. Qed.

Lemma choose_name_defined k d index dir w : item_entry t k d ->
  defined (fst (choose_name ho v d index dir w)).
Proof.
  intros Hk. unfold choose_name.
  destruct (ho_name _ _ _) as [raw|] eqn:E1; [|exact I].
  destruct (ho_sanitize ho raw) as [n|] eqn:E2; [|exact I].
  apply xbind_defined; [apply file_exists_defined|]. intros [|] w1 _; [|exact I].
  unfold xlift. cbn [fst]. unfold item_name_again.
  assert (Hl : 9 <= zlen n) by (eapply HN; [exact Hk|]; exists raw; auto).
  rewrite (proj2 (Z.ltb_ge (zlen n + 1) 10)) by lia.
  destruct (12 <? _); exact I.
Qed.

Lemma sub_items_loop_defined one dir : forall subs index w,
  (forall k index w, In k subs -> defined (fst (one k index dir w))) ->
  defined (fst (sub_items_loop one index subs dir w)).
Proof.
  induction subs as [|k subs IH]; intros index w H; cbn [sub_items_loop]; [exact I|].
  pose proof (H k index w (or_introl eq_refl)) as Hk.
  destruct (one k index dir w) as [[u| | |] w1]; cbn [fst] in *; try exact Hk;
    apply IH; intros; apply H; right; assumption.
Qed.

Lemma export_item_defined fuel : forall k index dir w,
  (k < length (tr_nodes t))%nat -> (length (tr_nodes t) - k <= fuel)%nat ->
  defined (fst (export_item ho rd v t fuel k index dir w)).
Proof.
  induction fuel as [|fuel IH]; intros k index dir w Hk Hfuel; [lia|].
  rewrite export_item_unfold.
  destruct (nth_error (tr_nodes t) k) as [nd|] eqn:En; [|apply nth_error_None in En; lia].
  assert (Hd : item_entry t k (n_entry nd)) by (exists nd; auto).
  apply xbind_defined.
  { unfold xlift, node_value. rewrite En. exact I. }
  intros d w1 H1. unfold xlift in H1. apply pair_ok in H1 as [H1 <-].
  apply node_value_entry in H1.
  apply xbind_defined; [eapply choose_name_defined; eauto|]. intros name w2 _.
  apply xbind_defined.
  { unfold make_directory. rewrite call_fst. destruct (ho_fault _ _); [exact I|].
    destruct (dot_name name); [exact I|]. destruct (on_disk _ _); exact I. }
  intros u w3 _. cbv zeta.
  apply xbind_defined; [apply file_exists_defined|]. intros [|] w4 _; [exact I|].
  apply xbind_defined.
  { unfold open_write. rewrite call_fst. destruct (ho_fault _ _); exact I. }
  intros u5 w5 _. apply xbind_defined.
  { unfold copy_item. destruct (0 <? de_size d) eqn:E0; [|exact I].
    pose proof (HD _ _ H1) as Hok. destruct (Hok) as [_ Hsz]. unfold is_u32 in Hsz.
    apply copy_loop_defined; auto.
    unfold BUFFER_SIZE. pose proof (Z.div_mod (de_size d) 32768 ltac:(lia)).
    pose proof (Z.mod_pos_bound (de_size d) 32768 ltac:(lia)).
    assert (0 <= de_size d / 32768) by (apply Z.div_pos; lia). lia. }
  intros u6 w6 _. apply xbind_defined.
  { unfold close_file. rewrite call_fst. destruct (ho_fault _ _); exact I. }
  intros u7 w7 _. apply xbind_defined.
  { unfold xlift, sub_nodes. rewrite En. exact I. }
  intros subs w8 H8. unfold xlift, sub_nodes in H8. rewrite En in H8.
  apply pair_ok in H8 as [H8 _]. apply Ok_inj in H8. subst subs.
  apply sub_items_loop_defined. intros j i w9 Hj.
  assert (Hs : item_sub t k j) by (exists nd; auto).
  pose proof (ts_later _ HT _ _ Hs). apply IH; lia.
Qed.

Lemma export_sub_items_defined k dir w : (k < length (tr_nodes t))%nat ->
  defined (fst (export_sub_items ho rd v t k dir w)).
Proof.
  intros Hk. unfold export_sub_items.
  destruct (nth_error (tr_nodes t) k) as [nd|] eqn:En; [|apply nth_error_None in En; lia].
  apply xbind_defined.
  { unfold xlift, sub_nodes. rewrite En. exact I. }
  intros subs w8 H8. unfold xlift, sub_nodes in H8. rewrite En in H8.
  apply pair_ok in H8 as [H8 _]. apply Ok_inj in H8. subst subs.
  apply sub_items_loop_defined. intros j i w9 Hj.
  assert (Hs : item_sub t k j) by (exists nd; auto).
  pose proof (ts_later _ HT _ _ Hs). apply export_item_defined; lia.
Qed.
End Defined.
