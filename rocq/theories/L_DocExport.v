(** Lemmas on the export of documents. *)
From Coq Require Import ZArith List Bool Lia Arith.
From Verif Require Import Base Spec_IO M_Header M_Table M_Load M_Stream M_Tree M_Open M_Item M_Export
  Spec_Stream Spec_Load Spec_Tree Spec_Open Spec_Content Spec_Item Spec_Export
  L_Base L_Stream2 L_Open2 L_Tree L_Tree2 L_Tree3 L_Session L_Item L_Export L_Export2 L_Export3 P_Export
  L_Write L_Write2 L_Write6 L_Write7 Spec_Write Spec_Doc L_Doc Spec_DocExport.
Import ListNotations.
Open Scope Z_scope.

Lemma readable_only rd v d s s' : is_readable_stream rd v d s -> is_stream rd v d s' -> s' = s.
Proof.
  intros (_ & _ & _ & _ & _ & f & S1 & T1 & _ & L1 & C1) (_ & _ & _ & _ & f' & S2 & _ & L2 & C2).
  apply znth_ext; [congruence|]. intros i Hi.
  destruct (znth_some s' i Hi) as (b' & Hb'). destruct (znth_some s i) as (b & Hb); [congruence|]. rewrite Hb, Hb'.
  destruct (C1 i b Hb) as (p & P1 & F1). destruct (C2 i b' Hb') as (p' & P2 & F2).
  rewrite (stream_position_fun _ _ _ _ _ P2 P1) in F2. clear p' P2.
  pose proof (znth_range _ _ _ F1) as Hp.
  destruct (T1 [] p 1 ltac:(lia) ltac:(lia) ltac:(lia)) as (l & R1 & R2).
  destruct (S1 [] p 1 l ltac:(lia) ltac:(lia) R1 R2) as (_ & E1). destruct (S2 [] p 1 l ltac:(lia) ltac:(lia) R1 R2) as (_ & E2).
  assert (G : forall (g : list Z) c, znth g p = Some c -> slice g p 1 = [c]).
  { intros g c Hg. pose proof (znth_range _ _ _ Hg). apply znth_ext; [rewrite zlen_slice by lia; reflexivity|].
    intros k Hk. rewrite zlen_slice in Hk by lia. rewrite znth_slice by lia. assert (k = 0) by lia. subst k. now rewrite Z.add_0_r. }
  rewrite (G f b F1) in E1. rewrite (G f' b' F2) in E2. congruence.
Qed.

Section Doc.
Variables (ho : host) (rd : reader) (v : volume) (t : tree) (doc : document) (safe : list Z -> list Z).
Let e := v_byte_order v.
Hypothesis no_data : forall k nd, nth_error (tr_nodes t) k = Some nd -> de_type (n_entry nd) = 1 -> de_size (n_entry nd) = 0.

Lemma item_safe i j : item_at rd v t doc (At i) j -> host_name ho e safe (name_of i) ->
  exists d, item_entry t j d /\ forall n, safe_name ho e d n <-> n = safe (name_of i).
Proof.
  intros (nd & N1 & N2 & _) ((raw & R1 & R2) & _). exists (n_entry nd). split; [exists nd; auto|].
  assert (En : de_name (n_entry nd) = name_of i) by (destruct i; cbn [entry_of name_of] in *; tauto).
  intros n. unfold safe_name. rewrite En. split; [intros (raw' & A1 & A2); congruence|intros ->; eauto].
Qed.

Lemma entry_unique k d d' : item_entry t k d -> item_entry t k d' -> d = d'.
Proof. intros (n & Hn & <-) (n' & Hn' & <-). congruence. Qed.

Lemma effects js fo : shows rd v t js fo -> names_ok (host_name ho e safe) fo ->
  forall dir q x,
    (exists j d n, In j js /\ item_entry t j d /\ safe_name ho e d n /\ effect ho rd v t j (path_join dir n) q x) <->
    In (q, x) (exported safe fo dir).
Proof.
  induction 1 as [|j js nd n c m s r H1 H2 H3 H4 H5 H6 H7 H8 IH|j js nd n c m a r H1 H2 IHa H3 H4 H5 H6 H7 IH];
    cbn [names_ok exported]; intros HN dir q x.
  - split; [intros (j & _ & _ & [] & _)|intros []].
  - destruct HN as (Hn & HN). cbv zeta. cbn [In]. rewrite <- (IH HN dir q x).
    assert (Hd : item_entry t j (n_entry nd)) by (exists nd; auto).
    assert (Hs : forall n0, safe_name ho e (n_entry nd) n0 <-> n0 = safe n).
    { intros n0. destruct Hn as ((raw & R1 & R2) & _). unfold safe_name. rewrite H4. split; [intros (raw' & A1 & A2); congruence|intros ->; eauto]. }
    assert (He : effect ho rd v t j (path_join dir (safe n)) q x <->
                 (path_join dir (safe n), Directory) = (q, x) \/ (data_path (path_join dir (safe n)), Data s) = (q, x)).
    { rewrite (effect_split ho rd v t j _ _ q x Hd). unfold made_for. split.
      - intros [[(-> & ->)|(-> & s' & Hs' & ->)]|(i & d' & n' & (nd' & E1 & E2) & _)].
        + now left.
        + right. destruct Hs' as [(Z0 & ->)|Hs'].
          * assert (s = []); [|now subst]. pose proof H7 as (_ & _ & _ & _ & _ & f & _ & _ & _ & L & _). rewrite Z0 in L.
            destruct s; [reflexivity|]. rewrite zlen_cons in L. pose proof (zlen_nonneg s). lia.
          * now rewrite (readable_only _ _ _ _ _ H7 Hs').
        + assert (nd' = nd) by congruence. subst nd'. rewrite H2 in E2. destruct E2.
      - intros [E|E]; apply pair_equal_spec in E; destruct E as (<- & <-); left; [now left|right].
        split; [reflexivity|]. exists s. split; [right; now apply readable_stream|reflexivity]. }
    split.
    + intros (j' & d' & n' & [<-|Hj] & Hd' & Hn' & HE).
      * rewrite (entry_unique _ _ _ Hd' Hd) in Hn'. apply Hs in Hn'. subst n'. apply He in HE. unfold path_join in HE. tauto.
      * right. right. exists j', d', n'. auto.
    + intros [E|[E|(j' & d' & n' & Hj & HR)]].
      * exists j, (n_entry nd), (safe n). split; [now left|]. split; [exact Hd|]. split; [now apply Hs|]. apply He. now left.
      * exists j, (n_entry nd), (safe n). split; [now left|]. split; [exact Hd|]. split; [now apply Hs|]. apply He. now right.
      * exists j', d', n'. split; [now right|exact HR].
  - destruct HN as (Hn & HNa & HN). cbv zeta. cbn [In]. rewrite in_app_iff. rewrite <- (IH HN dir q x).
    assert (Hd : item_entry t j (n_entry nd)) by (exists nd; auto).
    assert (Hs : forall n0, safe_name ho e (n_entry nd) n0 <-> n0 = safe n).
    { intros n0. destruct Hn as ((raw & R1 & R2) & _). unfold safe_name. rewrite H4. split; [intros (raw' & A1 & A2); congruence|intros ->; eauto]. }
    assert (He : effect ho rd v t j (path_join dir (safe n)) q x <->
                 (path_join dir (safe n), Directory) = (q, x) \/ (data_path (path_join dir (safe n)), Data []) = (q, x) \/
                 In (q, x) (exported safe a (path_join dir (safe n)))).
    { rewrite (effect_split ho rd v t j _ _ q x Hd). rewrite <- (IHa HNa (path_join dir (safe n)) q x). unfold made_for. split.
      - intros [[(-> & ->)|(-> & s' & Hs' & ->)]|(i & d' & n' & (nd' & E1 & E2) & HR)].
        + now left.
        + right. left. destruct Hs' as [(_ & ->)|Hs']; [reflexivity|]. destruct Hs' as (_ & _ & _ & _ & f & _ & C1 & _). congruence.
        + right. right. assert (nd' = nd) by congruence. subst nd'. exists i, d', n'. auto.
      - intros [E|[E|(i & d' & n' & Hi & HR)]].
        + apply pair_equal_spec in E; destruct E as (<- & <-). left. now left.
        + apply pair_equal_spec in E; destruct E as (<- & <-). left. right. split; [reflexivity|]. exists []. split; [|reflexivity].
          left. split; [|reflexivity]. now apply (no_data j nd H1).
        + right. exists i, d', n'. split; [exists nd; auto|exact HR]. }
    split.
    + intros (j' & d' & n' & [<-|Hj] & Hd' & Hn' & HE).
      * rewrite (entry_unique _ _ _ Hd' Hd) in Hn'. apply Hs in Hn'. subst n'. apply He in HE. unfold path_join in HE. tauto.
      * right. right. right. exists j', d', n'. auto.
    + intros [E|[E|[E|(j' & d' & n' & Hj & HR)]]].
      * exists j, (n_entry nd), (safe n). split; [now left|]. split; [exact Hd|]. split; [now apply Hs|]. apply He. now left.
      * exists j, (n_entry nd), (safe n). split; [now left|]. split; [exact Hd|]. split; [now apply Hs|]. apply He. right. now left.
      * exists j, (n_entry nd), (safe n). split; [now left|]. split; [exact Hd|]. split; [now apply Hs|]. apply He. right. now right.
      * exists j', d', n'. split; [now right|exact HR].
Qed.
End Doc.

(** * All items of the tree are those of the document *)
Definition inside (doc : document) (p : place) : Prop :=
  p = Top \/ exists q i, p = At i /\ In i (members (below doc q)).

(** The names of the items in reach. *)
Inductive in_reach (doc : document) : place -> Prop :=
| ir_top : in_reach doc Top
| ir_sub p i : in_reach doc p -> In i (members (below doc p)) -> in_reach doc (At i).

Lemma reach_names doc P p : names_ok P (doc_items doc) -> in_reach doc p -> names_ok P (below doc p).
Proof. intros HP. induction 1 as [|p i Hp IH Hi]; [exact HP|]. eapply names_below; eauto. Qed.

Lemma own_below doc safe fo i : own_names safe fo -> In i (members fo) -> own_names safe (below doc (At i)).
Proof.
  induction fo as [|n c m s r IH|n c m a _ r IH]; cbn [own_names members]; intros H Hi.
  - destruct Hi.
  - destruct H as (_ & H2). destruct Hi as [<-|Hi]; [exact I|auto].
  - destruct H as (_ & H1 & H2). destruct Hi as [<-|Hi]; [exact H1|auto].
Qed.

Lemma reach_own doc safe p : own_names safe (doc_items doc) -> in_reach doc p -> own_names safe (below doc p).
Proof. intros HP. induction 1 as [|p i Hp IH Hi]; [exact HP|]. eapply own_below; eauto. Qed.

Lemma own_nodup safe fo : own_names safe fo -> NoDup (map (fun i => safe (name_of i)) (members fo)).
Proof.
  induction fo as [|n c m s r IH|n c m a _ r IH]; cbn [own_names members map]; intros H; [constructor| |].
  - destruct H. constructor; auto.
  - destruct H as (H1 & _ & H2). constructor; auto.
Qed.

Lemma Forall2_in_l {A B} (R : A -> B -> Prop) l m x : Forall2 R l m -> In x l -> exists y, In y m /\ R x y.
Proof.
  induction 1 as [|a b l m Hab _ IH]; intros []; [subst; exists b; split; [now left|auto]|].
  destruct (IH H) as (y & Hy & Hr). exists y. split; [now right|auto].
Qed.

Lemma Forall2_index {A B} (R : A -> B -> Prop) l m x : Forall2 R l m -> In x l ->
  exists i y, nth_error l i = Some x /\ nth_error m i = Some y /\ R x y.
Proof.
  induction 1 as [|a b l m Hab _ IH]; intros []; [subst; exists 0%nat, b; auto|].
  destruct (IH H) as (i & y & H1 & H2 & H3). exists (S i), y. auto.
Qed.

Lemma tree_places u rd o t tr doc :
  una_ok u -> io_bytes rd -> open_read u rd [] = (Ok o, t) -> o_tree o = Some tr ->
  (forall k nd, nth_error (tr_nodes tr) k = Some nd -> de_type (n_entry nd) = 1 -> de_size (n_entry nd) = 0) ->
  item_at rd (opened_volume o) tr doc Top 0 ->
  forall k d, item_entry tr k d -> exists p, in_reach doc p /\ item_at rd (opened_volume o) tr doc p k.
Proof.
  intros Hu HB HO Ht Hnd H0. destruct (opened_made u rd Hu HB o t HO tr Ht) as (root & HM).
  pose proof (made_wf u _ _ root tr HM) as W.
  intros k. induction k as [k IH] using lt_wf_ind. intros d Hk.
  destruct (Nat.eq_dec k 0) as [->|Hne]; [exists Top; split; [constructor|exact H0]|].
  pose proof (proj1 (item_vw tr k d) Hk) as (q & Hv).
  destruct (wf_parent _ _ W k d q ltac:(lia) Hv) as (p' & -> & Hlt).
  assert (Hp' : exists d', item_entry tr p' d').
  { assert (Hx : nth_error (vw (final tr)) p' <> None).
    { apply nth_error_Some. apply Nat.lt_trans with k; [exact Hlt|]. apply nth_error_Some. congruence. }
    destruct (nth_error (vw (final tr)) p') as [[d' q']|] eqn:E; [|congruence]. exists d'. apply item_vw. eauto. }
  pose proof Hp' as (d' & Hd'). destruct (IH p' Hlt d' Hd') as (pl & HR & HI).
  assert (HS : item_sub tr p' k) by (eapply sub_vw; eauto).
  destruct HI as (nd & N1 & _ & N3 & _). destruct HS as (nd' & N1' & HS). assert (nd' = nd) by congruence. subst nd'.
  destruct (Forall2_in_l _ _ _ _ (shows_members rd (opened_volume o) tr doc Hnd _ _ N3) HS) as (i & Hi & Hr).
  exists (At i). split; [econstructor; eauto|exact Hr].
Qed.

Lemma document_exportable ho u rd o t tr doc safe :
  una_ok u -> io_bytes rd -> open_read u rd [] = (Ok o, t) -> o_tree o = Some tr ->
  (forall k nd, nth_error (tr_nodes tr) k = Some nd -> de_type (n_entry nd) = 1 -> de_size (n_entry nd) = 0) ->
  item_at rd (opened_volume o) tr doc Top 0 ->
  names_ok (host_name ho (v_byte_order (opened_volume o)) safe) (doc_items doc) -> own_names safe (doc_items doc) ->
  exportable ho rd (opened_volume o) tr.
Proof.
  intros Hu HB HO Ht Hnd H0 HN HOwn. set (v := opened_volume o) in *.
  assert (HS : forall k nd j, nth_error (tr_nodes tr) k = Some nd -> In j (n_subs nd) ->
             exists p x i, in_reach doc p /\ nth_error (n_subs nd) x = Some j /\ nth_error (members (below doc p)) x = Some i /\
               item_at rd v tr doc (At i) j /\ length (n_subs nd) = length (members (below doc p)) /\ shows rd v tr (n_subs nd) (below doc p)).
  { intros k nd j Hk Hj. destruct (tree_places u rd o t tr doc Hu HB HO Ht Hnd H0 k (n_entry nd)) as (p & HR & nd' & N1 & _ & N3 & _).
    { exists nd. auto. }
    assert (nd' = nd) by congruence. subst nd'. pose proof (shows_members rd v tr doc Hnd _ _ N3) as HF.
    destruct (Forall2_index _ _ _ j HF Hj) as (x & i & X1 & X2 & X3). exists p, x, i.
    repeat (split; [assumption|]). split; [|exact N3]. clear - HF. induction HF; cbn; congruence. }
  split; [eapply opened_shape; eauto|]. split.
  - intros k j d (nd & Hk & Hj) Hd. destruct (HS k nd j Hk Hj) as (p & x & i & HR & _ & Hi & HI & _).
    pose proof (names_members _ _ (reach_names doc _ p HN HR)) as HF. rewrite Forall_forall in HF.
    specialize (HF i (nth_error_In _ _ Hi)). destruct (item_safe ho rd v tr doc safe i j HI HF) as (d' & Hd' & Hs).
    rewrite (entry_unique tr _ _ _ Hd Hd') in *. split.
    + exists (safe (name_of i)). split; [now apply Hs|]. exact (proj2 HF).
    + destruct HI as (nd' & N1 & N2 & _ & N4). destruct Hd' as (nd'' & N1' & <-). assert (nd'' = nd') by congruence. subst nd''.
      destruct i as [n c m s|n c m a]; [right; exists s; exact N4|left]. cbn [entry_of] in N2. tauto.
  - intros k i j d d' n (nd & Hk & Hi) (nd' & Hk' & Hj) Hd Hd' Hn Hn'. assert (nd' = nd) by congruence. subst nd'.
    destruct (HS k nd i Hk Hi) as (p & x & a & HR & X1 & X2 & X3 & X4 & HSh).
    pose proof (shows_members rd v tr doc Hnd _ _ HSh) as HF2. destruct (Forall2_index _ _ _ j HF2 Hj) as (y & b & Y1 & Y2 & Y3).
    pose proof (names_members _ _ (reach_names doc _ p HN HR)) as HF. rewrite Forall_forall in HF.
    destruct (item_safe ho rd v tr doc safe a i X3 (HF a (nth_error_In _ _ X2))) as (da & Ha & Hsa).
    destruct (item_safe ho rd v tr doc safe b j Y3 (HF b (nth_error_In _ _ Y2))) as (db & Hb & Hsb).
    rewrite (entry_unique tr _ _ _ Hd Ha) in Hn. rewrite (entry_unique tr _ _ _ Hd' Hb) in Hn'.
    apply Hsa in Hn. apply Hsb in Hn'.
    pose proof (own_nodup safe _ (reach_own doc safe p HOwn HR)) as HND.
    assert (x = y); [|congruence]. rewrite NoDup_nth_error in HND. apply HND.
    + rewrite map_length. apply nth_error_Some. congruence.
    + rewrite !nth_error_map, X2, Y2. cbn. congruence.
Qed.

(** * What is exported *)
Lemma exported_in safe fo dir q x : In (q, x) (exported safe fo dir) -> exists y, q = dir ++ 47 :: y.
Proof.
  revert dir. induction fo as [|n c m s r IH|n c m a IHa r IH]; intros dir; cbn [exported]; cbv zeta; cbn [In]; [intros []| |].
  - intros [H|[H|H]]; [| |auto]; apply pair_equal_spec in H; destruct H as (<- & _); [eauto|].
    unfold data_path. rewrite <- app_assoc. cbn [app]. eauto.
  - rewrite in_app_iff. intros [H|[H|[H|H]]]; [| | |auto].
    + apply pair_equal_spec in H; destruct H as (<- & _). eauto.
    + apply pair_equal_spec in H; destruct H as (<- & _). unfold data_path. rewrite <- app_assoc. cbn [app]. eauto.
    + apply IHa in H as (y & ->). rewrite <- app_assoc. cbn [app]. eauto.
Qed.

Lemma exported_stream safe fo n c m s dir : In (Stream n c m s) (members fo) ->
  In (data_path (path_join dir (safe n)), Data s) (exported safe fo dir).
Proof.
  induction fo as [|n' c' m' s' r IH|n' c' m' a _ r IH]; cbn [members exported]; cbv zeta; cbn [In].
  - intros [].
  - intros [[= <- <- <- <-]|H]; auto.
  - rewrite in_app_iff. intros [H|H]; [discriminate|auto].
Qed.

Lemma exported_below safe fo n c m a dir z : In (Storage n c m a) (members fo) ->
  In z (exported safe a (path_join dir (safe n))) -> In z (exported safe fo dir).
Proof.
  intros H Hz. induction fo as [|n' c' m' s' r IH|n' c' m' a' _ r IH]; cbn [members exported] in *; cbv zeta; cbn [In].
  - destruct H.
  - destruct H as [H|H]; [discriminate|auto].
  - rewrite in_app_iff. destruct H as [[= -> -> -> ->]|H]; auto.
Qed.

Lemma reached_exported safe doc names p n c m s dir :
  reached doc (fun q n => if list_eq_dec Z.eq_dec q (safe n) then true else false) p names = Some (At (Stream n c m s)) ->
  names <> [] ->
  In (data_path (fold_left path_join names dir), Data s) (exported safe (below doc p) dir).
Proof.
  revert p dir. induction names as [|q names IH]; intros p dir H Hne; [congruence|].
  cbn [reached] in H. destruct (find _ _) as [i|] eqn:Hf; [|discriminate H].
  apply find_some in Hf as (Hi & Hq). destruct (list_eq_dec Z.eq_dec q _) as [->|]; [|discriminate Hq]. clear Hq.
  destruct names as [|q' names].
  - injection H as ->. cbn [fold_left name_of]. eapply exported_stream, Hi.
  - destruct i as [n' c' m' s'|n' c' m' a]; [discriminate H|].
    cbn [fold_left]. eapply exported_below; [exact Hi|]. exact (IH _ _ H ltac:(discriminate)).
Qed.
