(** Lemmas on C programs: what the variables refer to, leaks, and files that
    have nothing to do with each other. *)
From Coq Require Import ZArith List Bool Lia Arith.
From Verif Require Import Base Spec_IO M_Header M_Table M_Load M_Stream M_Tree M_Open M_Item M_File M_Prop
  Spec_Stream Spec_Load Spec_Open Spec_Tree Spec_Item Spec_File
  L_Base L_Stream L_Stream2 L_Stream3 L_Tree L_Tree2 L_Tree3 L_Open L_Open2 L_Item L_Session L_File L_Prop3
  M_Api Spec_Api L_Api L_Api2.
Import ListNotations.
Open Scope Z_scope.

(** * What the variables refer to *)
Definition item_owner (o : option (option (nat * nat * Z))) : option owner :=
  match o with None => None | Some None => Some Gone | Some (Some (f, _, _)) => Some (Of f) end.
Definition part_owner (o : option (option (nat * Z))) : option owner :=
  match o with None => None | Some None => Some Gone | Some (Some (f, _)) => Some (Of f) end.
Definition value_owner (o : option (option (nat * Z * Z))) : option owner :=
  match o with None => None | Some None => Some Gone | Some (Some (f, _, _)) => Some (Of f) end.

Record vrel (w : view) (a : astate) : Prop := {
  vr_items : forall i, vw_items w i = item_owner (as_items a i);
  vr_sets : forall x, vw_sets w x = match as_sets a x with Some _ => true | None => false end;
  vr_sections : forall c, vw_sections w c = part_owner (as_sections a c);
  vr_values : forall v, vw_values w v = value_owner (as_values a v)
}.

Lemma vrel_start : vrel nothing a_start.
Proof. constructor; reflexivity. Qed.

Lemma now_upd {A B} (m : nat -> A) (g : B -> A) (h : nat -> B) i x y : (forall j, m j = g (h j)) -> x = g y ->
  forall j, now m i x j = g (upd h i y j).
Proof. intros H1 H2 j. unfold now, upd. destruct (Nat.eqb j i); auto. Qed.

Section View.
Variable lib : clib.
Hypothesis HL : clib_ok lib.
Let u := cl_una lib.

Lemma lost_kill w a f o : vrel w a -> (o = None \/ exists x, o = Some x) ->
  vrel (see_items w (lost (vw_items w) f)) (a_file (kill_items a f) f o).
Proof.
  intros [V1 V2 V3 V4] _. constructor; cbn; auto. intros i. unfold lost. rewrite V1.
  destruct (as_items a i) as [[[[g k] c]|]|]; cbn; auto. destruct (Nat.eqb g f); reflexivity.
Qed.
Lemma lost_nothing w a f : vrel w a -> (forall i k c, as_items a i <> Some (Some (f, k, c))) ->
  vrel (see_items w (lost (vw_items w) f)) a.
Proof.
  intros [V1 V2 V3 V4] H. constructor; cbn; auto. intros i. unfold lost. rewrite V1. specialize (H i).
  destruct (as_items a i) as [[[[g k] c]|]|]; cbn; auto. destruct (Nat.eqb_spec g f) as [->|N]; [|reflexivity].
  exfalso. apply (H k c). reflexivity.
Qed.
Lemma vrel_world w a x : vrel w a -> vrel w (a_world a x).
Proof. intros []. constructor; auto. Qed.
Lemma vrel_file w a f x : vrel w a -> vrel w (a_file a f x).
Proof. intros []. constructor; auto. Qed.
Lemma vrel_item w a i o x : vrel w a -> x = item_owner o -> vrel (see_items w (now (vw_items w) i x)) (a_item a i o).
Proof. intros [V1 V2 V3 V4] H. constructor; cbn; auto. apply now_upd; auto. Qed.
Lemma vrel_same_item w a i f k c k' c' : vrel w a -> as_items a i = Some (Some (f, k, c)) ->
  vrel w (a_item a i (Some (Some (f, k', c')))).
Proof.
  intros [V1 V2 V3 V4] H. constructor; cbn; auto. intros j. rewrite V1. unfold upd.
  destruct (Nat.eqb_spec j i) as [->|N]; [rewrite H; reflexivity|reflexivity].
Qed.

Lemma file_item_view ce f lookup i w a : vrel w a ->
  vrel (match fst (a_file_item ce f lookup i a) with CDone => see_items w (now (vw_items w) i (Some (Of f))) | _ => w end)
       (snd (a_file_item ce f lookup i a)).
Proof.
  intros V. unfold a_file_item, a_on_file, a_new_item. destruct (as_files a f) as [x|]; [|exact V].
  destruct (as_items a i); [exact V|]. destruct (lookup x) as [[k|]| | |]; try exact V.
  destruct (ce_memory ce); [|exact V]. destruct (node_value _ k); try exact V. cbn. apply vrel_item; auto.
Qed.

Lemma step_view ce c w a : vrel w a -> ainv u a -> vrel (after w (c, fst (a_step lib ce c a))) (snd (a_step lib ce c a)).
Proof.
  intros V HI. destruct c; cbn [a_step].
  - destruct (as_files a f); [exact V|]. destruct (ce_memory ce); [|exact V]. apply vrel_file. exact V.
  - destruct (as_files a f) as [x|] eqn:Ef.
    + destruct (file_free _ _ _) as [r w']. cbn [fst snd after]. apply vrel_world. apply lost_kill; auto.
    + cbn [fst snd after]. apply lost_nothing; [exact V|]. intros i k c Hi.
      destruct (ai_items _ _ HI _ _ _ _ Hi) as (_ & x & t & Hx & _). congruence.
  - unfold a_on_file. destruct (as_files a f); [|exact V]. destruct (file_step _ _ _ _ _) as [[r x'] w'].
    apply vrel_world, vrel_file. exact V.
  - unfold a_on_file. destruct (as_files a f); [|exact V]. destruct (file_step _ _ _ _ _) as [[r x'] w'].
    apply vrel_world, vrel_file. exact V.
  - unfold a_on_file. destruct (as_files a f) as [x|] eqn:Ef.
    + destruct (file_step _ _ _ _ _) as [[r x'] w']. destruct (fs_handle x) as [h|] eqn:Eh.
      * cbn [fst snd after]. apply vrel_world, lost_kill; eauto.
      * cbn [fst snd after]. apply lost_nothing; [exact V|]. intros i k c Hi.
        destruct (ai_items _ _ HI _ _ _ _ Hi) as (_ & y & t & Hy & Ht & _).
        assert (y = x) by congruence. subst y. pose proof (ai_files _ _ HI _ _ Ef) as Hx. unfold file_inv in Hx. rewrite Eh in Hx.
        unfold file_tree in Ht. destruct Hx as (E & _). rewrite E in Ht. discriminate.
    + cbn [fst snd after]. apply lost_nothing; [exact V|]. intros i k c Hi.
      destruct (ai_items _ _ HI _ _ _ _ Hi) as (_ & x & t & Hx & _). congruence.
  - unfold a_on_file. destruct (as_files a f); [|exact V]. destruct (query_op q); [|exact V].
    destruct (file_step _ _ _ _ _) as [[r x'] w']. apply vrel_file. exact V.
  - apply (file_item_view ce f _ i w a V).
  - apply (file_item_view ce f _ i w a V).
  - apply (file_item_view ce f _ i w a V).
  - cbn. apply vrel_item; auto.
  - destruct (as_items a i); exact V.
  - destruct (as_items a i) as [o|] eqn:Ei; [|exact V]. destruct (as_items a j) eqn:Ej; [exact V|].
    unfold a_new_item. destruct (tree_found _ _ _ _ _) as [[k|]| | |]; try exact V. destruct (ce_memory ce); [|exact V].
    destruct (node_value (a_tree a o) k) eqn:En; try exact V. cbn. apply vrel_item; [exact V|].
    rewrite (vr_items _ _ V), Ei. destruct o as [[[f k'] c]|]; [reflexivity|]. cbn in En. rewrite freed_node_value in En. discriminate.
  - destruct (as_items a i) as [[[[f k] c]|]|] eqn:Ei; [|exact V..]. destruct (a_stream a _) as [[[d v] cp]|]; [|exact V].
    destruct (item_step _ _ _ _ _) as [r c']. cbn. eapply vrel_same_item; eauto.
  - destruct (as_items a i) as [o|] eqn:Ei; [|exact V]. destruct (as_sets a x); [exact V|]. destruct (negb _); [exact V|].
    destruct o as [[[f k] c]|]; [|exact V]. destruct (a_stream a _) as [[[d v] cp]|]; [|exact V].
    destruct (fst (get_set _ _ _ _ _ _ _)) as [[y c']| | |]; cbn; try exact V.
    + pose proof (vrel_same_item w a i f k c k c' V Ei) as [V1 V2 V3 V4]. constructor; cbn in *; auto.
      apply (now_upd _ (fun o => match o with Some _ => true | None => false end)); auto.
    + eapply vrel_same_item; eauto.
  - assert (HK : vrel (see_values (see_sections (see_sets w (now (vw_sets w) x false)) (lost (vw_sections w) x)) (lost (vw_values w) x))
                      (a_set (kill_parts a x) x None)).
    { destruct V as [V1 V2 V3 V4]. constructor; cbn; auto.
      - apply (now_upd _ (fun o => match o with Some _ => true | None => false end)); auto.
      - intros c. unfold lost. rewrite V3. destruct (as_sections a c) as [[[y i]|]|]; cbn; auto. destruct (Nat.eqb y x); reflexivity.
      - intros c. unfold lost. rewrite V4. destruct (as_values a c) as [[[[y i] j]|]|]; cbn; auto. destruct (Nat.eqb y x); reflexivity. }
    destruct (as_sets a x) as [y|] eqn:Ex; [exact HK|]. cbn [fst snd after]. destruct HK as [K1 K2 K3 K4]. destruct V as [V1 V2 V3 V4].
    constructor; auto.
    + intros z. specialize (K2 z). cbn in K2 |- *. rewrite K2. unfold upd. destruct (Nat.eqb_spec z x) as [->|N]; [rewrite Ex|]; reflexivity.
    + intros z. specialize (K3 z). cbn in K3 |- *. rewrite K3. destruct (as_sections a z) as [[[y i]|]|] eqn:E; auto.
      destruct (Nat.eqb_spec y x) as [->|N]; [|reflexivity]. destruct (ai_sections _ _ HI _ _ _ E) as (q & r & H & _). congruence.
    + intros z. specialize (K4 z). cbn in K4 |- *. rewrite K4. destruct (as_values a z) as [[[[y i] j]|]|] eqn:E; auto.
      destruct (Nat.eqb_spec y x) as [->|N]; [|reflexivity]. destruct (ai_values _ _ HI _ _ _ _ E) as (q & r & p & H & _). congruence.
  - destruct (as_sets a x); exact V.
  - destruct (as_sets a x); exact V.
  - destruct (as_sets a x); [|exact V]. destruct (as_sections a c); [exact V|]. destruct (get_section _ _); try exact V.
    cbn. destruct V as [V1 V2 V3 V4]. constructor; cbn; auto. apply now_upd; auto.
  - cbn. destruct V as [V1 V2 V3 V4]. constructor; cbn; auto. apply now_upd; auto.
  - destruct (as_sections a c) as [o|]; [|exact V]. destruct (size <? 16); [exact V|]. destruct (a_part a o); exact V.
  - destruct (as_sections a c) as [o|]; [|exact V]. destruct (a_part a o); exact V.
  - destruct (as_sections a c) as [o|] eqn:Ec; [|exact V]. destruct (as_values a v) eqn:Ev; [exact V|].
    destruct o as [p|]; [|exact V]. destruct (a_part a (Some p)); [|exact V]. destruct (get_property _ _); try exact V.
    cbn. destruct V as [V1 V2 V3 V4]. constructor; cbn; auto. apply now_upd; auto. rewrite V3, Ec. destruct p; reflexivity.
  - cbn. destruct V as [V1 V2 V3 V4]. constructor; cbn; auto. apply now_upd; auto.
  - destruct (as_values a v) as [o|]; [|exact V]. destruct (a_part_value a o); exact V.
  - apply vrel_world. exact V.
  - apply vrel_world. exact V.
Qed.

Lemma run_view h : forall w a, program_fits h -> vrel w a -> ainv u a ->
  vrel (fold_left after (combine (map snd h) (fst (a_run lib h a))) w) (snd (a_run lib h a)) /\ ainv u (snd (a_run lib h a)).
Proof.
  induction h as [|[ce c] h IH]; intros w a HP V HI; [auto|]. inversion HP as [|? ? (P1 & P2 & P3) HP']; subst. cbn [fst snd] in *.
  pose proof (step_view ce c w a V HI) as V1. destruct (a_step_inv lib HL ce c a HI P1 P2 P3) as [I1 _].
  cbn [a_run map snd]. destruct (a_step lib ce c a) as [x a1]. cbn [fst snd] in *.
  specialize (IH _ _ HP' V1 I1). destruct (a_run lib h a1) as [r a2]. exact IH.
Qed.

Lemma a_run_app h1 h2 a :
  fst (a_run lib (h1 ++ h2) a) = fst (a_run lib h1 a) ++ fst (a_run lib h2 (snd (a_run lib h1 a))) /\
  snd (a_run lib (h1 ++ h2) a) = snd (a_run lib h2 (snd (a_run lib h1 a))).
Proof.
  revert a. induction h1 as [|[ce c] h1 IH]; intros a; [auto|]. cbn. destruct (a_step lib ce c a) as [x a1].
  destruct (IH a1) as [E1 E2]. destruct (a_run lib (h1 ++ h2) a1) as [r a2], (a_run lib h1 a1) as [r1 a3]. cbn in *.
  rewrite E1, E2. auto.
Qed.
Lemma a_run_length h : forall a, length (fst (a_run lib h a)) = length h.
Proof.
  induction h as [|[ce c] h IH]; intros a; [reflexivity|]. cbn. destruct (a_step lib ce c a) as [x a1]. specialize (IH a1).
  destruct (a_run lib h a1) as [r a2]. cbn in *. lia.
Qed.

Lemma answers_same h : fst (c_run lib h c_start) = fst (a_run lib h a_start).
Proof. apply run_sim, rel_start. Qed.

Lemma gives_step h c z : (forall ce, fst (a_step lib ce c (snd (a_run lib h a_start))) = z) -> gives lib h c z.
Proof.
  intros H ce. rewrite !answers_same. rewrite (proj1 (a_run_app h [(ce, c)] a_start)). f_equal. cbn. specialize (H ce).
  destruct (a_step lib ce c (snd (a_run lib h a_start))) as [x a1]. cbn in *. congruence.
Qed.

(** The program up to a call. *)
Lemma split_at {A} (h : list A) t x : nth_error h t = Some x -> h = firstn t h ++ x :: skipn (S t) h /\ length (firstn t h) = t.
Proof.
  intros H. assert (Hl : (t < length h)%nat) by (apply nth_error_Some; congruence). split; [|rewrite firstn_length; lia].
  revert t H Hl. induction h as [|y h IH]; intros [|t] H Hl; cbn in *; try discriminate; [congruence|]. f_equal. apply IH; auto. lia.
Qed.

Lemma answer_at h t ce c : nth_error h t = Some (ce, c) ->
  firstn t (fst (c_run lib h c_start)) = fst (c_run lib (firstn t h) c_start) /\
  nth_error (fst (c_run lib h c_start)) t = Some (fst (a_step lib ce c (snd (a_run lib (firstn t h) a_start)))).
Proof.
  intros H. destruct (split_at _ _ _ H) as [E El]. rewrite !answers_same.
  assert (Ha : fst (a_run lib h a_start) = fst (a_run lib (firstn t h) a_start) ++
             fst (a_run lib ((ce, c) :: skipn (S t) h) (snd (a_run lib (firstn t h) a_start)))).
  { rewrite E at 1. apply a_run_app. }
  assert (Hln : length (fst (a_run lib (firstn t h) a_start)) = t) by (rewrite a_run_length; exact El).
  rewrite Ha. split.
  - rewrite firstn_app, Hln, Nat.sub_diag. cbn [firstn]. rewrite app_nil_r. apply firstn_all2. lia.
  - rewrite nth_error_app2 by lia. rewrite Hln, Nat.sub_diag. cbn [a_run]. destruct (a_step lib ce c _) as [x a1].
    destruct (a_run lib (skipn (S t) h) a1). reflexivity.
Qed.

Lemma fits_firstn h t : program_fits h -> program_fits (firstn t h).
Proof. unfold program_fits. rewrite !Forall_forall. intros H x Hx. apply H. rewrite <- (firstn_skipn t h). apply in_or_app. auto. Qed.

Lemma seen_at h t : program_fits h ->
  vrel (seen (combine (map snd (firstn t h)) (fst (c_run lib (firstn t h) c_start)))) (snd (a_run lib (firstn t h) a_start)) /\
  ainv u (snd (a_run lib (firstn t h) a_start)).
Proof. intros HP. rewrite answers_same. apply run_view; [apply fits_firstn; exact HP|apply vrel_start|apply ainv_start]. Qed.

Lemma view_at_eq h t ce c : nth_error h t = Some (ce, c) ->
  view_at lib h t = seen (combine (map snd (firstn t h)) (fst (c_run lib (firstn t h) c_start))).
Proof.
  intros H. unfold view_at. destruct (answer_at h t ce c H) as [E _]. rewrite <- E. f_equal.
  rewrite combine_firstn, firstn_map. reflexivity.
Qed.

Lemma stale_view w a c : vrel w a -> (stale w c <-> a_stale a c).
Proof.
  intros [V1 V2 V3 V4].
  assert (HI : forall i, vw_items w i = Some Gone <-> as_items a i = Some None).
  { intros i. rewrite V1. destruct (as_items a i) as [[[[f k] z]|]|]; cbn; split; congruence. }
  assert (HS : forall i, vw_sections w i = Some Gone <-> as_sections a i = Some None).
  { intros i. rewrite V3. destruct (as_sections a i) as [[[f k]|]|]; cbn; split; congruence. }
  assert (HV : forall i, vw_values w i = Some Gone <-> as_values a i = Some None).
  { intros i. rewrite V4. destruct (as_values a i) as [[[[f k] z]|]|]; cbn; split; congruence. }
  destruct c; cbn; try tauto; auto.
Qed.

Theorem undefined_only h t ce c : program_fits h -> nth_error h t = Some (ce, c) ->
  nth_error (fst (c_run lib h c_start)) t = Some CUndefined ->
  stale (view_at lib h t) c \/ too_far lib (firstn t h) c \/ too_short lib (firstn t h) (view_at lib h t) c.
Proof.
  intros HP Hc HU. rewrite (view_at_eq _ _ _ _ Hc). destruct (seen_at h t HP) as [V HI].
  set (w := seen _) in *. set (a := snd (a_run lib (firstn t h) a_start)) in *.
  destruct (answer_at h t ce c Hc) as [_ E]. rewrite E in HU. injection HU as HU. fold a in HU.
  unfold program_fits in HP. rewrite Forall_forall in HP. destruct (HP _ (nth_error_In _ _ Hc)) as (P1 & P2 & P3). cbn [fst snd] in *.
  destruct (a_step_inv lib HL ce c a HI P1 P2 P3) as [_ HT]. destruct (HT HU) as [H|H].
  - left. apply (stale_view w a c V). exact H.
  - right. destruct H as (i & op & f & k & z & x & d & -> & Hi & Hx & He & Hty & Hs & H).
    destruct H as [(o & -> & H)|[(o & -> & H)|(n & Hn & Hlt & H)]].
    + left. exists i, o. left. split; [reflexivity|]. exists z. split; [|exact H]. apply gives_step. intros ce'. fold a. cbn [a_step].
      rewrite Hi. destruct (a_stream a (Some (f, k, z))) as [[[d' v] cp]|] eqn:Es; [|congruence].
      assert (d' = d).
      { unfold a_stream in Es. rewrite He, Hx in Es. destruct (file_volume x); [|discriminate]. injection Es as <- _ _. reflexivity. }
      subst d'. cbn [item_step]. unfold stream_get_offset. rewrite Hty. reflexivity.
    + left. exists i, o. right. split; [reflexivity|]. exists (de_size d). split; [|exact H]. apply gives_step. intros ce'. fold a.
      cbn [a_step]. rewrite Hi. cbn [a_item_value]. rewrite He. reflexivity.
    + right. exists i, n, f, (io_short_sector_size (fs_io x)). split.
      { destruct Hn as [->|(o & ->)]; eauto. }
      split; [exact Hlt|]. split; [rewrite (vr_items _ _ V), Hi; reflexivity|]. split; [|exact H].
      apply gives_step. intros ce'. fold a. cbn [a_step]. unfold a_on_file. rewrite Hx. cbn [query_op file_step].
      unfold get_size32. replace (4294967295 <? io_short_sector_size (fs_io x)) with false by (symmetry; apply Z.ltb_ge; lia).
      reflexivity.
Qed.

Theorem stale_undefined h t ce c : program_fits h -> nth_error h t = Some (ce, c) -> stale (view_at lib h t) c -> arrives (view_at lib h t) ce c ->
  nth_error (fst (c_run lib h c_start)) t = Some CUndefined.
Proof.
  intros HP Hc HS HA. rewrite (view_at_eq _ _ _ _ Hc) in *. destruct (seen_at h t HP) as [V HI].
  set (w := seen _) in *. set (a := snd (a_run lib (firstn t h) a_start)) in *.
  destruct (answer_at h t ce c Hc) as [_ E]. rewrite E. f_equal. fold a. apply (stale_view w a c V) in HS.
  assert (Hn : a_entry a None = Undef) by apply freed_node_value.
  destruct c; cbn [a_stale] in HS; try contradiction; cbn [a_step].
  - rewrite HS. destruct q; cbn [a_item_value]; rewrite ?Hn; try reflexivity.
    cbn in HA. unfold SSIZE_MAX. replace (_ <? size) with false by (symmetry; apply Z.ltb_ge; lia). reflexivity.
  - rewrite HS. assert (Hj : as_items a j = None).
    { assert (Hw : vw_items w j = None) by (destruct l; try contradiction; exact HA).
      rewrite (vr_items _ _ V) in Hw. destruct (as_items a j) as [[[[f k] z]|]|]; cbn in Hw; congruence. }
    rewrite Hj. cbn [a_tree a_order a_node].
    assert (Ht : tree_found lib Little freed_tree 0%nat l = Undef).
    { destruct l; try contradiction; cbn [tree_found];
        unfold get_sub_item, sub_node_by_utf8_name, sub_node_by_utf16_name; rewrite freed_sub_nodes; reflexivity. }
    rewrite Ht. reflexivity.
  - rewrite HS. reflexivity.
  - rewrite HS. destruct HA as [HA1 HA2]. rewrite (vr_sets _ _ V) in HA1. destruct (as_sets a x); [discriminate|].
    rewrite HA2. reflexivity.
  - rewrite HS. cbn in HA. replace (size <? 16) with false by (symmetry; apply Z.ltb_ge; lia). reflexivity.
  - rewrite HS. reflexivity.
  - rewrite HS. cbn in HA. rewrite (vr_values _ _ V) in HA. destruct (as_values a v) as [[[[q p] z]|]|]; cbn in HA; try congruence. reflexivity.
  - rewrite HS. reflexivity.
Qed.
End View.
