(** Lemmas on written files: the links of the directory and the item tree. *)
From Coq Require Import ZArith List Bool Lia Sorted Relations Relation_Operators Operators_Properties.
From Verif Require Import Base Spec_IO M_Header M_Table M_Load M_Stream M_Tree M_Open M_Item
  Spec_Stream Spec_Load Spec_Tree Spec_Open Spec_Content Spec_Write L_Base L_Load L_Load2 L_Header L_Stream L_Open2
  L_Write L_Write2 L_Write3 L_Write4.
Import ListNotations.
Open Scope Z_scope.

(** Entries that are numbered by their place. *)
Definition numbered (l : list dirent) : Prop := forall k d, nth_error l k = Some d -> de_id d = Z.of_nat k.

Lemma named_app a b id : named (a ++ b) id = named a id ++ named b id.
Proof. apply filter_app. Qed.

Lemma named_none l id : (forall d, In d l -> de_id d <> id) -> named l id = [].
Proof.
  induction l as [|d l IH]; intros H; [reflexivity|]. unfold named in *. cbn [filter].
  replace (de_id d =? id) with false by (symmetry; apply Z.eqb_neq, H; now left). apply IH. intros x Hx. apply H. now right.
Qed.

Lemma named_at l pre d post : numbered l -> l = pre ++ d :: post -> named l (zlen pre) = [d].
Proof.
  intros HN E. rewrite E at 1. rewrite named_app. unfold named at 2. cbn [filter]. fold (named post (zlen pre)).
  assert (Hd : de_id d = zlen pre).
  { apply (HN (length pre) d). rewrite E, nth_error_app2, Nat.sub_diag by lia. reflexivity. }
  replace (de_id d =? zlen pre) with true by (symmetry; now apply Z.eqb_eq).
  rewrite (named_none pre), (named_none post); [reflexivity| |].
  - intros x Hx. apply In_nth_error in Hx as (k & Hk). assert (H : nth_error l (length pre + S k) = Some x).
    { rewrite E, nth_error_app2 by lia. replace (length pre + S k - length pre)%nat with (S k) by lia. exact Hk. }
    apply HN in H. unfold zlen. lia.
  - intros x Hx. apply In_nth_error in Hx as (k & Hk). assert (Hlt : (k < length pre)%nat) by (apply nth_error_Some; congruence).
    assert (H : nth_error l k = Some x) by (rewrite E, nth_error_app1 by exact Hlt; exact Hk).
    apply HN in H. unfold zlen. lia.
Qed.

Section Links.
Variable fm : format.
Variable l : list dirent.
Hypothesis HN : numbered l.
Hypothesis Hlen : zlen l <= 4294967295.

(** The entries of the items of a forest are in the directory. *)
Definition placed_at (id ns nb : Z) (fo : forest) : Prop :=
  0 < id /\ exists pre post, l = pre ++ w_entries fm id ns nb fo ++ post /\ zlen pre = id.

(** The first entry, and the entries of the items themselves. *)
Definition heads (id ns nb : Z) (fo : forest) : list dirent := firstn 1 (w_entries fm id ns nb fo).

Fixpoint tops (id ns nb : Z) (fo : forest) : list dirent :=
  match fo with
  | Empty => []
  | AddStream n c m s r =>
      let b := blocks (if w_small fm s then w_sss fm else w_ss fm) (zlen s) in
      firstn 1 (w_entries fm id ns nb fo) ++
      tops (id + 1) (if w_small fm s then ns + b else ns) (if w_small fm s then nb else nb + b) r
  | AddStorage n c m a r =>
      firstn 1 (w_entries fm id ns nb fo) ++
      tops (id + 1 + Z.of_nat (count a)) (ns + w_blocks (w_sss fm) (w_shorts fm a))
           (nb + w_blocks (w_ss fm) (w_longs fm a)) r
  end.

Fixpoint unfolding_of (id ns nb : Z) (fo : forest) : unfolding :=
  match fo with
  | Empty => Nothing
  | AddStream n c m s r =>
      let b := blocks (if w_small fm s then w_sss fm else w_ss fm) (zlen s) in
      match w_entries fm id ns nb fo with
      | [] => Nothing
      | d :: _ => Entry d Nothing Nothing
          (unfolding_of (id + 1) (if w_small fm s then ns + b else ns) (if w_small fm s then nb else nb + b) r)
      end
  | AddStorage n c m a r =>
      match w_entries fm id ns nb fo with
      | [] => Nothing
      | d :: _ => Entry d (unfolding_of (id + 1) ns nb a) Nothing
          (unfolding_of (id + 1 + Z.of_nat (count a)) (ns + w_blocks (w_sss fm) (w_shorts fm a))
                        (nb + w_blocks (w_ss fm) (w_longs fm a)) r)
      end
  end.

Lemma unfolded_of fo : forall id ns nb, unfolded (unfolding_of id ns nb fo) = w_entries fm id ns nb fo.
Proof.
  induction fo as [|n c m s r IH|n c m a IHa r IHr]; intros id ns nb; cbn [unfolding_of w_entries unfolded]; [reflexivity| |].
  - cbn [app]. now rewrite IH.
  - cbn [app]. now rewrite IHa, IHr.
Qed.

Lemma placed_stream id ns nb n c m s r : placed_at id ns nb (AddStream n c m s r) ->
  let b := blocks (if w_small fm s then w_sss fm else w_ss fm) (zlen s) in
  placed_at (id + 1) (if w_small fm s then ns + b else ns) (if w_small fm s then nb else nb + b) r.
Proof.
  intros (H0 & pre & post & E & Hp) b. split; [lia|]. cbn [w_entries app] in E. eexists (pre ++ [_]), post. split.
  - rewrite <- app_assoc. exact E.
  - rewrite zlen_app, zlen_cons, zlen_nil. lia.
Qed.

Lemma placed_subs id ns nb n c m a r : placed_at id ns nb (AddStorage n c m a r) -> placed_at (id + 1) ns nb a.
Proof.
  intros (H0 & pre & post & E & Hp). split; [lia|]. cbn [w_entries app] in E. eexists (pre ++ [_]), _. split.
  - rewrite <- app_assoc in E. rewrite <- app_assoc. exact E.
  - rewrite zlen_app, zlen_cons, zlen_nil. lia.
Qed.

Lemma placed_rest id ns nb n c m a r : placed_at id ns nb (AddStorage n c m a r) ->
  placed_at (id + 1 + Z.of_nat (count a)) (ns + w_blocks (w_sss fm) (w_shorts fm a)) (nb + w_blocks (w_ss fm) (w_longs fm a)) r.
Proof.
  intros (H0 & pre & post & E & Hp). split; [lia|]. cbn [w_entries app] in E. eexists (pre ++ _ :: w_entries fm (id + 1) ns nb a), post. split.
  - rewrite <- !app_assoc in *. cbn [app]. rewrite <- ?app_assoc in *. exact E.
  - rewrite zlen_app, zlen_cons. unfold zlen at 2. rewrite w_entries_length. lia.
Qed.

Lemma placed_length id ns nb fo : placed_at id ns nb fo -> id + Z.of_nat (count fo) <= zlen l.
Proof.
  intros (H0 & pre & post & E & Hp). apply (f_equal zlen) in E. rewrite !zlen_app in E. unfold zlen at 3 in E.
  rewrite w_entries_length in E. pose proof (zlen_nonneg post). lia.
Qed.

Lemma named_heads id ns nb fo : placed_at id ns nb fo -> fo <> Empty -> named l id = heads id ns nb fo.
Proof.
  intros (H0 & pre & post & E & Hp) Hne. unfold heads. destruct fo; [congruence| |]; cbn [w_entries firstn app] in *;
    rewrite <- Hp at 1; eapply named_at; eauto.
Qed.

(** The links of an entry. *)
Definition link_to (id : Z) (fo : forest) : Z := match fo with Empty => FREE | _ => id end.

Lemma link_next d id ns nb fo : placed_at id ns nb fo -> de_next d = link_to id fo -> next_targets l d = heads id ns nb fo.
Proof.
  intros H E. unfold next_targets. rewrite E. destruct fo as [|n c m s r|n c m a r] eqn:Ef; [reflexivity| |];
    pose proof (placed_length _ _ _ _ H) as HL; cbn [count link_to] in *;
    (replace (id =? FREE) with false by (symmetry; apply Z.eqb_neq; unfold FREE; lia)); apply named_heads; auto; discriminate.
Qed.

Lemma link_sub d id ns nb fo : placed_at id ns nb fo -> de_sub d = link_to id fo -> sub_targets l d = heads id ns nb fo.
Proof.
  intros H E. unfold sub_targets. rewrite E. pose proof H as (H0 & _). destruct fo as [|n c m s r|n c m a r] eqn:Ef; [reflexivity| |];
    pose proof (placed_length _ _ _ _ H) as HL; cbn [count link_to] in *;
    (replace ((id =? FREE) || (id =? 0)) with false by (symmetry; apply orb_false_iff; unfold FREE; lia)); apply named_heads; auto; discriminate.
Qed.

Lemma unfolds_heads fo : forall id ns nb, placed_at id ns nb fo -> unfolds l (heads id ns nb fo) (unfolding_of id ns nb fo).
Proof.
  induction fo as [|n c m s r IH|n c m a IHa r IHr]; intros id ns nb H; unfold heads; cbn [w_entries unfolding_of firstn].
  - constructor.
  - pose proof (placed_stream _ _ _ _ _ _ _ _ H) as H1. cbv zeta in H1. constructor.
    + cbn. constructor.
    + cbn. constructor.
    + erewrite link_next; [apply IH, H1|exact H1|reflexivity].
  - pose proof (placed_subs _ _ _ _ _ _ _ _ H) as H1. pose proof (placed_rest _ _ _ _ _ _ _ _ H) as H2. constructor.
    + erewrite link_sub; [apply IHa, H1|exact H1|reflexivity].
    + cbn. constructor.
    + erewrite link_next; [apply IHr, H2|exact H2|reflexivity].
Qed.

(** No next link names nothing. *)
Lemma heads_nil id ns nb fo : heads id ns nb fo = [] -> fo = Empty.
Proof. unfold heads. destruct fo; cbn; [reflexivity|discriminate|discriminate]. Qed.

Lemma entries_not_dangling fo : forall id ns nb, placed_at id ns nb fo -> Forall (fun d => ~ dangling_next l d) (w_entries fm id ns nb fo).
Proof.
  assert (G : forall d id ns nb r, placed_at id ns nb r -> de_next d = link_to id r -> ~ dangling_next l d).
  { intros d id ns nb r H E [H1 H2]. pose proof (link_next d id ns nb r H E) as H3. unfold next_targets in H3.
    replace (de_next d =? FREE) with false in H3 by (symmetry; now apply Z.eqb_neq). rewrite H2 in H3. symmetry in H3. apply heads_nil in H3.
    rewrite H3 in E. apply H1. exact E. }
  induction fo as [|n c m s r IH|n c m a IHa r IHr]; intros id ns nb H; cbn [w_entries]; [constructor| |].
  - pose proof (placed_stream _ _ _ _ _ _ _ _ H) as H1. cbv zeta in H1. constructor; [eapply G; [exact H1|reflexivity]|now apply IH].
  - pose proof (placed_subs _ _ _ _ _ _ _ _ H) as H1. pose proof (placed_rest _ _ _ _ _ _ _ _ H) as H2.
    constructor; [eapply G; [exact H2|reflexivity]|]. apply Forall_app. split; [now apply IHa|now apply IHr].
Qed.

(** The sub items of an entry whose sub link leads to a forest. *)
Lemma sibling_next d s id ns nb r : placed_at id ns nb r -> de_prev d = FREE -> de_next d = link_to id r ->
  (sibling_link l d s <-> In s (heads id ns nb r)).
Proof.
  intros H E1 E2. unfold sibling_link, prev_targets. rewrite E1. cbn [FREE Z.eqb Pos.eqb]. change (FREE =? FREE) with true. cbn iota.
  rewrite (link_next d id ns nb r H E2). cbn [In]. tauto.
Qed.

Lemma tops_spec fo : forall id ns nb s, placed_at id ns nb fo ->
  (In s (tops id ns nb fo) <-> exists c, In c (heads id ns nb fo) /\ clos_refl_trans _ (sibling_link l) c s).
Proof.
  assert (G : forall d s id ns nb r, placed_at id ns nb r -> de_prev d = FREE -> de_next d = link_to id r ->
    (In s (tops id ns nb r) <-> exists c, In c (heads id ns nb r) /\ clos_refl_trans _ (sibling_link l) c s) ->
    (d = s \/ In s (tops id ns nb r) <-> exists c, In c [d] /\ clos_refl_trans _ (sibling_link l) c s)).
  { intros d s id ns nb r H E1 E2 HI. split.
    - intros [<-|Hs]; [exists d; split; [now left|apply rt_refl]|].
      apply HI in Hs as (c & Hc & Hcs). exists d. split; [now left|]. eapply rt_trans; [|exact Hcs]. apply rt_step.
      now apply (sibling_next d c id ns nb r H E1 E2).
    - intros (c & [<-|[]] & Hcs). apply clos_rt_rt1n in Hcs. inversion Hcs as [|y z Hy Hz]; subst; [now left|]. right. apply HI.
      exists y. split; [now apply (sibling_next d y id ns nb r H E1 E2)|]. now apply clos_rt1n_rt. }
  induction fo as [|n c m s r IH|n c m a IHa r IHr]; intros id ns nb x H; unfold heads; cbn [tops w_entries firstn app].
  - split; [intros []|intros (c & [] & _)].
  - pose proof (placed_stream _ _ _ _ _ _ _ _ H) as H1. cbv zeta in H1. cbn [In]. eapply G; [exact H1|reflexivity|reflexivity|]. now apply IH.
  - pose proof (placed_rest _ _ _ _ _ _ _ _ H) as H2. cbn [In]. eapply G; [exact H2|reflexivity|reflexivity|]. now apply IHr.
Qed.

Lemma tops_sorted fo : forall id ns nb, StronglySorted (fun a b => de_id a < de_id b) (tops id ns nb fo) /\
  Forall (fun d => id <= de_id d) (tops id ns nb fo).
Proof.
  induction fo as [|n c m s r IH|n c m a IHa r IHr]; intros id ns nb; cbn [tops w_entries firstn app]; [split; constructor| |].
  - destruct (IH (id + 1) (if w_small fm s then ns + blocks (if w_small fm s then w_sss fm else w_ss fm) (zlen s) else ns)
      (if w_small fm s then nb else nb + blocks (if w_small fm s then w_sss fm else w_ss fm) (zlen s))) as [H1 H2]. split.
    + constructor; [exact H1|]. cbn [de_id]. eapply Forall_impl; [|exact H2]. intros d Hd. cbn beta in Hd. lia.
    + constructor; [cbn; lia|]. eapply Forall_impl; [|exact H2]. intros d Hd. cbn beta in Hd. lia.
  - destruct (IHr (id + 1 + Z.of_nat (count a)) (ns + w_blocks (w_sss fm) (w_shorts fm a)) (nb + w_blocks (w_ss fm) (w_longs fm a))) as [H1 H2]. split.
    + constructor; [exact H1|]. cbn [de_id]. eapply Forall_impl; [|exact H2]. intros d Hd. cbn beta in Hd. lia.
    + constructor; [cbn; lia|]. eapply Forall_impl; [|exact H2]. intros d Hd. cbn beta in Hd. lia.
Qed.
End Links.

(** Lists that are sorted and have the same elements. *)
Lemma sorted_eq (a b : list dirent) : StronglySorted (fun x y => de_id x < de_id y) a -> StronglySorted (fun x y => de_id x < de_id y) b ->
  (forall d, In d a <-> In d b) -> a = b.
Proof.
  intros Ha. revert b. induction Ha as [|x a Ha IH Hx]; intros b Hb H.
  - destruct b as [|y b]; [reflexivity|]. destruct (proj2 (H y)). now left.
  - inversion Hb as [|y b' Hb' Hy]; subst; [destruct (proj1 (H x)); now left|].
    rewrite Forall_forall in Hx, Hy.
    assert (E : x = y).
    { destruct (proj1 (H x) (or_introl eq_refl)) as [E|E]; [now symmetry|]. destruct (proj2 (H y) (or_introl eq_refl)) as [E'|E']; [exact E'|].
      specialize (Hx _ E'). specialize (Hy _ E). lia. }
    subst y. f_equal. apply IH; [exact Hb'|]. intros d. specialize (H d). cbn [In] in H. split; intros Hd.
    + destruct (proj1 H (or_intror Hd)) as [<-|H1]; [|exact H1]. specialize (Hx _ Hd). lia.
    + destruct (proj2 H (or_intror Hd)) as [<-|H1]; [|exact H1]. specialize (Hy _ Hd). lia.
Qed.
