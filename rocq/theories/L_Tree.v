(** Lemmas on the construction of the item tree. *)
From Coq Require Import ZArith List Bool Lia ZifyBool ZifyNat Permutation Sorted Relations.
From Verif Require Import Base Spec_Stream Spec_Load Spec_Tree L_Base M_Table M_Load M_Tree L_Load2.
Import ListNotations.
Open Scope Z_scope.

(** * Entries by identifier *)
Definition entries_ok (l : list dirent) : Prop :=
  NoDup (map de_id l) /\
  Forall (fun d => is_u32 (de_id d) /\ is_u32 (de_prev d) /\ is_u32 (de_next d) /\ is_u32 (de_sub d)) l.

Lemma find_entry_named l id : NoDup (map de_id l) ->
  match find_entry l id with Some d => named l id = [d] | None => named l id = [] end.
Proof.
  unfold named. induction l as [|d l IH]; intros H; cbn [find_entry filter]; auto.
  inversion H as [|x y H1 H2]; subst.
  destruct (de_id d =? id) eqn:E.
  - f_equal. apply Z.eqb_eq in E. subst. clear - H1. induction l as [|a l IH]; cbn [filter]; auto.
    destruct (de_id a =? de_id d) eqn:E.
    + exfalso. apply H1. left. lia.
    + apply IH. intros Hin. apply H1. now right.
  - apply IH; auto.
Qed.

Lemma named_In l id s : In s (named l id) <-> In s l /\ de_id s = id.
Proof. unfold named. rewrite filter_In. rewrite Z.eqb_eq. tauto. Qed.

Lemma u32_s32_id x : is_u32 x -> u32 (s32 x) = x.
Proof. intros H. rewrite u32_s32. apply u32_id. unfold is_u32, TWO32 in *. lia. Qed.

(** * Views of the state *)
Definition vw (st : tstate) : list (dirent * option nat) :=
  map (fun n => (n_entry n, n_parent n)) (t_nodes st).

Definition links (l : list dirent) (k : nat) (x : dirent * option nat) : list (dirent * option nat) :=
  map (fun s => (s, Some k)) (sub_targets l (fst x)) ++
  map (fun s => (s, snd x)) (prev_targets l (fst x)) ++
  map (fun s => (s, snd x)) (next_targets l (fst x)).

Fixpoint all_links (l : list dirent) (k : nat) (xs : list (dirent * option nat)) :=
  match xs with
  | [] => []
  | x :: xs' => links l k x ++ all_links l (S k) xs'
  end.

Lemma all_links_app l a : forall k b,
  all_links l k (a ++ b) = all_links l k a ++ all_links l (k + length a) b.
Proof.
  induction a as [|x a IH]; intros k b; cbn [all_links app length].
  - now rewrite Nat.add_0_r.
  - rewrite IH, <- app_assoc. do 3 f_equal. lia.
Qed.

Definition id_of (nodes : list node) (j : nat) : option Z :=
  option_map de_id (entry_of nodes j).

Definition sorted_subs (nodes : list node) (subs : list nat) : Prop :=
  exists ids, map (id_of nodes) subs = map Some ids /\ StronglySorted Z.lt ids.

Record wf (l : list dirent) (st : tstate) : Prop := {
  wf_nonempty : t_nodes st <> [];
  wf_flags : t_flags st = rev (map (fun x => de_id (fst x)) (tl (vw st)));
  wf_nodup : NoDup (t_flags st);
  wf_root : exists d vs, vw st = (d, None) :: vs;
  wf_parent : forall j d q, (0 < j)%nat -> nth_error (vw st) j = Some (d, q) ->
                exists p, q = Some p /\ (p < j)%nat;
  wf_subs : forall p n, nth_error (t_nodes st) p = Some n ->
              sorted_subs (t_nodes st) (n_subs n) /\
              forall j, In j (n_subs n) <-> exists d, nth_error (vw st) j = Some (d, Some p);
  wf_in : Forall (fun x => In (fst x) l) (vw st)
}.

Lemma vw_nth st k : nth_error (vw st) k = option_map (fun n => (n_entry n, n_parent n)) (nth_error (t_nodes st) k).
Proof. unfold vw. apply nth_error_map. Qed.

Lemma entry_of_vw nodes nodes' j :
  map (fun n => (n_entry n, n_parent n)) nodes = map (fun n => (n_entry n, n_parent n)) nodes' ->
  entry_of nodes j = entry_of nodes' j.
Proof.
  intros H. unfold entry_of.
  assert (H' : option_map fst (nth_error (map (fun n => (n_entry n, n_parent n)) nodes) j)
               = option_map fst (nth_error (map (fun n => (n_entry n, n_parent n)) nodes') j)) by now rewrite H.
  rewrite !nth_error_map in H'. destruct (nth_error nodes j), (nth_error nodes' j); cbn in *; congruence.
Qed.

Lemma set_nth_map {A B} (f : A -> B) l i x :
  map f (set_nth l i x) = set_nth (map f l) i (f x).
Proof. revert i. induction l; intros [|i]; cbn; auto. now rewrite IHl. Qed.

Lemma set_nth_same {A} (l : list A) : forall i x, nth_error l i = Some x -> set_nth l i x = l.
Proof. induction l; intros [|i] x H; cbn in *; try discriminate; [congruence|]. f_equal. auto. Qed.

Lemma nth_error_set_nth {A} (l : list A) : forall i j x,
  nth_error (set_nth l i x) j = if Nat.eqb i j then (if Nat.ltb i (length l) then Some x else None) else nth_error l j.
Proof.
  induction l as [|a l IH]; intros i j x; destruct i, j; cbn [set_nth nth_error]; auto.
  - cbn [Nat.eqb]. destruct (i =? j)%nat; reflexivity.
  - cbn [Nat.eqb]. rewrite IH. destruct (i =? j)%nat; auto.
Qed.

Lemma set_nth_length {A} (l : list A) : forall i x, length (set_nth l i x) = length l.
Proof. induction l; intros [|i] x; cbn; auto. Qed.

(** insert_sub inserts in order. *)
Lemma insert_sub_ok nodes k id : forall subs subs' ids,
  map (id_of nodes) subs = map Some ids -> StronglySorted Z.lt ids ->
  insert_sub nodes k id subs = Some subs' ->
  exists ids', (forall nodes', (forall j, In j subs -> id_of nodes' j = id_of nodes j) ->
                 id_of nodes' k = Some id -> map (id_of nodes') subs' = map Some ids') /\
    StronglySorted Z.lt ids' /\ Permutation subs' (k :: subs) /\ Permutation ids' (id :: ids).
Proof.
  induction subs as [|j subs IH]; intros subs' ids Hm Hs H; cbn [insert_sub] in H.
  - destruct ids; [|discriminate]. injection H as <-. exists [id]. repeat split; auto.
    + intros nodes' _ Hk. cbn. now rewrite Hk.
    + repeat constructor.
  - destruct ids as [|i ids]; [discriminate|]. cbn [map] in Hm. injection Hm as Hj Hm.
    unfold id_of in Hj. destruct (entry_of nodes j) as [d|] eqn:Ed; [|discriminate].
    cbn in Hj. injection Hj as Hj. rewrite Hj in H.
    destruct (id =? i) eqn:E1; [discriminate|].
    inversion Hs as [|x y Hs1 Hs2]; subst.
    destruct (id <? de_id d) eqn:E2.
    + injection H as <-. exists (id :: de_id d :: ids). repeat split; auto.
      * intros nodes' Hold Hk. cbn [map]. rewrite Hk. f_equal.
        rewrite Hold by (left; reflexivity). unfold id_of at 1. rewrite Ed. cbn. f_equal.
        rewrite <- Hm. apply map_ext_in. intros a Ha. apply Hold. now right.
      * constructor; auto. constructor; [lia|]. eapply Forall_impl; [|exact Hs2]. cbn. intros; lia.
    + destruct (insert_sub nodes k id subs) as [subs1|] eqn:Ei; [|discriminate].
      cbn in H. injection H as <-.
      destruct (IH _ _ Hm Hs1 eq_refl) as (ids1 & H1 & H2 & H3 & H4).
      exists (de_id d :: ids1). repeat split.
      * intros nodes' Hold Hk. cbn [map]. f_equal.
        -- rewrite Hold by (left; reflexivity). unfold id_of. now rewrite Ed.
        -- apply H1; auto. intros a Ha. apply Hold. now right.
      * constructor; auto. apply (Permutation_Forall (Permutation_sym H4)). constructor; auto. lia.
      * rewrite H3. apply perm_swap.
      * rewrite H4. apply perm_swap.
Qed.

Lemma insert_sub_some nodes k id : forall subs ids,
  map (id_of nodes) subs = map Some ids -> ~ In id ids ->
  exists subs', insert_sub nodes k id subs = Some subs'.
Proof.
  induction subs as [|j subs IH]; intros ids Hm Hn; cbn [insert_sub]; [eauto|].
  destruct ids as [|i ids]; [discriminate|]. cbn [map] in Hm. injection Hm as Hj Hm.
  unfold id_of in Hj. destruct (entry_of nodes j) as [d|] eqn:Ed; [|discriminate].
  cbn in Hj. injection Hj as Hj. rewrite Hj.
  destruct (id =? i) eqn:E1; [exfalso; apply Hn; left; lia|].
  destruct (id <? i); [eauto|].
  destruct (IH _ Hm) as (s & Hs); [intros Hin; apply Hn; now right|]. rewrite Hs. cbn. eauto.
Qed.

(** One attachment: add_node and set_flag. *)
Definition attached (l : list dirent) (st st' : tstate) (p : nat) (s : dirent) : Prop :=
  wf l st' /\ vw st' = vw st ++ [(s, Some p)].

Lemma is_set_false st s : is_set st s = false <-> ~ In (de_id s) (t_flags st).
Proof.
  unfold is_set. rewrite <- existsb_In. destruct (existsb _ _); split; congruence.
Qed.

Lemma add_node_ok l st p s st1 k :
  wf l st -> In s l -> is_set st s = false -> add_node st p s = Ok (st1, k) ->
  exists p', p = Some p' /\ k = length (t_nodes st) /\ (p' < k)%nat /\
             attached l st (set_flag st1 s) p' s.
Proof.
  intros W Hs Hf H. unfold add_node in H. destruct p as [p|]; [|discriminate].
  destruct (nth_error (t_nodes st) p) as [np|] eqn:En; [|discriminate].
  destruct (insert_sub _ _ _ _) as [subs|] eqn:Ei; [|discriminate].
  injection H as Hst Hk. subst st1 k.
  exists p. split; auto. split; auto.
  assert (Hp : (p < length (t_nodes st))%nat) by (apply nth_error_Some; congruence).
  split; auto. unfold attached.
  assert (Hvw : vw (set_flag {| t_nodes := set_nth (t_nodes st) p
                          {| n_entry := n_entry np; n_parent := n_parent np; n_subs := subs |} ++
                        [{| n_entry := s; n_parent := Some p; n_subs := [] |}];
                      t_flags := t_flags st |} s) = vw st ++ [(s, Some p)]).
  { unfold vw, set_flag. cbn [t_nodes]. rewrite map_app. cbn [map n_entry n_parent].
    f_equal. rewrite set_nth_map. cbn [n_entry n_parent]. apply set_nth_same.
    rewrite nth_error_map, En. reflexivity. }
  split; [|exact Hvw].
  destruct (wf_root _ _ W) as (dr & vs & Hr).
  assert (Hvl : length (vw st) = length (t_nodes st)) by (unfold vw; apply map_length).
  constructor.
  - cbn [set_flag t_nodes]. intros H'. apply app_eq_nil in H' as [_ H']. discriminate.
  - rewrite Hvw. cbn [set_flag t_flags]. rewrite (wf_flags _ _ W), Hr. cbn [tl app].
    rewrite map_app, rev_app_distr. reflexivity.
  - cbn [set_flag t_flags]. constructor; [now apply is_set_false|apply (wf_nodup _ _ W)].
  - rewrite Hvw, Hr. cbn [app]. eauto.
  - rewrite Hvw. intros j d q Hj Hq.
    destruct (Nat.lt_ge_cases j (length (vw st))) as [Hl|Hl].
    + rewrite nth_error_app1 in Hq by auto. eapply (wf_parent _ _ W); eauto.
    + rewrite nth_error_app2 in Hq by auto.
      destruct (j - length (vw st))%nat as [|m] eqn:Em; cbn in Hq; [|destruct m; discriminate].
      injection Hq as <- <-. exists p. split; auto. lia.
  - cbn [set_flag t_nodes]. set (nodes' := set_nth _ _ _ ++ _) in *.
    assert (Hv' : map (fun n => (n_entry n, n_parent n)) nodes' = vw st ++ [(s, Some p)]) by exact Hvw.
    assert (Hid : forall j, (j < length (t_nodes st))%nat -> id_of nodes' j = id_of (t_nodes st) j).
    { intros j Hj. unfold id_of, entry_of.
      assert (Hx : option_map fst (nth_error (map (fun n => (n_entry n, n_parent n)) nodes') j)
                   = option_map fst (nth_error (vw st) j)).
      { rewrite Hv', nth_error_app1; auto. lia. }
      unfold vw in Hx. rewrite !nth_error_map in Hx.
      destruct (nth_error nodes' j), (nth_error (t_nodes st) j); cbn in *; congruence. }
    assert (Hidk : id_of nodes' (length (t_nodes st)) = Some (de_id s)).
    { unfold id_of, entry_of.
      assert (Hx : option_map fst (nth_error (map (fun n => (n_entry n, n_parent n)) nodes') (length (t_nodes st)))
                   = Some s).
      { rewrite Hv', nth_error_app2 by lia. rewrite Hvl, Nat.sub_diag. reflexivity. }
      rewrite nth_error_map in Hx. destruct (nth_error nodes' _); cbn in *; congruence. }
    rewrite Hvw.
    assert (Hold : forall n j, In j (n_subs n) -> In n (t_nodes st) -> (j < length (t_nodes st))%nat).
    { intros n j Hj Hn. apply In_nth_error in Hn as (i & Hi).
      destruct (wf_subs _ _ W _ _ Hi) as [_ Hw]. destruct (proj1 (Hw j) Hj) as (d & Hd).
      assert (j < length (vw st))%nat by (apply nth_error_Some; congruence). lia. }
    intros q n Hq.
    assert (Hcases : (q = p /\ n_subs n = subs) \/
                     (q <> p /\ nth_error (t_nodes st) q = Some n) \/
                     (q = length (t_nodes st) /\ n_subs n = [])).
    { unfold nodes' in Hq. destruct (Nat.lt_ge_cases q (length (t_nodes st))) as [Hl|Hl].
      - rewrite nth_error_app1 in Hq by (rewrite set_nth_length; auto).
        rewrite nth_error_set_nth in Hq. destruct (p =? q)%nat eqn:Epq.
        + destruct (p <? length (t_nodes st))%nat; [|discriminate]. injection Hq as <-.
          left. split; [lia|reflexivity].
        + right; left. split; [lia|auto].
      - rewrite nth_error_app2 in Hq by (rewrite set_nth_length; auto). rewrite set_nth_length in Hq.
        destruct (q - length (t_nodes st))%nat as [|m] eqn:Em; cbn in Hq; [|destruct m; discriminate].
        injection Hq as <-. right; right. split; [lia|reflexivity]. }
    assert (Hnth : forall j d x, nth_error (vw st ++ [(s, Some p)]) j = Some (d, x) <->
              nth_error (vw st) j = Some (d, x) \/ (j = length (t_nodes st) /\ d = s /\ x = Some p)).
    { intros j d x. destruct (Nat.lt_ge_cases j (length (vw st))) as [Hl|Hl].
      - rewrite nth_error_app1 by auto. split; [auto|]. intros [?|(? & _)]; [auto|lia].
      - rewrite nth_error_app2 by auto.
        assert (Hnone : nth_error (vw st) j = None) by (apply nth_error_None; lia).
        rewrite Hnone. destruct (j - length (vw st))%nat as [|m] eqn:Em; cbn.
        + split; [intros [= <- <-]; right; repeat split; lia|intros [?|(? & -> & ->)]; [discriminate|auto]].
        + split; [destruct m; discriminate|intros [?|(? & _)]; [discriminate|lia]]. }
    destruct Hcases as [[-> Hsub]|[[Hne Hold1]|[-> Hsub]]].
    + destruct (wf_subs _ _ W _ _ En) as ((ids & Hm & Hso) & Hmem).
      destruct (insert_sub_ok _ _ _ _ _ _ Hm Hso Ei) as (ids' & H1 & H2 & H3 & H4).
      rewrite Hsub. split.
      * exists ids'. split; auto. apply H1; auto. intros j Hj. apply Hid.
        eapply Hold; eauto. eapply nth_error_In; eauto.
      * intros j. split.
        -- intros Hj. apply (Permutation_in _ H3) in Hj. destruct Hj as [<-|Hj].
           ++ exists s. apply Hnth. right. auto.
           ++ apply Hmem in Hj as (d & Hd). exists d. apply Hnth. now left.
        -- intros (d & Hd). apply (Permutation_in _ (Permutation_sym H3)). apply Hnth in Hd as [Hd|(-> & _)].
           ++ right. apply Hmem. eauto.
           ++ now left.
    + destruct (wf_subs _ _ W _ _ Hold1) as ((ids & Hm & Hso) & Hmem). split.
      * exists ids. split; auto. rewrite <- Hm. apply map_ext_in. intros j Hj. apply Hid.
        eapply Hold; eauto. eapply nth_error_In; eauto.
      * intros j. rewrite Hmem. split; intros (d & Hd); exists d.
        -- apply Hnth. now left.
        -- apply Hnth in Hd as [Hd|(_ & _ & Hd)]; [auto|congruence].
    + rewrite Hsub. split.
      * exists []. split; [reflexivity|constructor].
      * intros j. split; [intros []|]. intros (d & Hd). apply Hnth in Hd as [Hd|(-> & _ & Hd)].
        -- destruct j as [|j].
           ++ rewrite Hr in Hd. discriminate.
           ++ destruct (wf_parent _ _ W (S j) _ _ ltac:(lia) Hd) as (p' & Hp' & Hlt).
              assert (S j < length (vw st))%nat by (apply nth_error_Some; congruence).
              injection Hp' as <-. lia.
        -- injection Hd as Hd. lia.
  - rewrite Hvw. apply Forall_app. split; [apply (wf_in _ _ W)|]. repeat constructor. auto.
Qed.

Lemma add_node_some l st p s :
  wf l st -> (p < length (t_nodes st))%nat -> is_set st s = false ->
  exists st1 k, add_node st (Some p) s = Ok (st1, k).
Proof.
  intros W Hp Hf. unfold add_node.
  destruct (nth_error (t_nodes st) p) as [np|] eqn:En; [|apply nth_error_None in En; lia].
  destruct (wf_subs _ _ W _ _ En) as ((ids & Hm & Hso) & Hmem).
  destruct (insert_sub_some (t_nodes st) (length (t_nodes st)) (de_id s) _ _ Hm) as (subs & ->); [|eauto].
  intros Hin. apply is_set_false in Hf. apply Hf. rewrite (wf_flags _ _ W), <- in_rev.
  apply in_map_iff. 
  assert (Hx : In (Some (de_id s)) (map (id_of (t_nodes st)) (n_subs np))).
  { rewrite Hm. now apply in_map. }
  apply in_map_iff in Hx as (j & Hj & Hjin). apply Hmem in Hjin as (d & Hd).
  destruct j as [|j].
  { destruct (wf_root _ _ W) as (dr & vs & Hr). rewrite Hr in Hd. discriminate. }
  exists (d, Some p). split.
  - rewrite vw_nth in Hd. unfold id_of, entry_of in Hj. destruct (nth_error (t_nodes st) (S j)); cbn in *; congruence.
  - destruct (wf_root _ _ W) as (dr & vs & Hr). rewrite Hr in *. cbn in *. eapply nth_error_In; eauto.
Qed.

(** * Growth of the tree *)
Section Grown.
  Variable u : una.
  Variable e : endian.
  Variable l : list dirent.

  Definition entry_fine (x : dirent * option nat) : Prop :=
    ~ dangling_next l (fst x) /\ check_summary_name u e (fst x) = Ok tt.

  Record grown (st st' : tstate) (ls newv : list (dirent * option nat)) : Prop := {
    gr_vw : vw st' = vw st ++ newv;
    gr_wf : wf l st';
    gr_perm : Permutation newv (ls ++ all_links l (length (vw st)) newv);
    gr_just : forall j x, nth_error newv j = Some x ->
                In x ls \/ exists i y, (i < j)%nat /\ nth_error newv i = Some y /\
                                       In x (links l (length (vw st) + i) y);
    gr_fine : Forall entry_fine newv
  }.

  Lemma grown_nil st : wf l st -> grown st st [] [].
  Proof.
    intros W. constructor; auto.
    - now rewrite app_nil_r.
    - intros [|j] x H; discriminate.
  Qed.

  Lemma grown_trans st st1 st2 ls1 ls2 v1 v2 :
    grown st st1 ls1 v1 -> grown st1 st2 ls2 v2 -> grown st st2 (ls1 ++ ls2) (v1 ++ v2).
  Proof.
    intros [A1 A2 A3 A4 A5] [B1 B2 B3 B4 B5]. constructor; auto.
    - rewrite B1, A1. now rewrite app_assoc.
    - rewrite all_links_app. rewrite A1, app_length in B3.
      rewrite A3 at 1. rewrite B3 at 1. rewrite <- !app_assoc. apply Permutation_app_head.
      rewrite !app_assoc. apply Permutation_app_tail. apply Permutation_app_comm.
    - intros j x H. destruct (Nat.lt_ge_cases j (length v1)) as [Hl|Hl].
      + rewrite nth_error_app1 in H by auto. destruct (A4 _ _ H) as [Hx|(i & y & H1 & H2 & H3)].
        * left. apply in_or_app. now left.
        * right. exists i, y. split; auto. split; auto. rewrite nth_error_app1; [auto|lia].
      + rewrite nth_error_app2 in H by auto. destruct (B4 _ _ H) as [Hx|(i & y & H1 & H2 & H3)].
        * left. apply in_or_app. now right.
        * right. exists (length v1 + i)%nat, y. split; [lia|]. split.
          -- rewrite nth_error_app2 by lia. rewrite <- H2. f_equal. lia.
          -- rewrite A1, app_length in H3.
             replace (length (vw st) + (length v1 + i))%nat with (length (vw st) + length v1 + i)%nat by lia. exact H3.
    - apply Forall_app. auto.
  Qed.

  Lemma grown_link st st1 st' p s v :
    attached l st st1 p s -> entry_fine (s, Some p) ->
    grown st1 st' (links l (length (vw st)) (s, Some p)) v ->
    grown st st' [(s, Some p)] ((s, Some p) :: v).
  Proof.
    intros [HW Hv] Hf [A1 A2 A3 A4 A5]. rewrite Hv, app_length in A3. cbn [length] in A3.
    constructor; auto.
    - rewrite A1, Hv, <- app_assoc. reflexivity.
    - cbn [all_links app]. apply perm_skip. rewrite A3 at 1.
      replace (length (vw st) + 1)%nat with (S (length (vw st))) by lia. reflexivity.
    - intros [|j] x H; cbn in H.
      + injection H as <-. left. now left.
      + right. destruct (A4 _ _ H) as [Hx|(i & y & H1 & H2 & H3)].
        * exists 0%nat, (s, Some p). split; [lia|]. split; [reflexivity|].
          now rewrite Nat.add_0_r.
        * exists (S i), y. split; [lia|]. split; [exact H2|].
          rewrite Hv, app_length in H3. cbn [length] in H3.
          replace (length (vw st) + S i)%nat with (length (vw st) + 1 + i)%nat by lia. exact H3.
  Qed.

  Hypothesis Hl : entries_ok l.

  Lemma target_In id s : find_entry l id = Some s -> In s l.
  Proof.
    intros H. pose proof (find_entry_named l id (proj1 Hl)) as Hn. rewrite H in Hn.
    assert (Hin : In s (named l id)) by (rewrite Hn; now left). now apply named_In in Hin.
  Qed.

  (** The effect of processing an entry. *)
  Definition effect (process : tstate -> nat -> dirent -> res tstate) : Prop :=
    forall st k d q st',
      wf l st -> In d l -> nth_error (vw st) k = Some (d, q) ->
      process st k d = Ok st' ->
      entry_fine (d, q) /\ exists v, grown st st' (links l k (d, q)) v.

  Lemma process_link_effect process st p s st' :
    effect process -> wf l st -> In s l -> process_link process st p s = Ok st' ->
    exists p', p = Some p' /\ exists v, grown st st' [(s, Some p')] v.
  Proof.
    intros Hp W Hs H. unfold process_link in H.
    destruct (is_set st s) eqn:Ef; [discriminate|].
    apply rbind_ok in H as ((st1, k) & Ha & H). cbn beta iota in H.
    destruct (add_node_ok _ _ _ _ _ _ W Hs Ef Ha) as (p' & -> & -> & Hlt & Hat).
    exists p'. split; auto. destruct Hat as [HW Hv].
    assert (Hvl : length (vw st) = length (t_nodes st)) by (unfold vw; apply map_length).
    assert (Hk : nth_error (vw (set_flag st1 s)) (length (t_nodes st)) = Some (s, Some p')).
    { rewrite Hv, nth_error_app2 by lia. rewrite Hvl, Nat.sub_diag. reflexivity. }
    destruct (Hp _ _ _ _ _ HW Hs Hk H) as [Hf (v & Hg)].
    exists ((s, Some p') :: v). rewrite <- Hvl in Hg. eapply grown_link; eauto. split; auto.
  Qed.

  Lemma parent_vw st k d q : nth_error (vw st) k = Some (d, q) ->
    match nth_error (t_nodes st) k with Some n => n_parent n | None => None end = q.
  Proof. rewrite vw_nth. destruct (nth_error (t_nodes st) k); cbn; congruence. Qed.

  Lemma grown_nth st st' ls v k x : grown st st' ls v -> nth_error (vw st) k = Some x ->
    nth_error (vw st') k = Some x.
  Proof.
    intros [A1 _ _ _ _] H. rewrite A1, nth_error_app1; auto. apply nth_error_Some. congruence.
  Qed.

  Lemma process_entry_effect fuel : effect (process_entry fuel u e 0 l).
  Proof.
    induction fuel as [|fuel IH]; intros st k d q st' W Hd Hk H; [discriminate|].
    cbn [process_entry] in H. set (process := process_entry fuel u e 0 l) in *.
    apply rbind_ok in H as ([] & Hname & H).
    destruct Hl as [Hnd Hall]. pose proof (proj1 (Forall_forall _ _) Hall _ Hd) as (Hu1 & Hu2 & Hu3 & Hu4).
    apply rbind_ok in H as (st1 & H1 & H).
    assert (G1 : exists v, grown st st1 (map (fun s => (s, Some k)) (sub_targets l d)) v).
    { unfold sub_targets. change UNUSED with FREE in H1. change (0 =? 0) with true in H1.
      destruct (de_sub d =? FREE) eqn:E1; [cbn in H1|destruct (de_sub d =? 0) eqn:E2; [cbn in H1|cbn in H1]].
      - apply Ok_inj in H1 as <-. exists []. now apply grown_nil.
      - apply Ok_inj in H1 as <-. exists []. now apply grown_nil.
      - cbn [orb]. pose proof (find_entry_named l (de_sub d) Hnd) as Hfn.
        destruct (find_entry l (de_sub d)) as [s|] eqn:Ef; rewrite Hfn; cbn [map].
        + apply process_link_effect in H1 as (p' & Hp' & v & Hg); auto.
          * injection Hp' as <-. eauto.
          * now apply (target_In _ _ Ef).
        + apply Ok_inj in H1 as <-. exists []. now apply grown_nil. }
    destruct G1 as (v1 & G1). pose proof (grown_nth _ _ _ _ _ _ G1 Hk) as Hk1.
    cbn zeta in H.
    apply rbind_ok in H as (st2 & H2 & H).
    assert (G2 : exists v, grown st1 st2 (map (fun s => (s, q)) (prev_targets l d)) v).
    { unfold prev_targets. change UNUSED with FREE in H2. rewrite u32_s32_id in H2 by auto.
      destruct (de_prev d =? FREE) eqn:E1; cbn [negb] in H2.
      - apply Ok_inj in H2 as <-. exists []. apply grown_nil. apply (gr_wf _ _ _ _ G1).
      - pose proof (find_entry_named l (de_prev d) Hnd) as Hfn.
        destruct (find_entry l (de_prev d)) as [s|] eqn:Ef; rewrite Hfn; cbn [map].
        + rewrite (parent_vw _ _ _ _ Hk1) in H2.
          apply process_link_effect in H2 as (p' & -> & v & Hg); auto.
          * eauto.
          * apply (gr_wf _ _ _ _ G1).
          * now apply (target_In _ _ Ef).
        + apply Ok_inj in H2 as <-. exists []. apply grown_nil. apply (gr_wf _ _ _ _ G1). }
    destruct G2 as (v2 & G2). pose proof (grown_nth _ _ _ _ _ _ G2 Hk1) as Hk2.
    assert (G3 : ~ dangling_next l d /\ exists v, grown st2 st' (map (fun s => (s, q)) (next_targets l d)) v).
    { unfold next_targets, dangling_next. change UNUSED with FREE in H. rewrite u32_s32_id in H by auto.
      destruct (de_next d =? FREE) eqn:E1; cbn [negb] in H.
      - apply Ok_inj in H as <-. split; [lia|]. exists []. apply grown_nil. apply (gr_wf _ _ _ _ G2).
      - pose proof (find_entry_named l (de_next d) Hnd) as Hfn.
        destruct (find_entry l (de_next d)) as [s|] eqn:Ef; [|discriminate]. rewrite Hfn. cbn [map].
        split; [intros [_ ?]; discriminate|].
        rewrite (parent_vw _ _ _ _ Hk2) in H.
        apply process_link_effect in H as (p' & -> & v & Hg); auto.
        * eauto.
        * apply (gr_wf _ _ _ _ G2).
        * now apply (target_In _ _ Ef). }
    destruct G3 as (Hdn & v3 & G3).
    split. { split; auto. }
    exists (v1 ++ v2 ++ v3). unfold links. cbn [fst snd].
    apply (grown_trans _ _ _ _ _ _ _ G1). apply (grown_trans _ _ _ _ _ _ _ G2). exact G3.
  Qed.
End Grown.

(** The state before processing the root. *)
Definition start_state (root : dirent) : tstate :=
  {| t_nodes := [{| n_entry := root; n_parent := None; n_subs := [] |}]; t_flags := [] |}.

Lemma start_wf l root : In root l -> wf l (start_state root).
Proof.
  intros H. constructor; cbn; try easy.
  - constructor.
  - eauto.
  - intros [|[|j]] d q Hj Hq; try lia; discriminate.
  - intros [|[|p]] n Hn; try discriminate. injection Hn as <-. cbn. split.
    + exists []. split; [reflexivity|constructor].
    + intros j. split; [intros []|]. intros (d & Hd). destruct j as [|[|j]]; discriminate.
  - repeat constructor. auto.
Qed.

(** Properties of a grown tree. *)
Section Final.
  Variable u : una.
  Variable e : endian.
  Variable l : list dirent.
  Hypothesis Hl : entries_ok l.
  Variable root : dirent.
  Hypothesis Hroot : In root l.
  Variable st : tstate.
  Variable newv : list (dirent * option nat).
  Hypothesis G : grown u e l (start_state root) st (links l 0 (root, None)) newv.

  Let Hvw : vw st = (root, None) :: newv.
  Proof. apply (gr_vw _ _ _ _ _ _ _ G). Qed.

  Let Hperm : Permutation newv (links l 0 (root, None) ++ all_links l 1 newv).
  Proof. apply (gr_perm _ _ _ _ _ _ _ G). Qed.

  Lemma newv_some x : In x newv -> exists p, snd x = Some p.
  Proof.
    intros H. apply In_nth_error in H as (j & Hj). destruct x as [d q].
    destruct (wf_parent _ _ (gr_wf _ _ _ _ _ _ _ G) (S j) d q ltac:(lia)) as (p & -> & _).
    - rewrite Hvw. exact Hj.
    - exists p. reflexivity.
  Qed.

  Lemma newv_nodup : NoDup (map (fun x => de_id (fst x)) newv).
  Proof.
    pose proof (wf_nodup _ _ (gr_wf _ _ _ _ _ _ _ G)) as H.
    rewrite (wf_flags _ _ (gr_wf _ _ _ _ _ _ _ G)), Hvw in H. cbn [tl] in H.
    apply NoDup_rev in H. now rewrite rev_involutive in H.
  Qed.

  Lemma newv_inj x y : In x newv -> In y newv -> de_id (fst x) = de_id (fst y) -> x = y.
  Proof.
    intros Hx Hy He. pose proof newv_nodup as H. clear - Hx Hy He H.
    induction newv as [|z v IH]; [destruct Hx|]. cbn [map] in H. inversion H as [|a b H1 H2]; subst.
    destruct Hx as [->|Hx], Hy as [->|Hy]; auto.
    - exfalso. apply H1. rewrite He. now apply (in_map (fun x => de_id (fst x))).
    - exfalso. apply H1. rewrite <- He. now apply (in_map (fun x => de_id (fst x))).
  Qed.

  Lemma all_links_In k xs i x y :
    nth_error xs i = Some y -> In x (links l (k + i) y) -> In x (all_links l k xs).
  Proof.
    revert k i. induction xs as [|z xs IH]; intros k [|i] H Hx; cbn in H; try discriminate.
    - injection H as ->. cbn [all_links]. apply in_or_app. left. now rewrite Nat.add_0_r in Hx.
    - cbn [all_links]. apply in_or_app. right. apply (IH (S k) i); auto.
      now replace (S k + i)%nat with (k + S i)%nat by lia.
  Qed.

  Lemma node_links_In j x y :
    nth_error (vw st) j = Some y -> In x (links l j y) -> In x newv.
  Proof.
    rewrite Hvw. intros Hj Hx. apply (Permutation_in _ (Permutation_sym Hperm)). apply in_or_app.
    destruct j as [|j]; cbn in Hj.
    - injection Hj as <-. now left.
    - right. apply (all_links_In 1 newv j x y Hj Hx).
  Qed.

  (** The root is not below itself. *)
  Lemma root_once x : In x newv -> de_id (fst x) <> de_id root.
  Proof.
    intros Hx He. destruct newv as [|z v] eqn:En; [destruct Hx|]. rewrite <- En in *.
    (* the first node comes from a link of the root *)
    destruct (gr_just _ _ _ _ _ _ _ G 0%nat z) as [Hz|(i & y & Hi & _)]; [rewrite En; reflexivity| |lia].
    assert (Hzin : In z newv) by (rewrite En; now left).
    assert (Hsub : In (fst z) (sub_targets l root)).
    { unfold links in Hz. cbn [fst snd] in Hz. rewrite !in_app_iff in Hz.
      destruct Hz as [Hz|[Hz|Hz]].
      - apply in_map_iff in Hz as (s & <- & Hs). exact Hs.
      - apply in_map_iff in Hz as (s & <- & Hs). destruct (newv_some _ Hzin) as (p & Hp). discriminate.
      - apply in_map_iff in Hz as (s & <- & Hs). destruct (newv_some _ Hzin) as (p & Hp). discriminate. }
    (* x is the root entry: its sub link gives another node for the entry of z *)
    assert (Hxl : In (fst x) l).
    { pose proof (wf_in _ _ (gr_wf _ _ _ _ _ _ _ G)) as H. rewrite Hvw in H.
      apply Forall_cons_iff in H as [_ H]. apply (proj1 (Forall_forall _ _) H _ Hx). }
    assert (Hxr : fst x = root).
    { destruct Hl as [Hnd _]. clear - Hxl Hroot He Hnd. induction l as [|a m IH]; [destruct Hroot|].
      cbn [map] in Hnd. inversion Hnd as [|b c H1 H2]; subst.
      destruct Hxl as [H3|H3], Hroot as [H4|H4]; subst; auto.
      - exfalso. apply H1. rewrite He. now apply in_map.
      - exfalso. apply H1. rewrite <- He. now apply in_map. }
    apply In_nth_error in Hx as Hj. destruct Hj as (j & Hj).
    assert (H1 : In (fst z, Some 0%nat) newv).
    { apply (node_links_In 0 _ (root, None)); [rewrite Hvw; reflexivity|].
      unfold links. apply in_or_app. left. cbn [fst]. apply in_map_iff. eauto. }
    assert (H2 : In (fst z, Some (S j)) newv).
    { apply (node_links_In (S j) _ x); [rewrite Hvw; exact Hj|].
      unfold links. apply in_or_app. left. apply in_map_iff. exists (fst z). split; auto. now rewrite Hxr. }
    pose proof (newv_inj _ _ H1 H2 eq_refl) as Heq. discriminate.
  Qed.

  Lemma all_nodup : NoDup (map (fun x => de_id (fst x)) (vw st)).
  Proof.
    rewrite Hvw. cbn [map fst]. constructor; [|exact newv_nodup].
    intros H. apply in_map_iff in H as (x & Hx1 & Hx2). apply (root_once _ Hx2). auto.
  Qed.

  (** Sub items. *)
  Lemma node_sub_item j d p s dp :
    nth_error (vw st) p = Some (dp, d) ->
    nth_error (vw st) j = Some (s, Some p) -> sub_item l dp s.
  Proof.
    revert s. induction j as [j IH] using lt_wf_ind. intros s Hp Hj.
    rewrite Hvw in Hj. destruct j as [|j]; [discriminate|]. cbn in Hj.
    destruct (gr_just _ _ _ _ _ _ _ G _ _ Hj) as [Hx|(i & y & Hi & Hy & Hx)].
    - unfold links in Hx. cbn [fst snd] in Hx. rewrite !in_app_iff in Hx.
      destruct Hx as [Hx|[Hx|Hx]]; apply in_map_iff in Hx as (s' & He & Hs'); try discriminate.
      injection He as -> Hp0. subst p. rewrite Hvw in Hp. injection Hp as <- <-.
      exists s. split; auto. apply rt_refl.
    - change (length (vw (start_state root))) with 1%nat in Hx. unfold links in Hx.
      rewrite !in_app_iff in Hx.
      destruct Hx as [Hx|Hx].
      + apply in_map_iff in Hx as (s' & He & Hs'). injection He as -> Hp1.
        assert (Hyp : nth_error (vw st) p = Some y) by (rewrite Hvw, <- Hp1; exact Hy).
        rewrite Hp in Hyp. injection Hyp as <-. exists s. split; auto. apply rt_refl.
      + assert (Hyq : snd y = Some p /\ sibling_link l (fst y) s).
        { destruct Hx as [Hx|Hx]; apply in_map_iff in Hx as (s' & He & Hs'); injection He as -> Hp1;
            split; auto; [left|right]; auto. }
        destruct Hyq as [Hyq Hsib].
        destruct (IH (S i) ltac:(lia) (fst y) Hp) as (c & Hc1 & Hc2).
        { rewrite Hvw. cbn. rewrite Hy. destruct y. cbn in *. congruence. }
        exists c. split; auto. eapply rt_trans; [exact Hc2|]. now apply rt_step.
  Qed.

  Lemma sub_item_node p dp q s :
    nth_error (vw st) p = Some (dp, q) -> sub_item l dp s ->
    exists j, nth_error (vw st) j = Some (s, Some p).
  Proof.
    intros Hp (c & Hc & Hcs). apply clos_rt_rtn1 in Hcs. revert Hc.
    induction Hcs as [|y z Hyz Hcs IH]; intros Hc.
    - assert (Hin : In (c, Some p) newv).
      { apply (node_links_In p _ (dp, q) Hp). unfold links. apply in_or_app. left.
        cbn [fst]. apply in_map_iff. eauto. }
      apply In_nth_error in Hin as (j & Hj). exists (S j). rewrite Hvw. exact Hj.
    - destruct (IH Hc) as (j & Hj).
      assert (Hin : In (z, Some p) newv).
      { apply (node_links_In j _ (y, Some p) Hj). unfold links. apply in_or_app. right.
        cbn [fst snd]. apply in_or_app. destruct Hyz as [Hyz|Hyz]; [left|right]; apply in_map_iff; eauto. }
      apply In_nth_error in Hin as (i & Hi). exists (S i). rewrite Hvw. exact Hi.
  Qed.

  Lemma node_below j d q : nth_error (vw st) j = Some (d, q) -> below l root d.
  Proof.
    revert d q. induction j as [j IH] using lt_wf_ind. intros d q Hj. destruct j as [|j].
    - rewrite Hvw in Hj. injection Hj as <- <-. apply rt_refl.
    - destruct (wf_parent _ _ (gr_wf _ _ _ _ _ _ _ G) (S j) d q ltac:(lia) Hj) as (p & -> & Hp).
      destruct (nth_error (vw st) p) as [[dp dq]|] eqn:Ep.
      + eapply rt_trans; [exact (IH p Hp _ _ Ep)|]. apply rt_step. eapply node_sub_item; eauto.
      + exfalso. apply nth_error_None in Ep.
        assert (S j < length (vw st))%nat by (apply nth_error_Some; congruence). lia.
  Qed.

  Lemma below_node d : below l root d -> exists j q, nth_error (vw st) j = Some (d, q).
  Proof.
    intros H. apply clos_rt_rtn1 in H. induction H as [|y z Hyz _ (j & q & Hj)].
    - exists 0%nat, None. now rewrite Hvw.
    - destruct (sub_item_node _ _ _ _ Hj Hyz) as (i & Hi). eauto.
  Qed.
End Final.
