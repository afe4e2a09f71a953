(** Lemmas on links that name no entry, and on entries named twice. *)
From Coq Require Import ZArith List Bool Lia ZifyBool ZifyNat Permutation Sorted Relations.
From Verif Require Import Base Spec_Stream Spec_Load Spec_Tree L_Base M_Table M_Load M_Tree
  L_Load L_Load2 L_Tree L_Tree2 L_Tree3.
Import ListNotations.
Open Scope Z_scope.

(** * Dropping links *)
Definition rmap {A B} (f : A -> B) (r : res A) : res B :=
  match r with Ok a => Ok (f a) | Err => Err | Undef => Undef | NoFuel => NoFuel end.

Section Map.
  Variable g : dirent -> dirent.
  Hypothesis g_id : forall d, de_id (g d) = de_id d.
  Hypothesis g_type : forall d, de_type (g d) = de_type d.
  Hypothesis g_name : forall d, de_name (g d) = de_name d.
  Hypothesis g_next : forall d, de_next (g d) = de_next d.
  Variable l : list dirent.

  Definition map_state (st : tstate) : tstate :=
    {| t_nodes := map (map_node g) (t_nodes st); t_flags := t_flags st |}.

  Lemma map_find id l0 : find_entry (map g l0) id = option_map g (find_entry l0 id).
  Proof. induction l0 as [|d l0 IH]; cbn; auto. rewrite g_id. destruct (_ =? _); auto. Qed.

  Lemma map_find_root l0 : find_root (map g l0) = option_map g (find_root l0).
  Proof. induction l0 as [|d l0 IH]; cbn; auto. rewrite g_type. destruct (_ =? _); auto. Qed.

  Lemma map_entry nodes j : entry_of (map (map_node g) nodes) j = option_map g (entry_of nodes j).
  Proof. unfold entry_of. rewrite nth_error_map. destruct (nth_error nodes j); reflexivity. Qed.

  Lemma map_insert nodes k id subs : insert_sub (map (map_node g) nodes) k id subs = insert_sub nodes k id subs.
  Proof.
    induction subs as [|j subs IH]; cbn; auto. rewrite map_entry. destruct (entry_of nodes j); cbn; auto.
    rewrite g_id, IH. reflexivity.
  Qed.

  Lemma map_add st p d : add_node (map_state st) p (g d) =
    rmap (fun x => (map_state (fst x), snd x)) (add_node st p d).
  Proof.
    unfold add_node. destruct p as [p|]; [|reflexivity]. cbn [map_state t_nodes].
    rewrite nth_error_map. destruct (nth_error (t_nodes st) p) as [np|]; [|reflexivity]. cbn [option_map].
    rewrite map_insert, map_length, g_id. cbn [map_node n_subs].
    destruct (insert_sub _ _ _ _); [|reflexivity]. cbn [rmap fst snd]. unfold map_state. cbn [t_nodes t_flags].
    rewrite map_app. do 4 f_equal. rewrite set_nth_map. reflexivity.
  Qed.

  Lemma map_is_set st d : is_set (map_state st) (g d) = is_set st d.
  Proof. unfold is_set. now rewrite g_id. Qed.

  Lemma map_flag st d : set_flag (map_state st) (g d) = map_state (set_flag st d).
  Proof. unfold set_flag, map_state. cbn. now rewrite g_id. Qed.

  Lemma map_link process process' st p s :
    (forall st k, process' (map_state st) k (g s) = rmap map_state (process st k s)) ->
    process_link process' (map_state st) p (g s) = rmap map_state (process_link process st p s).
  Proof.
    intros H. unfold process_link. rewrite map_is_set. destruct (is_set st s); [reflexivity|].
    rewrite map_add. destruct (add_node st p s) as [[st1 k]| | |]; cbn [rmap rbind fst snd]; auto.
    now rewrite map_flag.
  Qed.

  Variable u : una.
  Variable e : endian.
  Variable root_id : Z.
  (** the links that are followed *)
  Definition follow_sub l0 d := if negb (de_sub d =? UNUSED) && negb (de_sub d =? 0) && (root_id =? 0) then find_entry l0 (de_sub d) else None.
  Definition follow_prev l0 d := if negb (de_prev d =? UNUSED) then find_entry l0 (u32 (s32 (de_prev d))) else None.
  Hypothesis g_sub : forall d, In d l -> follow_sub (map g l) (g d) = option_map g (follow_sub l d).
  Hypothesis g_prev : forall d, In d l -> follow_prev (map g l) (g d) = option_map g (follow_prev l d).

  Lemma find_In l0 id s : find_entry l0 id = Some s -> In s l0.
  Proof. induction l0 as [|d l0 IH]; cbn; [discriminate|]. destruct (_ =? _); [intros [= ->]; auto|auto]. Qed.

  Lemma follow_sub_In d s : follow_sub l d = Some s -> In s l.
  Proof. unfold follow_sub. destruct (_ && _); [apply find_In|discriminate]. Qed.
  Lemma follow_prev_In d s : follow_prev l d = Some s -> In s l.
  Proof. unfold follow_prev. destruct (negb _); [apply find_In|discriminate]. Qed.

  Lemma process_entry_follow fuel l0 st k d :
    process_entry (S fuel) u e root_id l0 st k d =
    (do _ <- check_summary_name u e d;
     do st1 <- match follow_sub l0 d with None => Ok st | Some s => process_link (process_entry fuel u e root_id l0) st (Some k) s end;
     let parent st := match nth_error (t_nodes st) k with Some n => n_parent n | None => None end in
     do st2 <- match follow_prev l0 d with None => Ok st1 | Some s => process_link (process_entry fuel u e root_id l0) st1 (parent st1) s end;
     if negb (de_next d =? UNUSED)
      then match find_entry l0 (u32 (s32 (de_next d))) with
           | None => Err
           | Some s => process_link (process_entry fuel u e root_id l0) st2 (parent st2) s
           end
      else Ok st2).
  Proof.
    cbn [process_entry]. unfold follow_sub, follow_prev.
    destruct (check_summary_name u e d); cbn [rbind]; auto.
    destruct (_ && _ && _); destruct (negb (de_prev d =? UNUSED)); reflexivity.
  Qed.

  Lemma map_parent st k : match nth_error (t_nodes (map_state st)) k with Some n => n_parent n | None => None end
    = match nth_error (t_nodes st) k with Some n => n_parent n | None => None end.
  Proof. cbn. rewrite nth_error_map. destruct (nth_error (t_nodes st) k); reflexivity. Qed.

  Lemma map_check d : check_summary_name u e (g d) = check_summary_name u e d.
  Proof. unfold check_summary_name. now rewrite g_name. Qed.

  Lemma map_process fuel : forall st k d, In d l ->
    process_entry fuel u e root_id (map g l) (map_state st) k (g d)
    = rmap map_state (process_entry fuel u e root_id l st k d).
  Proof.
    induction fuel as [|fuel IH]; intros st k d Hd; [reflexivity|].
    rewrite !process_entry_follow, map_check, g_sub, g_prev, g_next, map_find by auto.
    destruct (check_summary_name u e d) as [[]| | |]; cbn [rbind rmap]; auto.
    assert (HL : forall st p s, In s l ->
      process_link (process_entry fuel u e root_id (map g l)) (map_state st) p (g s)
      = rmap map_state (process_link (process_entry fuel u e root_id l) st p s)).
    { intros. apply map_link. intros. now apply IH. }
    assert (H1 : match option_map g (follow_sub l d) with None => Ok (map_state st) | Some s => process_link (process_entry fuel u e root_id (map g l)) (map_state st) (Some k) s end
       = rmap map_state match follow_sub l d with None => Ok st | Some s => process_link (process_entry fuel u e root_id l) st (Some k) s end).
    { destruct (follow_sub l d) as [s|] eqn:E; cbn [option_map]; [|reflexivity]. apply HL. eapply follow_sub_In; eauto. }
    rewrite H1. clear H1.
    destruct (match follow_sub l d with None => Ok st | Some s => _ end) as [st1| | |]; cbn [rmap rbind]; auto.
    cbn zeta. rewrite map_parent.
    assert (H2 : forall p, match option_map g (follow_prev l d) with None => Ok (map_state st1) | Some s => process_link (process_entry fuel u e root_id (map g l)) (map_state st1) p s end
       = rmap map_state match follow_prev l d with None => Ok st1 | Some s => process_link (process_entry fuel u e root_id l) st1 p s end).
    { intros p. destruct (follow_prev l d) as [s|] eqn:E; cbn [option_map]; [|reflexivity]. apply HL. eapply follow_prev_In; eauto. }
    rewrite H2. clear H2.
    destruct (match follow_prev l d with None => Ok st1 | Some s => _ end) as [st2| | |]; cbn [rmap rbind]; auto.
    destruct (negb _); [|reflexivity]. rewrite map_parent.
    destruct (find_entry l (u32 (s32 (de_next d)))) as [s|] eqn:E; cbn [option_map]; [|reflexivity].
    apply HL. eapply find_In; eauto.
  Qed.
End Map.

Lemma drop_find l d id : find_entry (map (drop_dangling d) l) id = option_map (drop_dangling d) (find_entry l id).
Proof. apply map_find. reflexivity. Qed.

Lemma named_nil_find l id : NoDup (map de_id l) -> (named l id = [] <-> find_entry l id = None).
Proof.
  intros H. pose proof (find_entry_named l id H). destruct (find_entry l id); split; congruence.
Qed.

Lemma find_free l : Forall (fun d => de_id d <> FREE) l -> find_entry l FREE = None.
Proof. induction 1 as [|d l H _ IH]; cbn [find_entry]; auto. destruct (_ =? _) eqn:E; [lia|auto]. Qed.

Lemma create_tree_drop u e l : entries_ok l -> Forall (fun d => de_id d <> FREE) l ->
  create_tree u e (map (drop_dangling l) l) =
  rmap (option_map (map_tree (drop_dangling l))) (create_tree u e l).
Proof.
  intros [Hnd Hall] Hfree. unfold create_tree.
  destruct l as [|d0 l0]; [reflexivity|]. set (l := d0 :: l0) in *. set (g := drop_dangling l).
  change (match map g l with [] => _ | _ :: _ => ?x end) with x.
  change (map g l) with (map g l). cbn [map].
  assert (Hroot : find_root (map g l) = option_map g (find_root l)) by (apply map_find_root; reflexivity).
  change (g d0 :: map g l0) with (map g l). rewrite Hroot.
  destruct (find_root l) as [root|] eqn:Er; cbn [option_map rmap]; [|reflexivity].
  destruct (find_root_In l root Er) as [Hin _].
  assert (Hs : (de_sub (g root) =? UNUSED) = (de_sub root =? UNUSED)).
  { unfold g, drop_dangling. cbn [de_sub]. change UNUSED with FREE. destruct (de_sub root =? FREE) eqn:E1; [reflexivity|].
    destruct (named l (de_sub root)); [reflexivity|exact E1]. }
  rewrite Hs. destruct (de_sub root =? UNUSED); [reflexivity|].
  change (de_id (g root)) with (de_id root). rewrite map_length.
  assert (Hfind : forall id, find_entry (map g l) id = option_map g (find_entry l id)) by (intros; apply map_find; reflexivity).
  assert (HM := map_process g (fun _ => eq_refl) (fun _ => eq_refl) (fun _ => eq_refl) l u e (de_id root)).
  assert (HP : forall st k d, In d l -> process_entry (length l + 2) u e (de_id root) (map g l) (map_state g st) k (g d)
             = rmap (map_state g) (process_entry (length l + 2) u e (de_id root) l st k d)).
  { apply HM.
    - intros d Hd. unfold follow_sub. rewrite Hfind. change UNUSED with FREE.
      change (de_sub (g d)) with (if de_sub d =? FREE then FREE else match named l (de_sub d) with [] => 0 | _ => de_sub d end).
      destruct (de_sub d =? FREE) eqn:E1; [reflexivity|]. cbn [negb andb].
      destruct (named l (de_sub d)) as [|s ss] eqn:E2.
      + change (0 =? FREE) with false. change (0 =? 0) with true. cbn [negb andb].
        apply named_nil_find in E2; auto. rewrite E2. destruct (_ && _); reflexivity.
      + rewrite E1. cbn [negb andb]. destruct (_ && _); reflexivity.
    - intros d Hd. unfold follow_prev. rewrite Hfind. change UNUSED with FREE.
      change (de_prev (g d)) with (match named l (de_prev d) with [] => FREE | _ => de_prev d end).
      pose proof (proj1 (Forall_forall _ _) Hall _ Hd) as (_ & Hu & _).
      rewrite u32_s32_id with (x := de_prev d) by auto.
      destruct (named l (de_prev d)) as [|s ss] eqn:E2.
      + change (FREE =? FREE) with true. cbn [negb].
        apply named_nil_find in E2; auto. rewrite E2. destruct (negb _); reflexivity.
      + destruct (negb _); [|reflexivity]. now rewrite u32_s32_id by auto. }
  specialize (HP (start_state root) O root Hin).
  change (map_state g (start_state root)) with
    {| t_nodes := [{| n_entry := g root; n_parent := None; n_subs := [] |}]; t_flags := [] |} in HP.
  rewrite HP. fold (start_state root).
  destruct (process_entry (length l + 2) u e (de_id root) l (start_state root) 0%nat root); reflexivity.
Qed.

(** * Entries named twice *)
Lemma link_targets_In l d k s : In s (link_targets l d k) -> In s (targets l d).
Proof.
  unfold targets. rewrite !in_app_iff. destruct k as [|[|[|k]]]; cbn; tauto.
Qed.

Lemma NoDup_targets l d k1 k2 x y : NoDup (map de_id (targets l d)) -> k1 <> k2 ->
  In x (link_targets l d k1) -> In y (link_targets l d k2) -> de_id x <> de_id y.
Proof.
  unfold targets. rewrite !map_app. intros H Hk Hx Hy E.
  pose proof (in_map de_id _ _ Hx) as Hx'. pose proof (in_map de_id _ _ Hy) as Hy'. rewrite <- E in Hy'.
  pose proof (NoDup_app_disj _ _ (de_id x) H) as D1.
  pose proof (NoDup_app_disj _ _ (de_id x) (NoDup_app_r _ _ H)) as D2.
  rewrite in_app_iff in D1.
  destruct k1 as [|[|[|k1]]], k2 as [|[|[|k2]]]; cbn in Hx', Hy'; try tauto; lia.
Qed.

Lemma flat_targets_one l xs d : NoDup (map de_id (flat_map (targets l) xs)) -> In d xs ->
  NoDup (map de_id (targets l d)).
Proof.
  induction xs as [|x xs IH]; intros H Hd; [destruct Hd|]. cbn [flat_map] in H. rewrite map_app in H.
  destruct Hd as [->|Hd]; [eapply NoDup_app_l; eauto|apply IH; auto; eapply NoDup_app_r; eauto].
Qed.

Lemma reachable_below u e l root tr d : entries_ok l -> tree_made u e l root tr -> de_id root = 0 ->
  reachable l root d -> In d (tree_entries tr).
Proof.
  intros Hl HM H0 H. apply clos_rt_rtn1 in H. induction H as [|y z (k & Hk) _ IH].
  - eapply (made_below u e l root tr HM); auto. apply rt_refl.
  - pose proof (link_targets_In _ _ _ _ Hk) as Ht. clear Hk.
    rewrite (made_entries tr) in *.
    destruct HM as (_ & Hin & _ & _ & _ & _ & [[? _]|[_ (newv & a & b & c & G & _)]]); [congruence|].
    pose proof (gr_vw _ _ _ _ _ _ _ G) as Hv. change (vw (start_state root)) with [(root, @None nat)] in Hv.
    rewrite Hv in *. cbn [app map fst] in *.
    assert (Hin' : In z (map fst newv)); [|now right].
    pose proof (gr_perm _ _ _ _ _ _ _ G) as Hp. apply (Permutation_map fst) in Hp.
    rewrite map_app, map_links, map_all_links in Hp. cbn [fst] in Hp.
    eapply Permutation_in; [symmetry; exact Hp|]. apply in_or_app.
    destruct IH as [<-|IH]; [now left|]. right. apply in_flat_map. eauto.
Qed.

Lemma named_twice_fails u e l root : una_ok u -> entries_ok l -> find_root l = Some root -> de_id root = 0 ->
  forall d1 k1 d2 k2 s1 s2, reachable l root d1 -> reachable l root d2 -> (d1, k1) <> (d2, k2) ->
    In s1 (link_targets l d1 k1) -> In s2 (link_targets l d2 k2) -> de_id s1 = de_id s2 ->
    forall tr, create_tree u e l <> Ok (Some tr).
Proof.
  intros Hu Hl Hr H0 d1 k1 d2 k2 s1 s2 R1 R2 Hne H1 H2 E tr H.
  pose proof (create_tree_root u e l tr root Hu Hl H Hr) as HM.
  pose proof (made_links u e l Hl root tr HM H0) as (Hnd & _).
  cbn [map] in Hnd. apply NoDup_cons_iff in Hnd as [_ Hnd].
  pose proof (reachable_below _ _ _ _ _ _ Hl HM H0 R1) as I1.
  pose proof (reachable_below _ _ _ _ _ _ Hl HM H0 R2) as I2.
  assert (Hd : {d1 = d2} + {d1 <> d2}).
  { repeat decide equality. }
  destruct Hd as [->|Hd].
  - eapply NoDup_targets; [eapply flat_targets_one; eauto| |exact H1|exact H2|exact E]. congruence.
  - eapply flat_map_NoDup; [exact Hnd|exact I1|exact I2|exact Hd|eapply link_targets_In; eauto|eapply link_targets_In; eauto|exact E].
Qed.

Lemma root_named_fails u e l root : una_ok u -> entries_ok l -> find_root l = Some root -> de_id root = 0 ->
  forall d k, reachable l root d -> In root (link_targets l d k) ->
    forall tr, create_tree u e l <> Ok (Some tr).
Proof.
  intros Hu Hl Hr H0 d k R H1 tr H.
  pose proof (create_tree_root u e l tr root Hu Hl H Hr) as HM.
  pose proof (made_links u e l Hl root tr HM H0) as (Hnd & _).
  cbn [map] in Hnd. apply NoDup_cons_iff in Hnd as [Hn _]. apply Hn. apply in_map. apply in_flat_map.
  exists d. split; [eapply reachable_below; eauto|eapply link_targets_In; eauto].
Qed.

Lemma dangling_next_fails u e l root : una_ok u -> entries_ok l -> find_root l = Some root -> de_id root = 0 ->
  forall d, reachable l root d -> dangling_next l d -> forall tr, create_tree u e l <> Ok (Some tr).
Proof.
  intros Hu Hl Hr H0 d R Hdn tr H.
  pose proof (create_tree_root u e l tr root Hu Hl H Hr) as HM.
  destruct (made_fine u e l root tr HM d H0) as [Hf _]; [eapply reachable_below; eauto|auto].
Qed.
