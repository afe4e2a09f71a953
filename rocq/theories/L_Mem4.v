(** Lemmas on opening and closing a file when requests for memory can fail: the
    tree and the whole file. *)
From Coq Require Import ZArith List Bool Lia Permutation.
From Verif Require Import Base Spec_IO Spec_Stream Spec_Load Spec_Tree Spec_Open L_Base M_Table M_Header M_Load M_Stream M_Tree
  M_Open M_Mem L_Tree L_Tree2 L_Tree3 L_Header L_Load L_Open L_Open2 L_Free L_Mem L_Mem2 L_Mem3.
Import ListNotations.
Open Scope Z_scope.

(** A step of the construction from [st]: what the calls do to memory, and what
    the outcome [r] of the construction without failures is. *)
Definition built (st : mtree) (s : mst) (x : res (bool * mtree) * mst) (r : res tstate) : Prop :=
  exists ok st' new s' q, x = (Ok (ok, st'), s') /\ m_trace s' = m_trace s /\ of_kind RTree q /\
    snd st' = snd st ++ new /\ moved s q [] new s' /\
    if ok then r = Ok (fst st') /\ granted q else (granted q /\ r = Err) \/ refused q.

Lemma built_ret st s : fit s -> built st s (mret (true, st) s) (Ok (fst st)).
Proof.
  intros F. exists true, st, [], s, []. split; [reflexivity|]. split; [reflexivity|]. split; [kinds|]. split; [now rewrite app_nil_r|].
  split; [now apply moved_refl|]. split; [reflexivity|grants].
Qed.

Lemma built_err st s : fit s -> built st s (mret (false, st) s) Err.
Proof.
  intros F. exists false, st, [], s, []. split; [reflexivity|]. split; [reflexivity|]. split; [kinds|]. split; [now rewrite app_nil_r|].
  split; [now apply moved_refl|]. left. split; [grants|reflexivity].
Qed.

Lemma built_bind st s m r f g :
  fit s -> built st s (m s) r ->
  (forall st1 s1, fit s1 -> r = Ok (fst st1) -> built st1 s1 (g st1 s1) (f (fst st1))) ->
  built st s ((dm (ok, st1) <- m; if negb ok then mret (false, st1) else g st1) s) (do st1 <- r; f st1).
Proof.
  intros F (ok & st1 & new & s1 & q & E & T & K & S & M & H) HG. rewrite (mbind_ok _ _ _ _ _ E). cbn beta iota. destruct ok; cbn [negb].
  - destruct H as [-> G]. destruct (HG st1 s1 (proj1 M) eq_refl) as (ok & st2 & new2 & s2 & q2 & E2 & T2 & K2 & S2 & M2 & H2).
    exists ok, st2, (new ++ new2), s2, (q ++ q2). split; [exact E2|]. split; [congruence|]. split; [kinds|].
    split; [rewrite S2, S, app_assoc; reflexivity|]. split; [weigh|]. cbn [rbind]. destruct ok.
    + destruct H2 as [H2 G2]. split; [exact H2|grants].
    + destruct H2 as [[G2 H2]|R2]; [left; split; [grants|exact H2]|]. right. apply refused_r, R2.
  - exists false, st1, new, s1, q. split; [reflexivity|]. split; [exact T|]. split; [kinds|]. split; [exact S|]. split; [exact M|].
    destruct H as [[G ->]|R]; [left; auto|right; auto].
Qed.

Lemma process_link_mm mem process pure st p d s : fit s ->
  defined (process_link pure (fst st) p d) ->
  (forall st1 k s1, fit s1 -> defined (pure (fst st1) k d) -> built st1 s1 (process st1 k d s1) (pure (fst st1) k d)) ->
  built st s (mm_process_link mem process st p d s) (process_link pure (fst st) p d).
Proof.
  intros F D HP. unfold mm_process_link, process_link in *.
  destruct (is_set (fst st) d); [now apply built_err|].
  destruct (alloc_spec mem RTree s F) as (r & s1 & X1 & T1 & M1). rewrite (mbind_ok _ _ _ _ _ X1). destruct r as [b|].
  2: { exists false, st, [], s1, [(RTree, false)]. split; [reflexivity|]. split; [exact T1|]. split; [kinds|]. split; [now rewrite app_nil_r|].
       split; [exact M1|]. right. apply refused_one. }
  destruct (grant_spec mem RTree s1 (proj1 M1)) as (ok & s2 & X2 & T2 & M2). rewrite (mbind_ok _ _ _ _ _ X2).
  destruct (add_node (fst st) p d) as [[st1 k]| | |]; cbn [rbind] in *; try contradiction.
  - destruct ok; cbn [negb].
    + destruct (HP (set_flag st1 d, snd st ++ [b]) k s2 (proj1 M2) D) as (ok & st2 & new & s3 & q & X3 & T3 & K3 & S3 & M3 & H3).
      exists ok, st2, (b :: new), s3, ((RTree, true) :: (RTree, true) :: q). split; [exact X3|]. split; [congruence|]. split; [kinds|].
      split; [rewrite S3; cbn [snd]; rewrite <- app_assoc; reflexivity|]. split; [weigh|]. cbn [fst] in H3. destruct ok.
      * destruct H3 as [H3 G3]. split; [exact H3|grants].
      * destruct H3 as [[G3 H3]|R3]; [left; split; [grants|exact H3]|]. right. apply refused_two, refused_two, R3.
    + destruct (release_spec b s2 (proj1 M2)) as (s3 & X3 & T3 & M3); [own|]. rewrite (mbind_ok _ _ _ _ _ X3).
      exists false, st, [], s3, [(RTree, true); (RTree, false)]. split; [reflexivity|]. split; [congruence|]. split; [kinds|].
      split; [now rewrite app_nil_r|]. split; [weigh|]. right. apply refused_two, refused_one.
  - destruct (release_spec b s2 (proj1 M2)) as (s3 & X3 & T3 & M3); [own|]. rewrite (mbind_ok _ _ _ _ _ X3).
    exists false, st, [], s3, [(RTree, true); (RTree, ok)]. split; [reflexivity|]. split; [congruence|]. split; [kinds|].
    split; [now rewrite app_nil_r|]. split; [weigh|]. destruct ok; [left; split; [grants|reflexivity]|right; apply refused_two, refused_one].
Qed.

Lemma defined_bind {A B} (r : res A) (f : A -> res B) : defined (do a <- r; f a) -> defined r /\ forall a, r = Ok a -> defined (f a).
Proof. destruct r; cbn [rbind defined]; intros D; split; auto; try discriminate. intros a0 [= <-]. exact D. Qed.

Lemma process_entry_mm mem u e root_id l fuel : forall st k d s, fit s ->
  defined (process_entry fuel u e root_id l (fst st) k d) ->
  built st s (mm_process_entry fuel mem u e root_id l st k d s) (process_entry fuel u e root_id l (fst st) k d).
Proof.
  induction fuel as [|fuel IH]; intros st k d s F D; cbn [mm_process_entry process_entry] in *; [contradiction|].
  destruct (check_summary_name u e d) as [[]| | |]; cbn [rbind] in *; try contradiction; [|now apply built_err].
  apply defined_bind in D as [D1 D].
  apply (built_bind st s _ _ _ (fun st1 =>
            dm (ok, st2) <-
              (if negb (de_prev d =? UNUSED)
               then match find_entry l (u32 (s32 (de_prev d))) with
                    | None => mret (true, st1)
                    | Some s => mm_process_link mem (mm_process_entry fuel mem u e root_id l) st1
                                  (match nth_error (t_nodes (fst st1)) k with Some n => n_parent n | None => None end) s
                    end
               else mret (true, st1));
            if negb ok then mret (false, st2)
            else if negb (de_next d =? UNUSED)
            then match find_entry l (u32 (s32 (de_next d))) with
                 | None => mret (false, st2)
                 | Some s => mm_process_link mem (mm_process_entry fuel mem u e root_id l) st2
                               (match nth_error (t_nodes (fst st2)) k with Some n => n_parent n | None => None end) s
                 end
            else mret (true, st2))); [exact F| |].
  - destruct (_ && _ && _); [|now apply built_ret]. destruct (find_entry l (de_sub d)) as [x|]; [|now apply built_ret].
    apply process_link_mm; auto.
  - intros st1 s1 F1 E1. specialize (D _ E1). apply defined_bind in D as [D2 D].
    apply (built_bind st1 s1 _ _ _ (fun st2 =>
            if negb (de_next d =? UNUSED)
            then match find_entry l (u32 (s32 (de_next d))) with
                 | None => mret (false, st2)
                 | Some s => mm_process_link mem (mm_process_entry fuel mem u e root_id l) st2
                               (match nth_error (t_nodes (fst st2)) k with Some n => n_parent n | None => None end) s
                 end
            else mret (true, st2))); [exact F1| |].
    + destruct (negb (de_prev d =? UNUSED)); [|now apply built_ret]. destruct (find_entry l (u32 (s32 (de_prev d)))) as [x|]; [|now apply built_ret].
      apply process_link_mm; auto.
    + intros st2 s2 F2 E2. specialize (D _ E2).
      destruct (negb (de_next d =? UNUSED)); [|now apply built_ret]. destruct (find_entry l (u32 (s32 (de_next d)))) as [x|]; [|now apply built_err].
      apply process_link_mm; auto.
Qed.

Lemma create_tree_mm mem u e l s : fit s -> defined (create_tree u e l) ->
  exists o s' q, mm_create_tree mem u e l s = (Ok o, s') /\ m_trace s' = m_trace s /\ of_kind RTree q /\
    match o with
    | Some (tr, nodes) => moved s q [] nodes s' /\ granted q /\ create_tree u e l = Ok tr /\ (tr = None -> nodes = [])
    | None => moved s q [] [] s' /\ ((granted q /\ create_tree u e l = Err) \/ refused q)
    end.
Proof.
  intros F D. unfold mm_create_tree, create_tree in *. destruct l as [|d0 l0].
  { exists (Some (None, [])), s, []. split; [reflexivity|]. split; [reflexivity|]. split; [kinds|]. split; [now apply moved_refl|]. auto using granted_nil. }
  set (l := d0 :: l0) in *. destruct (find_root l) as [root|].
  2: { exists None, s, []. split; [reflexivity|]. split; [reflexivity|]. split; [kinds|]. split; [now apply moved_refl|]. left. split; [grants|reflexivity]. }
  destruct (de_sub root =? UNUSED).
  { exists (Some (None, [])), s, []. split; [reflexivity|]. split; [reflexivity|]. split; [kinds|]. split; [now apply moved_refl|]. auto using granted_nil. }
  apply defined_bind in D as [D _].
  destruct (alloc_spec mem RTree s F) as (r & s1 & X1 & T1 & M1). rewrite (mbind_ok _ _ _ _ _ X1). destruct r as [b|].
  2: { exists None, s1, [(RTree, false)]. split; [reflexivity|]. split; [exact T1|]. split; [kinds|]. split; [exact M1|]. right. apply refused_one. }
  pose proof (process_entry_mm mem u e (de_id root) l (length l + 2)
    ({| t_nodes := [{| n_entry := root; n_parent := None; n_subs := [] |}]; t_flags := [] |}, [b]) 0 root s1 (proj1 M1) D) as HB.
  cbn [fst] in HB. destruct HB as (ok & st & new & s2 & q & X2 & T2 & K2 & S2 & M2 & H2). cbn [snd] in S2.
  rewrite (mbind_ok _ _ _ _ _ X2). cbn beta iota. destruct ok.
  - destruct H2 as [H2 G2]. eexists (Some (_, _)), s2, ((RTree, true) :: q). split; [reflexivity|]. split; [congruence|]. split; [kinds|].
    rewrite S2. cbn [app]. split; [weigh|]. split; [grants|]. rewrite H2. cbn [rbind]. split; [reflexivity|discriminate].
  - rewrite S2. cbn [app]. destruct (release_all_spec (b :: new) s2 (proj1 M2)) as (s3 & X3 & T3 & M3); [own|].
    rewrite (mbind_ok _ _ _ _ _ X3). exists None, s3, ((RTree, true) :: q). split; [reflexivity|]. split; [congruence|]. split; [kinds|].
    split; [weigh|]. destruct H2 as [[G2 H2]|R2]; [left; split; [grants|]; now rewrite H2|]. right. apply refused_two, R2.
Qed.
