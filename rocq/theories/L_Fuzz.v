(** Lemmas on the targets for fuzzing. *)
From Coq Require Import ZArith List Bool Lia Permutation.
From Verif Require Import Base Spec_IO Spec_Stream Spec_Load Spec_Tree Spec_Open L_Base M_Table M_Header M_Load M_Stream M_Tree
  M_Open M_Item M_File M_Mem Spec_Mem M_Fuzz Spec_Fuzz L_Mem L_Mem2 L_Mem3 L_Mem5 L_Mem6 L_Sound.
Import ListNotations.
Open Scope Z_scope.

Definition use_post (on_file : opened -> list Z -> Prop) (o : opened) (s : mst) (l : list Z) (s' : mst) (q : list (kind * bool)) : Prop :=
  moved s q [] [] s' /\ (refused q -> In (-1) l) /\ (granted q -> on_file o l).

Lemma not_refused_nil : ~ refused [].
Proof. intros [k []]. Qed.
Lemma not_refused_one k : ~ refused [(k, true)].
Proof. intros [k' [H|[]]]. discriminate. Qed.

Lemma file_used s o : fit s -> exists l s' q, mret [] s = (Ok l, s') /\ use_post (fun _ l => l = []) o s l s' q.
Proof.
  intros F. exists [], s, []. split; [reflexivity|]. split; [now apply moved_refl|]. split; [|reflexivity].
  intros R. destruct (not_refused_nil R).
Qed.

Lemma first_sub_mm mem t k n s : fit s -> nth_error (tr_nodes t) k = Some n -> n_subs n <> [] ->
  exists l s' q, first_sub_item mem t k s = (Ok l, s') /\ moved s q [] [] s' /\ (refused q -> In (-1) l) /\ (granted q -> l = [1; 1]).
Proof.
  intros F Hn N. unfold first_sub_item, get_sub_item, sub_nodes. rewrite Hn. cbn [rbind].
  destruct (n_subs n) as [|j subs]; [congruence|]. change (znth (j :: subs) 0) with (Some j). cbv iota.
  destruct (alloc_spec mem RTool s F) as (r & s1 & X1 & T1 & M1). rewrite (mbind_ok _ _ _ _ _ X1). destruct r as [p|].
  - destruct (release_spec p s1 (proj1 M1)) as (s2 & X2 & T2 & M2); [own|]. rewrite (mbind_ok _ _ _ _ _ X2).
    exists [1; 1], s2, [(RTool, true)]. split; [reflexivity|]. split; [weigh|]. split; [|reflexivity].
    intros R. destruct (not_refused_one _ R).
  - exists [-1], s1, [(RTool, false)]. split; [reflexivity|]. split; [exact M1|]. split; [now left|].
    intros G. destruct (granted_not _ G (refused_one _)).
Qed.

Lemma items_used mem u s o : una_ok u -> sound_file u o -> fit s ->
  exists l s' q, root_item_used mem (o_tree o) s = (Ok l, s') /\ use_post item_calls o s l s' q.
Proof.
  intros Hu HS F. unfold use_post, item_calls. destruct (o_tree o) as [t|] eqn:Ht.
  2: { exists [0], s, []. split; [reflexivity|]. split; [now apply moved_refl|]. split; [|reflexivity].
       intros R. destruct (not_refused_nil R). }
  destruct (sound_first u o t Hu HS Ht) as (d & n & Hn & _).
  unfold root_item_used. cbn [get_root_item]. cbv iota.
  destruct (alloc_spec mem RTool s F) as (r & s1 & X1 & T1 & M1). rewrite (mbind_ok _ _ _ _ _ X1). destruct r as [p|].
  2: { exists [-1], s1, [(RTool, false)]. split; [reflexivity|]. split; [exact M1|]. split; [now left|].
       intros G. destruct (granted_not _ G (refused_one _)). }
  unfold get_number_of_sub_items, sub_nodes. rewrite Hn. cbn [rbind].
  destruct (zlen (n_subs n) >? 0) eqn:E.
  - destruct (first_sub_mm mem t 0 n s1 (proj1 M1) Hn) as (l & s2 & q & X2 & M2 & R2 & G2).
    { intros N. rewrite N in E. discriminate. }
    rewrite (mbind_ok _ _ s1 (1 :: l) s2); [|rewrite (mbind_ok _ _ _ _ _ X2); reflexivity].
    destruct (release_spec p s2 (proj1 M2)) as (s3 & X3 & T3 & M3); [own|]. rewrite (mbind_ok _ _ _ _ _ X3).
    eexists _, s3, ([(RTool, true)] ++ q). split; [reflexivity|]. split; [weigh|]. split.
    + intros R. right. right. apply in_or_app. left. apply R2. destruct R as [k [H|H]]; [discriminate|now exists k].
    + intros G. left. split.
      * destruct (n_subs n) as [|j subs] eqn:Es; [discriminate|]. exists j, n. split; [exact Hn|]. rewrite Es. now left.
      * rewrite G2; [reflexivity|]. intros k b H. apply (G k b). apply in_or_app. now right.
  - rewrite (mbind_ok (mret [1]) _ s1 [1] s1) by reflexivity.
    destruct (release_spec p s1 (proj1 M1)) as (s3 & X3 & T3 & M3); [own|]. rewrite (mbind_ok _ _ _ _ _ X3).
    eexists _, s3, [(RTool, true)]. split; [reflexivity|]. split; [weigh|]. split.
    + intros R. destruct (not_refused_one _ R).
    + intros G. right. split; [|reflexivity]. intros j (n' & Hn' & Hj). rewrite Hn in Hn'. injection Hn' as <-.
      destruct (n_subs n); [destruct Hj|]. discriminate.
Qed.

Lemma fuzz_initialize_mm mem s : fit s ->
  exists r s' q, fuzz_initialize mem s = (Ok r, s') /\ m_trace s' = m_trace s /\
    match r with
    | Some (f, i) => moved s q [] [f; i] s' /\ granted q
    | None => moved s q [] [] s' /\ refused q
    end.
Proof.
  intros F. unfold fuzz_initialize.
  destruct (alloc_spec mem RTool s F) as (r & s1 & X1 & T1 & M1). rewrite (mbind_ok _ _ _ _ _ X1). destruct r as [a|].
  2: { exists None, s1, [(RTool, false)]. split; [reflexivity|]. split; [exact T1|]. split; [exact M1|apply refused_one]. }
  destruct (alloc_spec mem RTool s1 (proj1 M1)) as (r & s2 & X2 & T2 & M2). rewrite (mbind_ok _ _ _ _ _ X2). destruct r as [b|].
  - exists (Some (a, b)), s2, [(RTool, true); (RTool, true)]. split; [reflexivity|]. split; [congruence|]. split; [weigh|].
    apply (granted_app [_]); apply granted_one.
  - destruct (release_spec a s2 (proj1 M2)) as (s3 & X3 & T3 & M3); [own|]. rewrite (mbind_ok _ _ _ _ _ X3).
    exists None, s3, [(RTool, true); (RTool, false)]. split; [reflexivity|]. split; [congruence|].
    split; [weigh|]. exists RTool. right. now left.
Qed.

Definition tables_only (q : list (kind * bool)) : Prop := forall k, In (k, false) q -> k = RSat \/ k = RSsat.

Lemma fuzz_open_mm mem u ev s : una_ok u -> io_bytes (ev_reader ev) -> fit s ->
  exists r s' q, fuzz_open mem u ev s = (Ok r, s') /\
    match r with
    | None => moved s q [] [] s' /\
        (refused q \/ ev_is_open ev = false \/ ev_open ev = false \/ exists t, open_read u (ev_reader ev) (m_trace s) = (Err, t))
    | Some f => moved s q [] (file_blocks f) s' /\ closable f /\ ev_is_open ev = true /\ ev_open ev = true /\
        opens u (ev_reader ev) (m_trace s) (In (RSat, false) q) (In (RSsat, false) q) (mf_opened f) (m_trace s') /\ tables_only q
    end.
Proof.
  intros Hu HB F. unfold fuzz_open. destruct (ev_is_open ev) eqn:E1; [destruct (ev_open ev) eqn:E2|]; cbn [andb].
  - destruct (open_mm mem u (ev_reader ev) s Hu HB F) as (r & s3 & q & X3 & P). exists r, s3, q. split; [exact X3|].
    destruct r as [f|].
    + pose proof (open_closable _ _ _ _ _ _ Hu P) as C. destruct P as (M3 & O & Q & _). auto 6.
    + destruct P as (M & [R|E]); (split; [exact M|]); [now left|]. right. right. right. eauto.
  - exists None, s, []. split; [reflexivity|]. split; [now apply moved_refl|]. auto.
  - exists None, s, []. split; [reflexivity|]. split; [now apply moved_refl|]. auto.
Qed.

(** A whole run. *)
Definition target_post (on_file : opened -> list Z -> Prop) (u : una) (ev : env) (set : bool)
    (s : mst) (l : list Z) (s' : mst) (q : list (kind * bool)) : Prop :=
  moved s q [] [] s' /\ (tables_only q \/ In (-1) l) /\ (granted q -> target_calls on_file u ev set (m_trace s) l).

Lemma fuzz_mm mem used on_file u ev set s :
  una_ok u -> io_bytes (ev_reader ev) -> fit s ->
  (forall x s, sound_file u (mf_opened x) -> fit s ->
     exists l s' q, used x s = (Ok l, s') /\ use_post on_file (mf_opened x) s l s' q) ->
  exists l s' q, fuzz mem used u ev set s = (Ok l, s') /\ target_post on_file u ev set s l s' q.
Proof.
  intros Hu HB F HU. unfold fuzz, target_post, target_calls.
  destruct (alloc_spec mem RTool s F) as (r & s1 & X1 & T1 & M1). rewrite (mbind_ok _ _ _ _ _ X1). destruct r as [h|].
  2: { exists [-1], s1, [(RTool, false)]. split; [reflexivity|]. split; [exact M1|]. split; [right; now left|].
       intros G. destruct (granted_not _ G (refused_one _)). }
  destruct set.
  2: { rewrite (mbind_ok (mret [-1]) _ s1 [-1] s1) by reflexivity.
       destruct (release_spec h s1 (proj1 M1)) as (s2 & X2 & T2 & M2); [own|]. rewrite (mbind_ok _ _ _ _ _ X2).
       eexists _, s2, [(RTool, true)]. split; [reflexivity|]. split; [weigh|]. split; [right; right; now left|]. intros _. now left. }
  destruct (fuzz_initialize_mm mem s1 (proj1 M1)) as (r & s2 & q2 & X2 & T2 & H2).
  destruct r as [[f i]|].
  2: { destruct H2 as [M2 R2]. rewrite (mbind_ok _ _ s1 [1; -1] s2); [|rewrite (mbind_ok _ _ _ _ _ X2); reflexivity].
       destruct (release_spec h s2 (proj1 M2)) as (s3 & X3 & T3 & M3); [own|]. rewrite (mbind_ok _ _ _ _ _ X3).
       eexists _, s3, ([(RTool, true)] ++ q2). split; [reflexivity|]. split; [weigh|]. split; [right; right; right; now left|].
       intros G. destruct (granted_not _ G (refused_r _ _ R2)). }
  destruct H2 as [M2 G2].
  destruct (fuzz_open_mm mem u ev s2 Hu HB (proj1 M2)) as (r & s3 & q3 & X3 & H3). rewrite T2, T1 in H3.
  (* the end: what was returned so far is [l0] *)
  assert (ER : forall l0 s4 q4, moved s3 q4 (match r with Some x => file_blocks x | None => [] end) [] s4 ->
    (match r with
     | None => mret [-1]
     | Some x => dm l <- used x; dm _ <- mm_close x; mret (1 :: l ++ [if ev_close ev then 0 else -1])
     end) s3 = (Ok l0, s4) ->
    exists s', (dm l <- (dm f <- fuzz_initialize mem;
                 match f with
                 | None => mret [1; -1]
                 | Some (f, i) =>
                     dm x <- fuzz_open mem u ev;
                     dm l <- (match x with
                              | None => mret [-1]
                              | Some x =>
                                  dm l <- used x;
                                  dm _ <- mm_close x;
                                  mret (1 :: l ++ [if ev_close ev then 0 else -1])
                              end);
                     dm _ <- release i;
                     dm _ <- release f;
                     mret (1 :: 1 :: l ++ [1])
                 end);
      dm _ <- release h;
      mret (1 :: l ++ [1])) s1 = (Ok (1 :: (1 :: 1 :: l0 ++ [1]) ++ [1]), s') /\
      moved s ([(RTool, true)] ++ q2 ++ q3 ++ q4) [] [] s').
  { intros l0 s4 q4 M4 X4.
    assert (M3 : moved s2 q3 [] (match r with Some x => file_blocks x | None => [] end) s3) by (destruct r; apply H3).
    assert (FR : moved s ([(RTool, true)] ++ q2 ++ q3 ++ q4) [] [h; f; i] s4) by weigh. clear M1 M2 M3 M4.
    destruct (release_spec i s4 (proj1 FR)) as (s5 & X5 & T5 & M5); [own|].
    destruct (release_spec f s5 (proj1 M5)) as (s6 & X6 & T6 & M6); [own|].
    destruct (release_spec h s6 (proj1 M6)) as (s7 & X7 & T7 & M7); [own|].
    exists s7. split; [|weigh].
    rewrite (mbind_ok _ _ s1 (1 :: 1 :: l0 ++ [1]) s6).
    - rewrite (mbind_ok _ _ _ _ _ X7). reflexivity.
    - rewrite (mbind_ok _ _ _ _ _ X2). cbv iota beta. rewrite (mbind_ok _ _ _ _ _ X3). rewrite (mbind_ok _ _ _ _ _ X4).
      rewrite (mbind_ok _ _ _ _ _ X5). rewrite (mbind_ok _ _ _ _ _ X6). reflexivity. }
  destruct r as [x|].
  - destruct H3 as (M3 & C & E1 & E2 & O & Q).
    destruct (HU x s3 (opens_sound _ _ _ _ _ _ _ Hu HB O) (proj1 M3)) as (l & s4 & q4 & X4 & M4 & R4 & G4).
    destruct (close_mm x s4 C (proj1 M4)) as (s5 & X5 & T5 & M5); [own|].
    destruct (ER (1 :: l ++ [if ev_close ev then 0 else -1]) s5 q4) as (s' & X & M).
    { clear ER. assert (moved s3 (q4 ++ []) (file_blocks x) [] s5) as M' by weigh. rewrite app_nil_r in M'. exact M'. }
    { rewrite (mbind_ok _ _ _ _ _ X4), (mbind_ok _ _ _ _ _ X5). reflexivity. }
    eexists _, s', _. split; [exact X|]. split; [exact M|]. clear M X ER. split.
    + assert (D : granted q4 \/ refused q4).
      { clear. induction q4 as [|[k b] q IH]; [left; apply granted_nil|]. destruct b; [|right; exists k; now left].
        destruct IH as [G|[k' R]]; [left|right; exists k'; now right]. intros k' b [[= _ <-]|H]; [reflexivity|exact (G k' b H)]. }
      destruct D as [G|R].
      * left. intros k Hk. apply in_app_or in Hk as [[Hk|[]]|Hk]; [discriminate|].
        apply in_app_or in Hk as [Hk|Hk]; [specialize (G2 _ _ Hk); discriminate|].
        apply in_app_or in Hk as [Hk|Hk]; [exact (Q k Hk)|specialize (G _ _ Hk); discriminate].
      * right. right. right. right. apply in_or_app. left. apply in_or_app. left. right. apply in_or_app. left. exact (R4 R).
    + intros G. right. right. split; [reflexivity|]. split; [exact E1|]. split; [exact E2|].
      assert (G3 : granted q3) by (intros k b H; apply (G k b), in_or_app; right; apply in_or_app; right; apply in_or_app; now left).
      assert (G4' : granted q4) by (intros k b H; apply (G k b), in_or_app; right; apply in_or_app; right; apply in_or_app; now right).
      exists (mf_opened x), (m_trace s3), l. split; [|split; [exact (G4 G4')|]].
      * apply (opens_all _ _ _ _ _ _ _ (not_refused RSat _ G3) (not_refused RSsat _ G3) O).
      * cbn [app]. now rewrite <- !app_assoc.
  - destruct H3 as (M3 & H3). destruct (ER [-1] s3 []) as (s' & X & M); [apply moved_refl, M3|reflexivity|].
    eexists _, s', _. split; [exact X|]. split; [exact M|]. split; [right; right; right; right; now left|].
    intros G. right. left. split; [reflexivity|]. split; [|reflexivity].
    destruct H3 as [R|H3]; [|exact H3].
    destruct (granted_not _ G). apply refused_r, refused_r, refused_l, R.
Qed.

Lemma file_fuzzer_mm mem u ev set s : una_ok u -> io_bytes (ev_reader ev) -> fit s ->
  exists l s' q, file_fuzzer mem u ev set s = (Ok l, s') /\ target_post (fun _ l => l = []) u ev set s l s' q.
Proof. intros Hu HB F. apply fuzz_mm; auto. intros x s0 _ F0. now apply file_used. Qed.

Lemma item_fuzzer_mm mem u ev set s : una_ok u -> io_bytes (ev_reader ev) -> fit s ->
  exists l s' q, item_fuzzer mem u ev set s = (Ok l, s') /\ target_post item_calls u ev set s l s' q.
Proof. intros Hu HB F. apply fuzz_mm; auto. intros x s0 HS F0. now apply (items_used mem u). Qed.

Lemma fuzz_runs_mm one u :
  (forall ev set s, io_bytes (ev_reader ev) -> fit s ->
     exists l s' q, one u ev set s = (Ok l, s') /\ moved s q [] [] s') ->
  forall inputs s, Forall (fun i => io_bytes (ev_reader (fst i))) inputs -> fit s ->
  exists ls s' q, fuzz_runs one u inputs s = (Ok ls, s') /\ length ls = length inputs /\ moved s q [] [] s'.
Proof.
  intros H1. induction inputs as [|[ev set] inputs IH]; intros s HB F; cbn [fuzz_runs].
  - exists [], s, []. split; [reflexivity|]. split; [reflexivity|]. now apply moved_refl.
  - inversion HB as [|a b Hb HB']; subst. cbn [fst] in Hb.
    destruct (H1 ev set s Hb F) as (l & s1 & q1 & X1 & M1). rewrite (mbind_ok _ _ _ _ _ X1).
    destruct (IH s1 HB' (proj1 M1)) as (ls & s2 & q2 & X2 & L2 & M2). rewrite (mbind_ok _ _ _ _ _ X2).
    exists (l :: ls), s2, (q1 ++ q2). split; [reflexivity|]. split; [cbn [length]; congruence|]. weigh.
Qed.
