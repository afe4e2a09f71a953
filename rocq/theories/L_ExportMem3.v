(** Lemmas on olecfexport when requests for memory can fail: the run. *)
From Coq Require Import ZArith List Bool Lia Permutation.
From Verif Require Import Base Spec_IO Spec_Stream Spec_Load Spec_Tree Spec_Open L_Base M_Table M_Header M_Load M_Stream M_Tree
  M_Open M_Item M_Mount M_File M_Export M_Getopt M_ExportTool M_Mem Spec_Mem M_InfoTool M_ExportMem Spec_Export
  L_Export L_Export2 L_Mem L_Mem2 L_Mem3 L_Mem5 L_Mem6 L_Sound L_InfoTool2 L_ExportMem L_ExportMem2.
Import ListNotations.
Open Scope Z_scope.

(** The same disk and as many calls. *)
Definition alike (w w' : xstate) : Prop := x_disk w = x_disk w' /\ x_calls w = x_calls w'.

Definition wends {A} (safe : Prop) (held : list Z) (f : em A) (g : lio A) (s : est) : Prop :=
  exists r s' q l, f s = (r, s') /\ m_requests (e_mem s') = m_requests (e_mem s) ++ q /\ e_log s' = e_log s ++ l /\
    (granted q -> exists w, g (e_host s) = (r, w, l) /\ alike w (e_host s')) /\
    (defined r -> moved (e_mem s) q held [] (e_mem s') /\ (other q -> r = Err \/ exists n, In (Unable n) l)) /\
    (safe -> defined r).

Definition wsim {A} (safe : Prop) (held : list Z) (f : em A) (g : lio A) : Prop :=
  forall s, fit (e_mem s) -> owns (e_mem s) held -> wends safe held f g s.

Lemma moved_three s1 s2 s3 s4 q1 q2 a1 b1 a2 b2 a3 b3 a b :
  moved s1 q1 a1 b1 s2 -> moved s2 q2 a2 b2 s3 -> moved s3 [] a3 b3 s4 ->
  (forall x, (cnt a1 x + cnt a2 x + cnt a3 x + cnt b x = cnt b1 x + cnt b2 x + cnt b3 x + cnt a x)%nat) ->
  moved s1 (q1 ++ q2) a b s4.
Proof.
  intros (F1 & R1 & C1) (F2 & R2 & C2) (F3 & R3 & C3) H. split; [exact F3|].
  split; [rewrite R3, R2, R1, app_nil_r, app_assoc; reflexivity|].
  intros x. specialize (C1 x). specialize (C2 x). specialize (C3 x). specialize (H x). lia.
Qed.

Section Weak.
Variable safe : Prop.

Lemma sim_weak {A} held (f : em A) g : sim safe held f g -> wsim safe held f g.
Proof.
  intros H s F O. destruct (H s F O) as (r & s' & q & l & E & Q & L & G & D). exists r, s', q, l.
  split; [exact E|]. split; [exact Q|]. split; [exact L|]. split; [|exact D].
  intros GG. exists (e_host s'). split; [exact (G GG)|]. split; reflexivity.
Qed.

Lemma wsim_ext {A} held (f : em A) g g' : (forall w, g w = g' w) -> wsim safe held f g -> wsim safe held f g'.
Proof.
  intros E H s F O. destruct (H s F O) as (r & s' & q & l & X & Q & L & G & D & S). exists r, s', q, l.
  rewrite <- E. auto 10.
Qed.

Lemma wsim_perm {A} held held' (f : em A) g : (forall x, cnt held x = cnt held' x) -> wsim safe held' f g -> wsim safe held f g.
Proof.
  intros C H s F O. destruct (H s F) as (r & s' & q & l & X & Q & L & G & D & S); [intros x; rewrite <- C; apply O|].
  exists r, s', q, l. split; [exact X|]. split; [exact Q|]. split; [exact L|]. split; [exact G|]. split; [|exact S].
  intros Dr. destruct (D Dr) as [(F' & R' & C') T]. split; [|exact T]. split; [exact F'|]. split; [exact R'|].
  intros x. rewrite C. apply C'.
Qed.

Lemma wsim_obtain {A} mem held (k : Z -> em A) g : (forall p, wsim safe (p :: held) (k p) g) -> wsim safe held (obtain mem held k) g.
Proof.
  intros H s F O. unfold wends, obtain, ebind, remembered. destruct (alloc_spec mem RTool (e_mem s) F) as (r & m1 & X & _ & M).
  rewrite X. destruct r as [p|].
  - destruct (H p {| e_host := e_host s; e_log := e_log s; e_mem := m1 |}) as (r & s' & q & l & E & Q & L & G & D & S);
      [exact (proj1 M)|cbn [e_mem]; own|]. cbn [e_host e_log e_mem] in *.
    exists r, s', ((RTool, true) :: q), l. split; [exact E|]. split; [rewrite Q, (proj1 (proj2 M)), <- app_assoc; reflexivity|].
    split; [exact L|]. split; [intros G'; apply G; exact (proj2 (granted_split [_] q G'))|]. split; [|exact S].
    intros Dr. destruct (D Dr) as [M' T]. split.
    + apply (moved_trans _ _ _ _ _ _ _ _ _ _ _ M M'). intros x. rewrite (cnt_cons p held). cnts. lia.
    + intros Ho. apply T. apply (other_app [_] q) in Ho as [Ho|Ho]; [destruct (not_other_one _ Ho)|exact Ho].
  - destruct (@on_error_run A held {| e_host := e_host s; e_log := e_log s; e_mem := m1 |}) as (m2 & X2 & M2);
      [exact (proj1 M)|cbn [e_mem]; own|]. cbn [e_host e_log e_mem] in *.
    eexists Err, _, [(RTool, false)], []. split; [exact X2|]. cbn [e_host e_log e_mem].
    split; [rewrite (proj1 (proj2 M2)), (proj1 (proj2 M)), app_nil_r; reflexivity|]. split; [now rewrite app_nil_r|].
    split; [intros GG; discriminate (GG RTool false (or_introl eq_refl))|]. split; [|intros _; exact I]. intros _. split; [|now left].
    apply (moved_trans _ _ _ _ _ _ _ _ _ _ _ M M2). intros x. cnts. lia.
Qed.

Lemma wsim_attempt {A B} held (m : em A) (k : A -> em B) g gk :
  sim safe [] m g -> (forall a, wsim safe held (k a) (gk a)) -> wsim safe held (attempt held m k) (lbind g gk).
Proof.
  intros H HK s F O. unfold wends, attempt, lbind.
  destruct (H s F) as (r & s1 & q1 & l1 & E & Q & L & G & D & S); [intros x; rewrite cnt_nil; lia|]. rewrite E.
  destruct r as [a| | |].
  - destruct (D I) as [M T].
    destruct (HK a s1) as (r & s2 & q2 & l2 & E2 & Q2 & L2 & G2 & D2 & S2); [exact (proj1 M)|own|].
    exists r, s2, (q1 ++ q2), (l1 ++ l2). split; [exact E2|]. split; [rewrite Q2, Q, app_assoc; reflexivity|].
    split; [rewrite L2, L, app_assoc; reflexivity|]. split.
    + intros GG. apply granted_split in GG as [GA GB]. rewrite (G GA). destruct (G2 GB) as (w & Ew & Aw). exists w. rewrite Ew. auto.
    + split; [|exact S2]. intros Dr. destruct (D2 Dr) as [M2 T2]. split.
      * apply (moved_trans _ _ _ _ _ _ _ _ _ _ _ M M2). intros x. cnts. lia.
      * intros Ho. apply other_app in Ho as [Ho|Ho].
        { destruct (T Ho) as [T'|(n & Hn)]; [discriminate|]. right. exists n. apply in_or_app. now left. }
        { destruct (T2 Ho) as [T'|(n & Hn)]; [now left|]. right. exists n. apply in_or_app. now right. }
  - destruct (D I) as [M T]. destruct (@on_error_run B held s1) as (m2 & X2 & M2); [exact (proj1 M)|own|].
    eexists Err, _, q1, l1. split; [exact X2|]. cbn [e_host e_log e_mem].
    split; [rewrite (proj1 (proj2 M2)), app_nil_r; exact Q|]. split; [exact L|].
    split; [intros GG; exists (e_host s1); rewrite (G GG); split; [reflexivity|split; reflexivity]|].
    split; [|intros _; exact I]. intros _. split; [|now left].
    rewrite <- (app_nil_r q1). apply (moved_trans _ _ _ _ _ _ _ _ _ _ _ M M2). intros x. cnts. lia.
  - exists Undef, s1, q1, l1. split; [reflexivity|]. split; [exact Q|]. split; [exact L|].
    split; [intros GG; exists (e_host s1); rewrite (G GG); split; [reflexivity|split; reflexivity]|]. split; [intros []|exact S].
  - exists NoFuel, s1, q1, l1. split; [reflexivity|]. split; [exact Q|]. split; [exact L|].
    split; [intros GG; exists (e_host s1); rewrite (G GG); split; [reflexivity|split; reflexivity]|]. split; [intros []|exact S].
Qed.
End Weak.

Lemma log_close_alike m name text w w' : alike w w' ->
  fst (log_close m name text w) = fst (log_close m name text w') /\
  alike (snd (log_close m name text w)) (snd (log_close m name text w')).
Proof.
  intros [E1 E2]. destruct name as [f|]; [|split; [reflexivity|split; assumption]].
  unfold log_close, write_buffer, call. rewrite E1, E2.
  destruct (ho_fault _ _); cbn [fst snd]; (split; [reflexivity|]); split; reflexivity.
Qed.

Lemma log_close_fst m name text w : defined (fst (log_close m name text w)).
Proof. destruct name as [f|]; [|exact I]. unfold log_close, write_buffer. rewrite call_fst. destruct (ho_fault _ _); exact I. Qed.

Lemma quiet_bind {A B} (m : xio A) (f : A -> xio B) w : lbind (quiet m) (fun a => quiet (f a)) w = quiet (xbind m f) w.
Proof.
  unfold lbind, quiet, xbind. destruct (m w) as [[a| | |] w']; try reflexivity.
Qed.

Section Run.
Variables (mem : memory) (m : machine) (s : settings).
Let rd := ma_reader m (full_path m (st_source s)).
Variable safe : Prop.
Hypothesis Hu : una_ok (ma_una m).
Hypothesis HB : io_bytes rd.
Hypothesis HC : safe -> forall c, defined (ma_codepage m c).
Hypothesis HN : safe -> forall t a b o t' tr k d name, opens (ma_una m) rd t a b o t' -> o_tree o = Some tr -> item_entry tr k d ->
  safe_name (ma_host m) (v_byte_order (opened_volume o)) d name -> 9 <= zlen name.
Hypothesis HL : safe -> st_log s = None \/ forall k, ho_fault (ma_host m) k = None.

Lemma opened_sim t a b o t' p n : opens (ma_una m) rd t a b o t' ->
  sim safe [] (e_file mem (ma_host m) rd (opened_volume o) (o_tree o) p n)
    (export_file_log (ma_host m) rd (opened_volume o) (o_tree o) p n).
Proof.
  intros HO. pose proof (opens_sound _ _ _ _ _ _ _ Hu HB HO) as HS. destruct (o_tree o) as [tr|] eqn:Et; [|apply file_sim_none].
  apply file_sim_some.
  - intros _. exact (sound_shape _ _ _ Hu HS Et).
  - intros _. exact (sf_volume _ _ HS).
  - intros _ k d. exact (sound_item _ _ _ Hu HS Et k d).
  - intros S k d name Hk Hn. eapply HN; eauto.
  - intros _. destruct (sound_first _ _ _ Hu HS Et) as (d & nd & Hd & _).
    apply nth_error_Some. congruence.
Qed.

Lemma work_sim p n : wsim safe [] (e_work mem m s p n) (work m s p n).
Proof.
  unfold e_work, work. apply wsim_attempt.
  { apply sim_host. intros S w. destruct (st_codepage s) as [c|]; [|exact I].
    specialize (HC S c). unfold xbind, xlift. destruct (ma_codepage m c); exact HC. }
  intros _ st F O. fold rd. set (ev := {| ev_is_open := true; ev_open := true; ev_close := true; ev_reader := rd |}).
  set (s0 := {| m_requests := m_requests (e_mem st); m_live := m_live (e_mem st); m_trace := x_trace (e_host st) |}).
  assert (F0 : fit s0) by exact F.
  destruct (source_mm mem (ma_una m) ev s0 Hu HB F0) as (r & m1 & q1 & X & H).
  unfold wends, ebind, e_open. fold s0. rewrite X. destruct r as [[b f]|].
  - destruct H as (M1 & C & _ & _ & HO & HQ). change (ev_reader ev) with rd in HO. change (m_trace s0) with (x_trace (e_host st)) in HO.
    set (s1 := {| e_host := {| x_disk := x_disk (e_host st); x_calls := x_calls (e_host st); x_trace := m_trace m1 |};
                  e_log := e_log st; e_mem := m1 |}).
    assert (M1' : moved (e_mem st) q1 [] (source_blocks (Some (b, f))) m1) by exact M1.
    destruct (opened_sim _ _ _ _ _ p n HO s1 (proj1 M1)) as (r & s2 & q2 & l & E2 & Q2 & L2 & G2 & D2 & S2);
      [intros x; rewrite cnt_nil; lia|].
    cbv zeta. rewrite E2.
    assert (GO : granted (q1 ++ q2) ->
      lbind (quiet (fun w => let (r, tr) := open_read (ma_una m) rd (x_trace w) in
                             (r, {| x_disk := x_disk w; x_calls := x_calls w; x_trace := tr |})))
            (fun o => export_file_log (ma_host m) rd (opened_volume o) (o_tree o) p n) (e_host st) = (r, e_host s2, l)).
    { intros GG. apply granted_split in GG as [GA GB].
      pose proof (opens_all _ _ _ _ _ _ _ (not_refused RSat _ GA) (not_refused RSsat _ GA) HO) as EO.
      unfold lbind, quiet. rewrite EO. change {| x_disk := x_disk (e_host st); x_calls := x_calls (e_host st); x_trace := m_trace m1 |} with (e_host s1).
      rewrite (G2 GB). reflexivity. }
    assert (NO : other q1 -> False).
    { intros (k & Hk & N1 & N2). destruct (HQ k Hk); contradiction. }
    change (e_mem s1) with m1 in *. change (e_log s1) with (e_log st) in *.
    assert (Q : m_requests (e_mem s2) = m_requests (e_mem st) ++ q1 ++ q2).
    { rewrite Q2, (proj1 (proj2 M1')), app_assoc. reflexivity. }
    destruct r as [x| | |].
    + destruct (D2 I) as [M2 T2].
      destruct (source_close_mm ev (Some (b, f)) (e_mem s2)) as (m3 & X3 & M3);
        [intros b' f' [= <- <-]; exact C|exact (proj1 M2)|own|].
      unfold remembered. rewrite X3. cbn [eret].
      eexists (Ok tt), _, (q1 ++ q2), l. split; [reflexivity|]. cbn [e_mem e_log e_host].
      split; [rewrite (proj1 (proj2 M3)), app_nil_r; exact Q|]. split; [exact L2|].
      split; [intros GG; exists (e_host s2); destruct x; split; [exact (GO GG)|split; reflexivity]|]. split; [|intros _; exact I].
      intros _. split.
      * apply (moved_three _ _ _ _ _ _ _ _ _ _ _ _ _ _ M1' M2 M3). intros y. cnts. lia.
      * intros Ho. apply other_app in Ho as [Ho|Ho]; [destruct (NO Ho)|]. destruct (T2 Ho) as [T|T]; [discriminate|auto].
    + destruct (D2 I) as [M2 T2].
      destruct (source_close_mm ev (Some (b, f)) (e_mem s2)) as (m3 & X3 & M3);
        [intros b' f' [= <- <-]; exact C|exact (proj1 M2)|own|].
      unfold remembered. rewrite X3. cbn [elift].
      eexists Err, _, (q1 ++ q2), l. split; [reflexivity|]. cbn [e_mem e_log e_host].
      split; [rewrite (proj1 (proj2 M3)), app_nil_r; exact Q|]. split; [exact L2|].
      split; [intros GG; exists (e_host s2); split; [exact (GO GG)|split; reflexivity]|]. split; [|intros _; exact I].
      intros _. split; [|now left].
      apply (moved_three _ _ _ _ _ _ _ _ _ _ _ _ _ _ M1' M2 M3). intros y. cnts. lia.
    + exists Undef, s2, (q1 ++ q2), l. split; [reflexivity|]. split; [exact Q|]. split; [exact L2|].
      split; [intros GG; exists (e_host s2); split; [exact (GO GG)|split; reflexivity]|]. split; [intros []|exact S2].
    + exists NoFuel, s2, (q1 ++ q2), l. split; [reflexivity|]. split; [exact Q|]. split; [exact L2|].
      split; [intros GG; exists (e_host s2); split; [exact (GO GG)|split; reflexivity]|]. split; [intros []|exact S2].
  - destruct H as [M1 P]. eexists Err, _, q1, []. split; [reflexivity|]. cbn [e_mem e_log e_host].
    split; [exact (proj1 (proj2 M1))|]. split; [now rewrite app_nil_r|]. split; [|split; [|intros _; exact I]].
    + intros GG. destruct P as [[k R]|[P|[P|(t & P)]]]; [destruct (not_refused _ _ GG R)|discriminate P|discriminate P|].
      change (open_read (ma_una m) rd (x_trace (e_host st)) = (Err, t)) in P.
      unfold lbind, quiet. rewrite P. eexists. split; [reflexivity|]. split; reflexivity.
    + intros _. split; [exact M1|now left].
Qed.

(** [export_start_run] after [prepare]. *)
Definition after (p n : list Z) : lio unit := fun w =>
  match work m s p n w with
  | (Ok _, w', l) =>
      match log_close m (st_log s) (concat (map line_text l)) w' with
      | (Ok _, w'') => (Ok tt, w'', l)
      | (_, w'') => (Undef, w'', l)
      end
  | (Err, w', l) => (Err, snd (log_close m (st_log s) (concat (map line_text l)) w'), l)
  | r => r
  end.

Lemma logged_sim p n held : wsim safe held (e_logged mem m s p n held) (dl _ <- quiet (log_open m (st_log s)); after p n).
Proof.
  unfold e_logged. apply wsim_obtain. intros log_handle. apply wsim_attempt.
  { apply sim_host. intros _ w. unfold log_open. destruct (st_log s) as [f|]; [|exact I]. rewrite call_fst.
    destruct (ho_fault _ _); [exact I|]. destruct (on_disk _ _) as [[|]|]; exact I. }
  intros _ st F O. destruct (work_sim p n st F) as (r & s1 & q1 & l & E & Q & L & G & D & S); [intros x; rewrite cnt_nil; lia|].
  unfold wends. cbv zeta. rewrite E.
  assert (TX : skipn (length (e_log st)) (e_log s1) = l).
  { rewrite L, skipn_app, skipn_all, Nat.sub_diag. reflexivity. }
  rewrite TX. unfold after. destruct r as [[]| | |].
  - destruct (D I) as [M1 T1]. destruct (release_all_run held s1 (proj1 M1)) as (m2 & X2 & M2); [own|].
    unfold ebind. rewrite X2. unfold hosted at 1. cbn [e_host e_log e_mem].
    pose proof (fun w A => log_close_alike m (st_log s) (concat (map line_text l)) w (e_host s1) A) as AL.
    destruct (log_close m (st_log s) (concat (map line_text l)) (e_host s1)) as [r w1] eqn:EC. cbn [fst snd] in AL.
    destruct r as [y| | |].
    + destruct (release_spec log_handle m2 (proj1 M2)) as (m3 & X3 & _ & M3); [own|].
      unfold drop, ebind, remembered. cbn [e_host e_log e_mem]. rewrite X3. cbn [eret].
      eexists (Ok tt), _, q1, l. split; [reflexivity|]. cbn [e_host e_log e_mem].
      split; [rewrite (proj1 (proj2 M3)), (proj1 (proj2 M2)), !app_nil_r; exact Q|]. split; [exact L|]. split.
      * intros GG. destruct (G GG) as (w & Ew & Aw). rewrite Ew. destruct (AL w Aw) as [A1 A2].
        destruct (log_close m (st_log s) (concat (map line_text l)) w) as [r' w2]. cbn [fst snd] in A1, A2. subst r'.
        exists w2. split; [reflexivity|exact A2].
      * split; [|intros _; exact I]. intros _. split; [|exact T1].
        rewrite <- (app_nil_r q1). apply (moved_three _ _ _ _ _ _ _ _ _ _ _ _ _ _ M1 M2 M3).
        intros z. rewrite (cnt_cons log_handle held). cnts. lia.
    + eexists Undef, _, q1, l. split; [reflexivity|]. cbn [e_host e_log e_mem].
      split; [rewrite (proj1 (proj2 M2)), app_nil_r; exact Q|]. split; [exact L|]. split.
      * intros GG. destruct (G GG) as (w & Ew & Aw). rewrite Ew. destruct (AL w Aw) as [A1 A2].
        destruct (log_close m (st_log s) (concat (map line_text l)) w) as [r' w2]. cbn [fst snd] in A1, A2. subst r'.
        exists w2. split; [reflexivity|exact A2].
      * split; [intros []|]. intros Sa. exfalso. destruct (HL Sa) as [HL'|HL'].
        { rewrite HL' in EC. discriminate. }
        { unfold log_close, write_buffer, call in EC. destruct (st_log s); [|discriminate]. rewrite HL' in EC. discriminate. }
    + pose proof (log_close_fst m (st_log s) (concat (map line_text l)) (e_host s1)) as DF. rewrite EC in DF. destruct DF.
    + pose proof (log_close_fst m (st_log s) (concat (map line_text l)) (e_host s1)) as DF. rewrite EC in DF. destruct DF.
  - destruct (D I) as [M1 T1].
    pose proof (fun w A => log_close_alike m (st_log s) (concat (map line_text l)) w (e_host s1) A) as AL.
    unfold hosted. destruct (log_close m (st_log s) (concat (map line_text l)) (e_host s1)) as [r w1] eqn:EC. cbn [fst snd] in *.
    destruct (@on_error_run unit (log_handle :: held) {| e_host := w1; e_log := e_log s1; e_mem := e_mem s1 |}) as (m2 & X2 & M2);
      [exact (proj1 M1)|cbn [e_mem]; own|]. cbn [e_host e_log e_mem] in *.
    eexists Err, _, q1, l. split; [exact X2|]. cbn [e_host e_log e_mem].
    split; [rewrite (proj1 (proj2 M2)), app_nil_r; exact Q|]. split; [exact L|]. split.
    + intros GG. destruct (G GG) as (w & Ew & Aw). rewrite Ew. eexists. split; [reflexivity|]. exact (proj2 (AL w Aw)).
    + split; [|intros _; exact I]. intros _. split; [|now left].
      rewrite <- (app_nil_r q1). apply (moved_trans _ _ _ _ _ _ _ _ _ _ _ M1 M2). intros y. cnts. lia.
  - exists Undef, s1, q1, l. split; [reflexivity|]. split; [exact Q|]. split; [exact L|].
    split; [intros GG; destruct (G GG) as (w & Ew & Aw); rewrite Ew; eauto|]. split; [intros []|exact S].
  - exists NoFuel, s1, q1, l. split; [reflexivity|]. split; [exact Q|]. split; [exact L|].
    split; [intros GG; destruct (G GG) as (w & Ew & Aw); rewrite Ew; eauto|]. split; [intros []|exact S].
Qed.

Lemma run_sim : wsim safe [] (e_run mem m s) (export_start_run m s).
Proof.
  apply (wsim_ext safe [] _ (dl pn <- quiet (prepare m s); after (fst pn) (snd pn))).
  { intros w. unfold export_start_run. apply lbind_ext. intros [p n] w'. reflexivity. }
  unfold e_run, prepare. apply wsim_obtain. intros handle. apply wsim_obtain. intros file. apply wsim_obtain. intros io.
  assert (FAIL : wsim safe [io; file; handle] (on_error [io; file; handle])
            (dl pn <- quiet (xlift Err); after (fst pn) (snd pn))).
  { apply (wsim_ext safe _ _ (quiet (xlift Err))); [reflexivity|]. apply sim_weak, sim_fail. }
  destruct (st_target s) as [[|c target]|]; [exact FAIL| |exact FAIL]. clear FAIL. apply wsim_obtain. intros target_path.
  apply wsim_perm with [io; file; target_path; handle]; [same|]. apply wsim_obtain. intros export_path.
  apply wsim_perm with [io; file; target_path; export_path; handle]; [same|].
  set (held := [io; file; target_path; export_path; handle]). cbv zeta.
  apply (wsim_ext safe _ _ (dl e <- quiet (xlift (items_export_path (c :: target)));
    let (p, n) := split_last (full_path m e) in
    dl there <- quiet (file_exists (ma_host m) p n);
    if there : bool then quiet (xlift Err) else dl _ <- quiet (log_open m (st_log s)); after p n)).
  { intros w. unfold lbind, quiet, xbind, xlift, items_export_path, xret. destruct (split_last _) as [p n].
    destruct (file_exists (ma_host m) p n w) as [[[|]| | |] w']; try reflexivity.
    destruct (log_open m (st_log s) w') as [[x| | |] w'']; try reflexivity. cbn [fst snd].
    destruct (after p n w'') as [r l]. reflexivity. }
  apply wsim_attempt; [apply sim_host; intros _ w; exact I|]. intros e. destruct (split_last (full_path m e)) as [p n].
  apply wsim_attempt; [apply sim_host; intros _ w; apply exists_def|]. intros [|]; [apply sim_weak, sim_fail|apply logged_sim].
Qed.
End Run.
