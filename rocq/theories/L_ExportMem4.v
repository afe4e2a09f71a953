(** Lemmas on olecfexport when requests for memory can fail: what is on the disk
    and in the log. *)
From Coq Require Import ZArith List Bool Lia.
From Verif Require Import Base Spec_IO Spec_Stream Spec_Load Spec_Tree Spec_Open L_Base M_Table M_Header M_Load M_Stream M_Tree
  M_Open M_Item M_Mount M_File M_Export M_Getopt M_ExportTool Spec_ExportTool M_Mem Spec_Mem M_InfoTool M_ExportMem Spec_Export
  L_Export L_ExportTool L_ExportTool3 L_ExportMem.
Import ListNotations.
Open Scope Z_scope.

(** [f] in [s] adds lines that track what was done since [w]. *)
Definition since {A} (w : xstate) (f : em A) (s : est) : Prop :=
  exists l, e_log (snd (f s)) = e_log s ++ l /\ tracked w (e_host (snd (f s))) l.
Definition follows_disk {A} (f : em A) : Prop := forall s, since (e_host s) f s.

Lemma since_here {A} w (f : em A) s : e_log (snd (f s)) = e_log s -> tracked w (e_host (snd (f s))) [] -> since w f s.
Proof. intros E T. exists []. rewrite app_nil_r. auto. Qed.

Lemma since_trans {A} w (f : em A) s : tracked w (e_host s) [] -> since (e_host s) f s -> since w f s.
Proof. intros T (l & E & T'). exists l. split; [exact E|]. exact (tracked_trans _ _ _ [] l T T'). Qed.

Lemma tracked_refl w : tracked w w [].
Proof. now apply tracked_same. Qed.

Lemma remembered_same {A} (m : mm A) s : e_host (snd (remembered m s)) = e_host s /\ e_log (snd (remembered m s)) = e_log s.
Proof. unfold remembered. destruct (m (e_mem s)) as [r m']. split; reflexivity. Qed.

Lemma since_memory {A B} w (m : mm A) (k : A -> em B) s : tracked w (e_host s) [] ->
  (forall a s1, e_host s1 = e_host s -> e_log s1 = e_log s -> since w (k a) s1) -> since w (ebind (remembered m) k) s.
Proof.
  intros T H. pose proof (remembered_same m s) as [E1 E2]. unfold since, ebind.
  destruct (remembered m s) as [r s1]. cbn [snd] in *. destruct r as [a| | |].
  - destruct (H a s1 E1 E2) as (l & E & T'). exists l. rewrite <- E2. auto.
  - exists []. cbn [snd]. rewrite E1, app_nil_r. auto.
  - exists []. cbn [snd]. rewrite E1, app_nil_r. auto.
  - exists []. cbn [snd]. rewrite E1, app_nil_r. auto.
Qed.

Lemma since_error {A} w held s : tracked w (e_host s) [] -> since w (@on_error A held) s.
Proof.
  intros T. apply since_memory; [exact T|]. intros a s1 E1 E2. apply since_here; [reflexivity|]. cbn [elift snd]. now rewrite E1.
Qed.

Lemma since_obtain {A} w mem held (k : Z -> em A) s : tracked w (e_host s) [] ->
  (forall p s1, e_host s1 = e_host s -> since w (k p) s1) -> since w (obtain mem held k) s.
Proof.
  intros T H. apply since_memory; [exact T|]. intros [p|] s1 E1 E2; [now apply H|]. apply since_error. now rewrite E1.
Qed.

Lemma since_drop {A} w p (k : em A) s : tracked w (e_host s) [] ->
  (forall s1, e_host s1 = e_host s -> since w k s1) -> since w (drop p k) s.
Proof. intros T H. apply since_memory; [exact T|]. intros a s1 E1 _. now apply H. Qed.

Lemma since_host {A B} w held (m : xio A) (k : A -> em B) s : tracked w (snd (m (e_host s))) [] ->
  (forall a s1, m (e_host s) = (Ok a, e_host s1) -> since w (k a) s1) -> since w (attempt held (hosted m) k) s.
Proof.
  intros T H. unfold since, attempt, hosted. destruct (m (e_host s)) as [r w1]. cbn [snd] in T. destruct r as [a| | |].
  - exact (H a {| e_host := w1; e_log := e_log s; e_mem := e_mem s |} eq_refl).
  - exact (since_error w held {| e_host := w1; e_log := e_log s; e_mem := e_mem s |} T).
  - exists []. cbn [snd e_log e_host]. rewrite app_nil_r. auto.
  - exists []. cbn [snd e_log e_host]. rewrite app_nil_r. auto.
Qed.

Lemma since_log {B} w held x (k : unit -> em B) s : created [x] = [] ->
  (forall s1, e_host s1 = e_host s -> since w (k tt) s1) -> since w (attempt held (logged x) k) s.
Proof.
  intros C H. unfold since, attempt, logged.
  destruct (H {| e_host := e_host s; e_log := e_log s ++ [x]; e_mem := e_mem s |} eq_refl) as (l & E & T).
  exists (x :: l). split; [rewrite E; cbn [e_log]; now rewrite <- app_assoc|].
  unfold tracked in *. change (x :: l) with ([x] ++ l). rewrite created_app, C. exact T.
Qed.

Lemma since_attempt {A B} held (m : em A) (k : A -> em B) : follows_disk m -> (forall a, follows_disk (k a)) -> follows_disk (attempt held m k).
Proof.
  intros HM HK s. destruct (HM s) as (l & E & T). unfold since, attempt. destruct (m s) as [r s1]. cbn [snd] in *.
  assert (G : forall f : em B, since (e_host s1) f s1 -> exists l', e_log (snd (f s1)) = e_log s ++ l' /\ tracked (e_host s) (e_host (snd (f s1))) l').
  { intros f (l' & E' & T'). exists (l ++ l'). split; [rewrite E', E, app_assoc; reflexivity|]. exact (tracked_trans _ _ _ _ _ T T'). }
  destruct r as [a| | |]; [apply G, HK|apply G, since_error, tracked_refl|eauto|eauto].
Qed.

Lemma follows_ret {A} (a : A) : follows_disk (eret a).
Proof. intros s. apply since_here; [reflexivity|apply tracked_refl]. Qed.

Lemma mkdir_disk ho dir name w : x_disk (snd (make_directory ho dir name w)) = x_disk w \/
  (exists u, fst (make_directory ho dir name w) = Ok u) /\ on_disk (x_disk w) (path_join dir name) = None /\
  x_disk (snd (make_directory ho dir name w)) = (path_join dir name, Directory) :: x_disk w.
Proof.
  destruct (make_directory ho dir name w) as [[u| | |] w1] eqn:E;
    try (left; cbn [fst snd];
         unfold make_directory, call in E; destruct (ho_fault _ _); [now inversion E|];
         destruct (dot_name name); [now inversion E|]; destruct (on_disk _ _); now inversion E).
  apply make_directory_ok in E as (_ & Hn & Hs). right. cbn [fst snd]. eauto.
Qed.

(** A directory that is made and put in the log. *)
Lemma follows_mkdir {B} ho dir name held held' (k : em B) : follows_disk k ->
  follows_disk (attempt held (hosted (make_directory ho dir name)) (fun _ => attempt held' (logged (Created (path_join dir name))) (fun _ => k))).
Proof.
  intros HK s. destruct (make_directory ho dir name (e_host s)) as [r w1] eqn:E. destruct r as [u| | |].
  - set (s1 := {| e_host := w1; e_log := e_log s ++ [Created (path_join dir name)]; e_mem := e_mem s |}).
    assert (X : attempt held (hosted (make_directory ho dir name))
                  (fun _ => attempt held' (logged (Created (path_join dir name))) (fun _ => k)) s = k s1).
    { unfold attempt, hosted. rewrite E. reflexivity. }
    unfold since. rewrite X. apply make_directory_ok in E as (_ & Hn & Hs).
    destruct (HK s1) as (l & El & T). change (e_host s1) with w1 in T.
    change (e_log s1) with (e_log s ++ [Created (path_join dir name)]) in El. exists (Created (path_join dir name) :: l). split; [rewrite El, <- app_assoc; reflexivity|].
    change (Created (path_join dir name) :: l) with ([Created (path_join dir name)] ++ l).
    eapply tracked_trans; [|exact T]. unfold tracked. rewrite Hs. split.
    + intros q x Hq. rewrite on_disk_other; [exact Hq|]. intros ->. congruence.
    + split; [|repeat constructor; intros []]. intros q. cbn [created flat_map app In]. rewrite on_disk_cons.
      destruct (list_eq_dec Z.eq_dec q (path_join dir name)) as [->|Hq]; [intuition auto|].
      split; [intros [HH|[]]; congruence|]. intros (H1 & H2). congruence.
  - pose proof (mkdir_disk ho dir name (e_host s)) as D. apply since_host; [rewrite E in *|congruence].
    apply tracked_same; [|reflexivity]. destruct D as [D|((u & D) & _)]; [exact D|discriminate].
  - pose proof (mkdir_disk ho dir name (e_host s)) as D. apply since_host; [rewrite E in *|congruence].
    apply tracked_same; [|reflexivity]. destruct D as [D|((u & D) & _)]; [exact D|discriminate].
  - pose proof (mkdir_disk ho dir name (e_host s)) as D. apply since_host; [rewrite E in *|congruence].
    apply tracked_same; [|reflexivity]. destruct D as [D|((u & D) & _)]; [exact D|discriminate].
Qed.

(** A file that was not there may have appeared. *)
Definition only (target : list Z) (w w' : xstate) : Prop :=
  (forall q, q <> target -> on_disk (x_disk w') q = on_disk (x_disk w) q) /\ on_disk (x_disk w') target <> Some Directory.

Lemma only_tracked target w w' : on_disk (x_disk w) target = None -> only target w w' -> tracked w w' [].
Proof.
  intros Hn [H1 H2]. split; [|split; [|constructor]].
  - intros q x Hq. rewrite H1; [exact Hq|]. intros ->. congruence.
  - intros q. split; [intros []|]. intros (Ha & Hb).
    destruct (list_eq_dec Z.eq_dec q target) as [->|Hq]; [contradiction|]. rewrite H1 in Hb by exact Hq. congruence.
Qed.

Section Items.
Variables (mem : memory) (ho : host) (rd : reader) (v : volume) (t : tree).

Lemma follows_sub_items one dir : (forall k index, follows_disk (one k index dir)) ->
  forall subs index, follows_disk (e_sub_items mem one index subs dir).
Proof.
  intros H. induction subs as [|k subs IH]; intros index; cbn [e_sub_items]; [apply follows_ret|].
  intros s. apply since_obtain; [apply tracked_refl|]. intros item s1 E1. rewrite <- E1.
  assert (D : follows_disk (drop item (e_sub_items mem one (index + 1) subs dir))).
  { intros s2. apply since_drop; [apply tracked_refl|]. intros s3 E3. rewrite <- E3. apply IH. }
  destruct (H k index s1) as (l & E & T). unfold since. destruct (one k index dir s1) as [r s2]. cbn [snd] in E, T.
  destruct r as [u| | |].
  - destruct (D s2) as (l' & E' & T'). exists (l ++ l'). split; [rewrite E', E, app_assoc; reflexivity|]. exact (tracked_trans _ _ _ _ _ T T').
  - unfold ebind, logged.
    destruct (D {| e_host := e_host s2; e_log := e_log s2 ++ [Unable (index + 1)]; e_mem := e_mem s2 |}) as (l' & E' & T').
    cbn [e_host e_log e_mem] in E', T'. exists (l ++ [Unable (index + 1)] ++ l'). split; [rewrite E', E, <- !app_assoc; reflexivity|].
    apply (tracked_trans _ _ _ _ _ T). exact (tracked_trans _ _ _ [_] _ (tracked_same (e_host s2) (e_host s2) [Unable (index + 1)] eq_refl eq_refl) T').
  - exists l. auto.
  - exists l. auto.
Qed.

Lemma follows_finish one k path file item_path w s target : (forall j index, follows_disk (one j index path)) ->
  on_disk (x_disk w) target = None -> only target w (e_host s) -> since w (e_finish mem ho t one k path file item_path) s.
Proof.
  intros H Hn Ho. apply (only_tracked target) in Ho as T; [|exact Hn]. unfold e_finish. apply since_host.
  - apply (tracked_trans _ _ _ [] [] T). apply tracked_same; [apply close_file_disk|reflexivity].
  - intros u s1 E1. apply since_trans.
    + apply (tracked_trans _ _ _ [] [] T). apply tracked_same; [|reflexivity].
      pose proof (close_file_disk ho (e_host s)) as C. rewrite E1 in C. exact C.
    + apply since_drop; [apply tracked_refl|]. intros s2 E2. rewrite <- E2.
      apply since_host; [apply tracked_refl|]. intros subs s3 E3. apply pair_equal_spec in E3 as [_ E3]. rewrite E3.
      apply since_attempt; [apply follows_sub_items; exact (fun j i => H j i)|]. intros _ s4.
      apply since_drop; [apply tracked_refl|]. intros s5 E5. rewrite <- E5. apply follows_ret.
Qed.

Lemma follows_data one k d path target_path item_path s : (forall j index, follows_disk (one j index path)) ->
  on_disk (x_disk (e_host s)) (path_join path stream_data_name) = None ->
  since (e_host s) (e_data mem ho rd v t one k d path target_path item_path) s.
Proof.
  intros H Hn. set (w := e_host s) in *. set (target := path_join path stream_data_name) in *. unfold e_data. fold target. cbv zeta.
  assert (O0 : only target w w) by (split; [reflexivity|congruence]).
  apply since_obtain; [apply tracked_refl|]. intros file s1 E1. fold w in E1.
  assert (O1 : only target w (snd (open_write ho target (e_host s1))) /\
    forall u w', open_write ho target (e_host s1) = (Ok u, w') -> on_disk (x_disk w') target = Some (Data [])).
  { rewrite E1. destruct (open_write_disk ho target w) as [(u & Eu & D)|(Eu & D)].
    - split.
      + split; rewrite D; [intros q Hq; now apply on_disk_other|]. rewrite on_disk_same. discriminate.
      + intros u' w' E. rewrite E in D. cbn [snd] in D. rewrite D. apply on_disk_same.
    - split; [split; rewrite D; [reflexivity|congruence]|]. intros u' w' E. rewrite E in Eu. discriminate. }
  apply since_host; [exact (only_tracked _ _ _ Hn (proj1 O1))|]. intros u s2 E2. rewrite E2 in O1. cbn [snd] in O1.
  destruct O1 as [O2 F2]. specialize (F2 _ _ eq_refl). apply since_drop; [exact (only_tracked _ _ _ Hn O2)|].
  intros s3 E3. rewrite <- E3 in O2, F2. destruct (0 <? de_size d).
  - apply since_obtain; [exact (only_tracked _ _ _ Hn O2)|]. intros buffer s4 E4. rewrite <- E4 in O2, F2.
    assert (O5 : only target w (snd (copy_loop ho rd v (Z.to_nat (de_size d / BUFFER_SIZE) + 2) d target 0 (de_size d) (e_host s4)))).
    { split.
      - intros q Hq. rewrite copy_loop_other by exact Hq. now apply O2.
      - destruct (copy_loop_file ho rd v d target (Z.to_nat (de_size d / BUFFER_SIZE) + 2) 0 (de_size d) (e_host s4)) as (l & ->); [eauto|].
        discriminate. }
    apply since_host; [exact (only_tracked _ _ _ Hn O5)|]. intros u5 s5 E5. rewrite E5 in O5. cbn [snd] in O5.
    apply since_drop; [exact (only_tracked _ _ _ Hn O5)|]. intros s6 E6. rewrite <- E6 in O5.
    apply (follows_finish _ _ _ _ _ _ _ target); auto.
  - apply (follows_finish _ _ _ _ _ _ _ target); auto.
Qed.

Lemma follows_directory one k d dir name item_name item_path : (forall j index path, follows_disk (one j index path)) ->
  follows_disk (e_directory mem ho rd v t one k d dir name item_name item_path).
Proof.
  intros H s. unfold e_directory. apply since_drop; [apply tracked_refl|]. intros s1 E1. rewrite <- E1. revert s1 E1.
  intros s1 _. apply follows_mkdir. clear s s1. intros s.
  apply since_obtain; [apply tracked_refl|]. intros target_path s1 E1. rewrite <- E1. apply since_host.
  - apply tracked_same; [apply file_exists_disk|reflexivity].
  - intros [|] s2 E2.
    + apply since_log; [reflexivity|]. intros s3 E3.
      assert (T : tracked (e_host s1) (e_host s3) []).
      { rewrite E3. pose proof (file_exists_disk ho (path_join dir name) stream_data_name (e_host s1)) as D. rewrite E2 in D.
        now apply tracked_same. }
      apply since_drop; [exact T|]. intros s4 E4. rewrite <- E4 in T. apply since_drop; [exact T|]. intros s5 E5. rewrite <- E5 in T.
      apply since_trans; [exact T|]. apply follows_ret.
    + apply file_exists_false in E2 as (_ & Hno & Hx). apply since_trans; [now apply tracked_same|].
      apply follows_data; [auto|]. rewrite Hx. exact Hno.
Qed.

Lemma follows_item fuel : forall k index dir, follows_disk (e_item mem ho rd v t fuel k index dir).
Proof.
  induction fuel as [|fuel IH]; intros k index dir s; cbn [e_item]; [apply since_here; [reflexivity|apply tracked_refl]|].
  apply since_host; [apply tracked_refl|]. intros d s1 E1. apply pair_equal_spec in E1 as [_ E1]. rewrite E1. clear s E1.
  apply since_log; [reflexivity|]. intros s2 E2. rewrite <- E2. clear s1 E2.
  apply since_obtain; [apply tracked_refl|]. intros item_name s3 E3. rewrite <- E3. clear s2 E3.
  destruct (ho_name _ _ _) as [raw|]; [|apply since_error, tracked_refl].
  destruct (ho_sanitize ho raw) as [name|]; [|apply since_error, tracked_refl].
  apply since_obtain; [apply tracked_refl|]. intros sanitized s4 E4. rewrite <- E4. clear s3 E4.
  apply since_drop; [apply tracked_refl|]. intros s5 E5. rewrite <- E5. clear s4 E5.
  apply since_obtain; [apply tracked_refl|]. intros item_path s6 E6. rewrite <- E6. clear s5 E6.
  pose proof (file_exists_disk ho dir name (e_host s6)) as D.
  apply since_host; [now apply tracked_same|]. intros there s7 E7. rewrite E7 in D. cbn [snd] in D.
  apply since_trans; [now apply tracked_same|]. clear E7 D. destruct there.
  - apply since_drop; [apply tracked_refl|]. intros s8 E8. rewrite <- E8. clear s7 E8.
    apply since_host; [apply tracked_refl|]. intros name' s9 E9. apply pair_equal_spec in E9 as [_ E9]. rewrite E9. clear s8 E9.
    apply since_log; [reflexivity|]. intros s10 E10. rewrite <- E10. clear s9 E10.
    apply since_obtain; [apply tracked_refl|]. intros item_path' s11 E11. rewrite <- E11.
    apply follows_directory. intros. apply IH.
  - apply follows_directory. intros. apply IH.
Qed.
End Items.

Lemma follows_file mem ho rd v o p n : follows_disk (e_file mem ho rd v o p n).
Proof.
  unfold e_file. apply (follows_mkdir ho p n [] []). destruct o as [t|]; [|apply follows_ret].
  intros s. apply since_obtain; [apply tracked_refl|]. intros root_item s1 E1. rewrite <- E1.
  apply since_attempt.
  - intros s2. apply since_host; [apply tracked_refl|]. intros subs s3 E3. apply pair_equal_spec in E3 as [_ E3]. rewrite E3.
    apply follows_sub_items. intros. apply follows_item.
  - intros _ s2. apply since_drop; [apply tracked_refl|]. intros s3 E3. rewrite <- E3. apply follows_ret.
Qed.

(** * The run *)
Section Run.
Variables (mem : memory) (m : machine) (s : settings).

Lemma follows_disk_ext {A} (f : em A) s1 s2 : e_log s1 = e_log s2 -> x_disk (e_host s1) = x_disk (e_host s2) -> since (e_host s1) f s1 ->
  exists l, e_log (snd (f s1)) = e_log s2 ++ l /\ tracked (e_host s2) (e_host (snd (f s1))) l.
Proof. intros E1 E2 (l & E & T). exists l. rewrite <- E1. split; [exact E|]. unfold tracked in *. rewrite <- E2. exact T. Qed.

Lemma ebind_cases {A B} (x : em A) (k : A -> em B) st :
  (exists a s1, x st = (Ok a, s1) /\ ebind x k st = k a s1) \/ snd (ebind x k st) = snd (x st).
Proof. unfold ebind. destruct (x st) as [[a| | |] s1]; [left; eauto|right; reflexivity|right; reflexivity|right; reflexivity]. Qed.

Lemma ebind_bad {A B} (x : em A) (k : A -> em B) st :
  (exists a s1, x st = (Ok a, s1) /\ ebind x k st = k a s1) \/
  exists r, (forall b, r <> Ok b) /\ ebind x k st = (r, snd (x st)).
Proof.
  unfold ebind. destruct (x st) as [[a| | |] s1]; [left; eauto|right|right|right].
  - exists Err. split; [discriminate|reflexivity].
  - exists Undef. split; [discriminate|reflexivity].
  - exists NoFuel. split; [discriminate|reflexivity].
Qed.

Lemma follows_work p n : follows_disk (e_work mem m s p n).
Proof.
  unfold e_work. apply since_attempt.
  { intros st. apply since_here; [unfold hosted; destruct (_ (e_host st)); reflexivity|].
    apply tracked_same; [|reflexivity]. unfold hosted.
    destruct (st_codepage s) as [c|]; [|reflexivity]. unfold xbind, xlift. destruct (ma_codepage m c); reflexivity. }
  intros _ st. cbv zeta.
  set (rd := ma_reader m (full_path m (st_source s))).
  set (ev := {| ev_is_open := true; ev_open := true; ev_close := true; ev_reader := rd |}). unfold since.
  assert (SO : x_disk (e_host (snd (e_open mem (ma_una m) ev st))) = x_disk (e_host st) /\
               e_log (snd (e_open mem (ma_una m) ev st)) = e_log st).
  { unfold e_open. destruct (source_open _ _ _ _) as [r m']. split; reflexivity. }
  match goal with |- exists l, e_log (snd (ebind ?x ?k st)) = _ /\ _ => destruct (ebind_cases x k st) as [(a & s1 & E1 & ->)| ->] end.
  2: { destruct SO as [S1 S2]. exists []. rewrite app_nil_r. split; [exact S2|]. now apply tracked_same. }
  rewrite E1 in SO. cbn [snd] in SO. destruct SO as [S1 S2]. destruct a as [[b f]|].
  2: { exists []. cbn [elift snd]. rewrite app_nil_r. split; [exact S2|]. now apply tracked_same. }
  destruct (follows_disk_ext _ s1 st S2 S1 (follows_file mem (ma_host m) rd (opened_volume (mf_opened f)) (o_tree (mf_opened f)) p n s1))
    as (l & E & T).
  destruct (e_file _ _ _ _ _ _ _ s1) as [r s2]. cbn [snd] in E, T. exists l.
  assert (C : forall A (k : bool -> em A), (forall a s3, snd (k a s3) = s3) ->
    e_log (snd (ebind (remembered (source_close ev (Some (b, f)))) k s2)) = e_log st ++ l /\
    tracked (e_host st) (e_host (snd (ebind (remembered (source_close ev (Some (b, f)))) k s2))) l).
  { intros A k Hk. unfold ebind. pose proof (remembered_same (source_close ev (Some (b, f))) s2) as [R1 R2].
    destruct (remembered _ s2) as [r0 s3]. cbn [snd] in R1, R2.
    destruct r0; rewrite ?Hk; cbn [snd]; rewrite R1, R2; auto. }
  destruct r as [u| | |]; [apply C; reflexivity|apply C; reflexivity|auto|auto].
Qed.

(** How runs go. *)
Definition went (st st' : est) : Prop :=
  (x_disk (e_host st') = x_disk (e_host st) /\ e_log st' = e_log st) \/
  exists w1 w2 l, log_ready m s (x_disk (e_host st)) (x_disk w1) /\ tracked w1 w2 l /\ e_log st' = e_log st ++ l /\
    (x_disk (e_host st') = x_disk w2 \/ exists text, log_done m s (x_disk w2) (x_disk (e_host st')) text).

Definition still (st st' : est) : Prop := x_disk (e_host st') = x_disk (e_host st) /\ e_log st' = e_log st.

Lemma went_memory {A B} st (x : mm A) (k : A -> em B) s0 : still st s0 ->
  (forall a s1, still st s1 -> went st (snd (k a s1))) -> went st (snd (ebind (remembered x) k s0)).
Proof.
  intros [D L] H. pose proof (remembered_same x s0) as [E1 E2]. unfold ebind. destruct (remembered x s0) as [r s1]. cbn [snd] in *.
  assert (S1 : still st s1) by (split; [rewrite E1; exact D|rewrite E2; exact L]).
  destruct r as [a| | |]; [now apply H|left; exact S1|left; exact S1|left; exact S1].
Qed.
Lemma went_error {A} st held s0 : still st s0 -> went st (snd (@on_error A held s0)).
Proof. intros H. apply went_memory; [exact H|]. intros _ s1 H1. left. exact H1. Qed.
Lemma went_obtain {A} st held (k : Z -> em A) s0 : still st s0 ->
  (forall a s1, still st s1 -> went st (snd (k a s1))) -> went st (snd (obtain mem held k s0)).
Proof. intros H K. apply went_memory; [exact H|]. intros [p|] s1 H1; [now apply K|now apply went_error]. Qed.
Lemma went_host {A B} st held (x : xio A) (k : A -> em B) s0 : still st s0 -> x_disk (snd (x (e_host s0))) = x_disk (e_host s0) ->
  (forall a s1, still st s1 -> went st (snd (k a s1))) -> went st (snd (attempt held (hosted x) k s0)).
Proof.
  intros [D L] E H. unfold attempt, hosted. destruct (x (e_host s0)) as [r w]. cbn [snd] in E.
  set (s1 := {| e_host := w; e_log := e_log s0; e_mem := e_mem s0 |}).
  assert (S1 : still st s1) by (split; [cbn [s1 e_host]; rewrite E; exact D|exact L]).
  destruct r as [a| | |]; [now apply H|now apply went_error|left; exact S1|left; exact S1].
Qed.

Lemma went_logged p n held st s0 : still st s0 -> went st (snd (e_logged mem m s p n held s0)).
Proof.
  intros S0. unfold e_logged. apply went_obtain; [exact S0|]. clear s0 S0. intros log_handle s0 [D L].
  unfold attempt, hosted at 1. destruct (log_open m (st_log s) (e_host s0)) as [r w1] eqn:EO.
  apply log_open_cases in EO as [_ EO]. rewrite D in EO.
  set (s1 := {| e_host := w1; e_log := e_log s0; e_mem := e_mem s0 |}).
  destruct r as [u| | |]; [|apply went_error; split; [exact EO|exact L]|destruct EO|destruct EO].
  destruct (follows_work p n s1) as (l & E & T). change (e_host s1) with w1 in T. change (e_log s1) with (e_log s0) in *. rewrite L in E.
  destruct (e_work mem m s p n s1) as [r s2]. cbn [snd] in E, T. right. exists w1, (e_host s2), l. split; [exact EO|]. split; [exact T|].
  assert (LC : forall text, exists t', log_done m s (x_disk (e_host s2)) (x_disk (snd (log_close m (st_log s) text (e_host s2)))) t').
  { intros text. destruct (log_close m (st_log s) text (e_host s2)) as [r' w3] eqn:EC. apply log_close_cases in EC.
    destruct r' as [u'| | |]; [eauto|exact (proj1 EC)|destruct EC|destruct EC]. }
  destruct r as [u'| | |].
  - match goal with |- context [ebind ?x ?k s2] => destruct (ebind_bad x k s2) as [(a & s3 & E3 & E4)|(r3 & N & E4)] end.
    + pose proof (remembered_same (release_all held) s2) as [R1 R2]. rewrite E3 in R1, R2. cbn [snd] in R1, R2. rewrite E4. clear E4.
      match goal with |- context [hosted (log_close m (st_log s) ?text)] => specialize (LC text); unfold hosted;
        rewrite R1; destruct (log_close m (st_log s) text (e_host s2)) as [r' w4] end.
      cbn [snd] in LC. rewrite R2.
      destruct r' as [x| | |]; [|split; [exact E|right; exact LC]|split; [exact E|right; exact LC]|split; [exact E|right; exact LC]].
      unfold drop.
      match goal with |- context [ebind ?x ?k ?s5] => destruct (ebind_cases x k s5) as [(a' & s6 & E6 & E7)|E7];
        pose proof (remembered_same (release log_handle) s5) as [R3 R4] end.
      * rewrite E6 in R3, R4. cbn [snd e_host e_log] in R3, R4. rewrite E7. cbn [eret snd]. rewrite R3, R4. split; [exact E|right; exact LC].
      * rewrite E7, R3, R4. split; [exact E|right; exact LC].
    + pose proof (remembered_same (release_all held) s2) as [R1 R2]. rewrite E4.
      destruct r3 as [x| | |]; [destruct (N x eq_refl)| | |]; cbn [snd]; rewrite R1, R2; (split; [exact E|left; reflexivity]).
  - match goal with |- context [hosted (log_close m (st_log s) ?text)] => specialize (LC text); unfold hosted;
      destruct (log_close m (st_log s) text (e_host s2)) as [r' w4] end. cbn [snd] in *.
    unfold on_error.
    match goal with |- context [ebind ?x ?k ?s5] => destruct (ebind_cases x k s5) as [(a' & s6 & E6 & E7)|E7];
      pose proof (remembered_same (release_all (log_handle :: held)) s5) as [R3 R4] end.
    + rewrite E6 in R3, R4. cbn [snd e_host e_log] in R3, R4. rewrite E7. cbn [elift snd]. rewrite R3, R4. split; [exact E|right; exact LC].
    + rewrite E7, R3, R4. split; [exact E|right; exact LC].
  - split; [exact E|left; reflexivity].
  - split; [exact E|left; reflexivity].
Qed.

Lemma run_went st : went st (snd (e_run mem m s st)).
Proof.
  unfold e_run. apply went_obtain; [split; reflexivity|]. intros handle s1 S1. apply went_obtain; [exact S1|]. intros file s2 S2.
  apply went_obtain; [exact S2|]. intros io s3 S3. destruct (st_target s) as [[|c target]|]; try (now apply went_error).
  apply went_obtain; [exact S3|]. intros target_path s4 S4. apply went_obtain; [exact S4|]. intros export_path s5 S5.
  apply went_host; [exact S5|reflexivity|]. intros e s6 S6. destruct (split_last (full_path m e)) as [p n].
  apply went_host; [exact S6|apply file_exists_disk|]. intros [|] s7 S7; [now apply went_error|]. now apply went_logged.
Qed.

Lemma run_keeps_mm st q x : on_disk (x_disk (e_host st)) q = Some x ->
  let w' := e_host (snd (e_run mem m s st)) in
  on_disk (x_disk w') q = Some x \/
  exists f b more, st_log s = Some f /\ q = full_path m f /\ x = Data b /\ on_disk (x_disk w') q = Some (Data (b ++ more)).
Proof.
  intros Hq w'. destruct (run_went st) as [[H _]|(w1 & w2 & l & HR & HT & _ & HD)]; [left; unfold w'; rewrite H; exact Hq|].
  fold w' in HD. pose proof (log_ready_keeps _ _ _ _ _ _ HR Hq) as H1. pose proof (proj1 HT _ _ H1) as H2.
  destruct HD as [HD|(text & HD)]; [left; rewrite HD; exact H2|].
  destruct (log_path_dec m s q) as [(f & Ef & ->)|Hn].
  - right. destruct (log_ready_file _ _ _ _ f HR Ef) as (H3 & H4). destruct x as [|b]; [congruence|].
    exists f, b, text. split; [exact Ef|]. split; [reflexivity|]. split; [reflexivity|].
    unfold log_done in HD. rewrite Ef in HD. rewrite HD, on_disk_same. unfold written. rewrite H2. reflexivity.
  - left. rewrite (log_done_other _ _ _ _ _ q HD Hn). exact H2.
Qed.

Lemma run_log_mm st : exists l, e_log (snd (e_run mem m s st)) = e_log st ++ l /\ NoDup (created l) /\
  forall q, In q (created l) <-> on_disk (x_disk (e_host st)) q = None /\
                                 on_disk (x_disk (e_host (snd (e_run mem m s st)))) q = Some Directory.
Proof.
  destruct (run_went st) as [[H L]|(w1 & w2 & l & HR & HT & L & HD)].
  { exists []. rewrite app_nil_r. split; [exact L|]. split; [constructor|]. intros q. rewrite H. split; [intros []|intros (A & B); congruence]. }
  exists l. split; [exact L|]. destruct HT as (T1 & T2 & T3). split; [exact T3|]. intros q. rewrite T2.
  destruct (log_path_dec m s q) as [(f & Ef & ->)|Hn].
  - destruct (log_ready_file _ _ _ _ f HR Ef) as (H3 & H4). rewrite H3. split; [intros (A & _); discriminate|].
    intros (_ & B). exfalso. pose proof (T1 _ _ H3) as H5. destruct HD as [HD|(text & HD)]; [congruence|].
    unfold log_done in HD. rewrite Ef in HD. rewrite HD, on_disk_same in B. discriminate.
  - rewrite (log_ready_other _ _ _ _ _ HR Hn). destruct HD as [HD|(text & HD)]; [rewrite HD; reflexivity|].
    rewrite (log_done_other _ _ _ _ _ q HD Hn). reflexivity.
Qed.
End Run.
