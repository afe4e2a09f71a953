(** Lemmas on runs of olecfexport: what main does around the export. *)
From Coq Require Import String ZArith List Bool Lia Arith.
From Verif Require Import Base Spec_IO M_Table M_Load M_Stream M_Tree M_Open M_Item M_Mount Spec_Stream Spec_Content
  Spec_Load Spec_Tree M_Export Spec_Export M_Getopt Spec_Getopt M_ExportTool Spec_ExportTool L_Base L_Prop2 L_Open L_Open2
  L_Export L_Export2 L_Export3 L_Getopt L_ExportTool L_ExportTool2.
Import ListNotations.
Open Scope Z_scope.

(** ** Paths *)

Lemma split_last_join : forall l p n, In SLASH l -> split_last l = (p, n) -> path_join p n = l.
Proof.
  induction l as [|c r IH]; intros p n Hin H; [destruct Hin|]. cbn [split_last] in H.
  destruct (existsb (Z.eqb SLASH) r) eqn:E.
  - apply existsb_exists in E as (x & Hx & E). apply Z.eqb_eq in E. subst x.
    destruct (split_last r) as [p1 n1]. injection H as <- <-. unfold path_join. cbn. f_equal. apply (IH p1 n1 Hx eq_refl).
  - destruct (c =? SLASH) eqn:Ec.
    + injection H as <- <-. apply Z.eqb_eq in Ec. subst c. reflexivity.
    + apply Z.eqb_neq in Ec. destruct Hin as [->|Hin]; [congruence|].
      assert (existsb (Z.eqb SLASH) r = true) by (apply existsb_exists; exists SLASH; split; [exact Hin|apply Z.eqb_refl]).
      congruence.
Qed.

Lemma full_path_slash m p : In SLASH (full_path m p).
Proof.
  assert (H : forall a b, In SLASH (path_join a b)) by (intros a b; apply in_or_app; right; left; reflexivity).
  destruct p as [|c r]; cbn [full_path]; [apply H|]. destruct (c =? SLASH) eqn:E; [|apply H].
  apply Z.eqb_eq in E. subst c. left. reflexivity.
Qed.

Lemma full_path_ends m a c : exists b, full_path m (a ++ [c]) = b ++ [c].
Proof.
  unfold full_path. destruct (a ++ [c]) as [|x r] eqn:E; [destruct a; discriminate|].
  destruct (x =? SLASH); [exists a; symmetry; exact E|]. rewrite <- E. unfold path_join.
  exists (ma_here m ++ SLASH :: a). rewrite <- app_assoc. reflexivity.
Qed.

Lemma export_name m target p n : split_last (full_path m (target ++ text_of ".export")) = (p, n) ->
  path_join p n = export_directory m target /\ dot_name n = false.
Proof.
  intros H. pose proof (split_last_join _ _ _ (full_path_slash m _) H) as HJ. split; [exact HJ|].
  assert (E : target ++ text_of ".export" = (target ++ [46; 101; 120; 112; 111; 114]) ++ [116]).
  { rewrite <- app_assoc. reflexivity. }
  rewrite E in HJ. destruct (full_path_ends m (target ++ [46; 101; 120; 112; 111; 114]) 116) as (b & Hb). rewrite Hb in HJ.
  unfold dot_name. destruct (list_eq_dec Z.eq_dec n [46]) as [->|_].
  - change (path_join p [46]) with (p ++ [SLASH] ++ [46]) in HJ. rewrite app_assoc in HJ.
    apply app_inj_tail in HJ as (_ & HJ). discriminate.
  - destruct (list_eq_dec Z.eq_dec n [46; 46]) as [->|_]; [|reflexivity].
    change (path_join p [46; 46]) with (p ++ [SLASH; 46] ++ [46]) in HJ. rewrite app_assoc in HJ.
    apply app_inj_tail in HJ as (_ & HJ). discriminate.
Qed.

(** ** The parts of a run *)

(** The disk after the log is opened. *)
Definition log_ready (m : machine) (s : settings) (k k1 : disk) : Prop :=
  match st_log s with
  | None => k1 = k
  | Some f => (exists b, on_disk k (full_path m f) = Some (Data b) /\ k1 = k) \/
              (on_disk k (full_path m f) = None /\ k1 = (full_path m f, Data []) :: k)
  end.

Lemma log_open_cases m s w r w1 : log_open m (st_log s) w = (r, w1) ->
  x_trace w1 = x_trace w /\
  match r with Ok _ => log_ready m s (x_disk w) (x_disk w1) | Err => x_disk w1 = x_disk w | _ => False end.
Proof.
  unfold log_open, log_ready. destruct (st_log s) as [f|]; [|intros [= <- <-]; auto].
  unfold call. destruct (ho_fault _ _); [intros [= <- <-]; auto|].
  destruct (on_disk (x_disk w) (full_path m f)) as [[|b]|] eqn:E; intros [= <- <-]; cbn; eauto 10.
Qed.

Lemma prepare_cases m s w r w1 : prepare m s w = (r, w1) ->
  x_trace w1 = x_trace w /\
  match r with
  | Ok (p, n) =>
      exists target, st_target s = Some target /\ target <> [] /\ path_join p n = export_directory m target /\
        dot_name n = false /\ on_disk (x_disk w) (export_directory m target) = None /\
        log_ready m s (x_disk w) (x_disk w1)
  | Err => x_disk w1 = x_disk w
  | _ => False
  end.
Proof.
  unfold prepare. destruct (st_target s) as [target|]; [|intros [= <- <-]; auto].
  unfold items_export_path. destruct target as [|c target]; [intros [= <- <-]; auto|].
  set (tg := c :: target). unfold xbind at 1. unfold xlift at 1.
  destruct (split_last (full_path m (tg ++ text_of ".export"))) as [p n] eqn:ES.
  destruct (export_name m tg p n ES) as (HJ & HD).
  unfold xbind at 1. unfold file_exists, call. rewrite HD, HJ.
  destruct (ho_fault _ _); [intros [= <- <-]; auto|].
  destruct (on_disk (x_disk w) (export_directory m tg)) eqn:E; [intros [= <- <-]; auto|].
  cbn [orb]. unfold xbind. destruct (log_open m (st_log s) _) as [r2 w2] eqn:EL.
  apply log_open_cases in EL as (T & L). cbn [x_trace x_disk] in T, L.
  destruct r2; intros [= <- <-]; auto. split; [exact T|]. exists tg. repeat split; auto. discriminate.
Qed.

Lemma work_cases m s p n w r w' l : work m s p n w = (r, w', l) ->
  let rd := ma_reader m (full_path m (st_source s)) in
  (l = [] /\ x_disk w' = x_disk w /\ (forall u, r <> Ok u)) \/
  (exists o tr w1, open_read (ma_una m) rd (x_trace w) = (Ok o, tr) /\ x_disk w1 = x_disk w /\
     (forall c, st_codepage s = Some c -> exists b, ma_codepage m c = Ok b) /\
     export_file_log (ma_host m) rd (opened_volume o) (o_tree o) p n w1 = (r, w', l)).
Proof.
  intros H rd. unfold work in H. fold rd in H. unfold lbind at 1 in H. unfold quiet at 1 in H.
  assert (HC : exists rc, (match st_codepage s with
      | None => xret tt | Some c => dx _ <- xlift (ma_codepage m c); xret tt end) w = (rc, w) /\
      (forall u c, rc = Ok u -> st_codepage s = Some c -> exists b, ma_codepage m c = Ok b)).
  { destruct (st_codepage s) as [c|]; [|eexists; split; [reflexivity|discriminate]]. unfold xbind, xlift, xret.
    destruct (ma_codepage m c) eqn:E; eexists; (split; [reflexivity|]); intros u0 c0 H1 [= <-]; eauto; discriminate. }
  destruct HC as (rc & HC & HCP). rewrite HC in H.
  destruct rc as [u| | |]; try (injection H as <- <- <-; left; repeat split; auto; discriminate).
  cbn [app] in H. unfold lbind at 1 in H. unfold quiet at 1 in H.
  destruct (open_read (ma_una m) rd (x_trace w)) as [ro tr] eqn:EO.
  destruct ro as [o| | |]; try (injection H as <- <- <-; left; repeat split; auto; discriminate).
  right. exists o, tr. eexists. split; [reflexivity|]. split; [|split; [intros c; apply (HCP u c eq_refl)|]].
  2:{ cbn [app] in H.
      destruct (export_file_log (ma_host m) rd (opened_volume o) (o_tree o) p n
        {| x_disk := x_disk w; x_calls := x_calls w; x_trace := tr |}) as [rw ll] eqn:EF.
      cbn [app] in H. rewrite EF. exact H. }
  reflexivity.
Qed.

(** The disk after the log is closed. *)
Definition log_done (m : machine) (s : settings) (k k1 : disk) (text : list Z) : Prop :=
  match st_log s with
  | None => k1 = k
  | Some f => k1 = (full_path m f, Data (written k (full_path m f) ++ text)) :: k
  end.

Lemma log_close_cases m s text w r w1 : log_close m (st_log s) text w = (r, w1) ->
  match r with
  | Ok _ => log_done m s (x_disk w) (x_disk w1) text
  | Err => (exists more, log_done m s (x_disk w) (x_disk w1) more) /\ st_log s <> None /\
           exists k, ho_fault (ma_host m) k <> None
  | _ => False
  end.
Proof.
  unfold log_close, log_done. destruct (st_log s) as [f|]; [|intros [= <- <-]; reflexivity].
  unfold write_buffer, call. destruct (ho_fault _ _) eqn:E; intros [= <- <-]; cbn; [|reflexivity].
  split; [eauto|]. split; [discriminate|]. exists (x_calls w). congruence.
Qed.

(** The parts together. *)
Record ran (m : machine) (s : settings) (w : xstate) (r : res unit) (w' : xstate) (l : list log_line)
       (target p n : list Z) (w1 : xstate) (r2 : res unit) (w2 : xstate) : Prop := {
  rn_target : st_target s = Some target;
  rn_some : target <> [];
  rn_path : path_join p n = export_directory m target;
  rn_dot : dot_name n = false;
  rn_free : on_disk (x_disk w) (export_directory m target) = None;
  rn_ready : log_ready m s (x_disk w) (x_disk w1);
  rn_trace : x_trace w1 = x_trace w;
  rn_work : work m s p n w1 = (r2, w2, l);
  rn_result : match r2 with
              | Ok u => (r = Ok u /\ log_done m s (x_disk w2) (x_disk w') (concat (map line_text l))) \/
                        (r = Undef /\ st_log s <> None /\ (exists k, ho_fault (ma_host m) k <> None) /\
                         exists more, log_done m s (x_disk w2) (x_disk w') more)
              | Err => r = Err /\ exists more, log_done m s (x_disk w2) (x_disk w') more
              | _ => r = r2 /\ x_disk w' = x_disk w2
              end
}.

Lemma run_cases m s w r w' l : export_start_run m s w = (r, w', l) ->
  (r = Err /\ l = [] /\ x_disk w' = x_disk w) \/
  exists target p n w1 r2 w2, ran m s w r w' l target p n w1 r2 w2.
Proof.
  unfold export_start_run, lbind, quiet. intros H.
  destruct (prepare m s w) as [r1 w1] eqn:EP. apply prepare_cases in EP as (HT & HP).
  destruct r1 as [[p n]| | |]; [|injection H as <- <- <-; auto|destruct HP|destruct HP].
  destruct HP as (target & P1 & P2 & P3 & P4 & P5 & P6). right.
  destruct (work m s p n w1) as [[r2 w2] l2] eqn:EW.
  destruct r2 as [u| | |].
  - destruct (log_close m (st_log s) (concat (map line_text l2)) w2) as [r3 w3] eqn:EL.
    apply log_close_cases in EL. destruct r3 as [u3| | |]; cbn [app] in H; [| |destruct EL|destruct EL]; injection H as <- <- <-.
    + exists target, p, n, w1, (Ok u), w2. constructor; auto. left. destruct u. auto.
    + exists target, p, n, w1, (Ok u), w2. constructor; auto. right. destruct EL as (E1 & E2 & E3). auto.
  - cbn [app] in H. injection H as <- <- <-. exists target, p, n, w1, Err, w2. constructor; auto. split; [reflexivity|].
    destruct (log_close m (st_log s) (concat (map line_text l2)) w2) as [r3 w3] eqn:EL.
    apply log_close_cases in EL. destruct r3; [eauto|apply EL|destruct EL|destruct EL].
  - cbn [app] in H. injection H as <- <- <-. exists target, p, n, w1, Undef, w2. constructor; auto.
  - cbn [app] in H. injection H as <- <- <-. exists target, p, n, w1, NoFuel, w2. constructor; auto.
Qed.

(** The directory of the export alone is changed in between. *)
Lemma work_tracked m s p n w r w' l : work m s p n w = (r, w', l) -> tracked w w' l.
Proof.
  intros H. apply work_cases in H as [(-> & H & _)|(o & tr & w1 & _ & HD & _ & H)]; [now apply tracked_same|].
  pose proof (export_file_tracked (ma_host m) (ma_reader m (full_path m (st_source s))) (opened_volume o) (o_tree o) p n w1) as HT.
  rewrite H in HT. unfold rest_of in HT. cbn [fst snd] in HT. unfold tracked in *. rewrite HD in HT. exact HT.
Qed.

Lemma log_ready_keeps m s k k1 q x : log_ready m s k k1 -> on_disk k q = Some x -> on_disk k1 q = Some x.
Proof.
  unfold log_ready. destruct (st_log s) as [f|]; [|congruence].
  intros [(b & _ & ->)|(HN & ->)] H; [exact H|]. rewrite on_disk_other; [exact H|]. congruence.
Qed.

Lemma log_ready_other m s k k1 q : log_ready m s k k1 -> (forall f, st_log s = Some f -> q <> full_path m f) ->
  on_disk k1 q = on_disk k q.
Proof.
  unfold log_ready. destruct (st_log s) as [f|]; [|congruence].
  intros [(b & _ & ->)|(HN & ->)] H; [reflexivity|]. apply on_disk_other. now apply H.
Qed.

Lemma log_done_other m s k k1 text q : log_done m s k k1 text -> (forall f, st_log s = Some f -> q <> full_path m f) ->
  on_disk k1 q = on_disk k q.
Proof.
  unfold log_done. destruct (st_log s) as [f|]; [|congruence].
  intros -> H. apply on_disk_other. now apply H.
Qed.

Lemma log_ready_file m s k k1 f : log_ready m s k k1 -> st_log s = Some f ->
  on_disk k1 (full_path m f) = Some (Data (written k (full_path m f))) /\ on_disk k (full_path m f) <> Some Directory.
Proof.
  unfold log_ready. intros H E. rewrite E in H. unfold written.
  destruct H as [(b & H & ->)|(H & ->)]; rewrite H.
  - split; [reflexivity|discriminate].
  - rewrite on_disk_cons. destruct (list_eq_dec _ _ _); [|congruence]. split; [reflexivity|discriminate].
Qed.

(** The log file after a run. *)
Lemma ran_log m s w r w' l target p n w1 r2 w2 f : ran m s w r w' l target p n w1 r2 w2 -> st_log s = Some f ->
  on_disk (x_disk w) (full_path m f) <> Some Directory /\
  exists more, on_disk (x_disk w') (full_path m f) = Some (Data (written (x_disk w) (full_path m f) ++ more)) /\
    (forall u, r = Ok u -> more = concat (map line_text l)).
Proof.
  intros R E. destruct (log_ready_file _ _ _ _ f (rn_ready _ _ _ _ _ _ _ _ _ _ _ _ R) E) as (H1 & HD). split; [exact HD|].
  apply (proj1 (work_tracked _ _ _ _ _ _ _ _ (rn_work _ _ _ _ _ _ _ _ _ _ _ _ R))) in H1.
  assert (HL : forall text, log_done m s (x_disk w2) (x_disk w') text ->
    on_disk (x_disk w') (full_path m f) = Some (Data (written (x_disk w) (full_path m f) ++ text))).
  { intros text. unfold log_done. rewrite E. intros ->. rewrite on_disk_cons.
    destruct (list_eq_dec _ _ _); [|congruence]. unfold written at 1. rewrite H1. reflexivity. }
  pose proof (rn_result _ _ _ _ _ _ _ _ _ _ _ _ R) as HR. destruct r2 as [u| | |].
  - destruct HR as [(-> & HR)|(-> & _ & _ & more & HR)]; [eauto 10|]. exists more. split; [eauto|discriminate].
  - destruct HR as (-> & more & HR). exists more. split; [eauto|discriminate].
  - destruct HR as (-> & ->). exists []. rewrite app_nil_r. split; [exact H1|discriminate].
  - destruct HR as (-> & ->). exists []. rewrite app_nil_r. split; [exact H1|discriminate].
Qed.

Lemma ran_other m s w r w' l target p n w1 r2 w2 q : ran m s w r w' l target p n w1 r2 w2 ->
  (forall f, st_log s = Some f -> q <> full_path m f) ->
  on_disk (x_disk w1) q = on_disk (x_disk w) q /\ on_disk (x_disk w') q = on_disk (x_disk w2) q.
Proof.
  intros R H. split; [eapply log_ready_other; [exact (rn_ready _ _ _ _ _ _ _ _ _ _ _ _ R)|exact H]|].
  pose proof (rn_result _ _ _ _ _ _ _ _ _ _ _ _ R) as HR. destruct r2 as [u| | |].
  - destruct HR as [(_ & HR)|(_ & _ & _ & more & HR)]; eapply log_done_other; eauto.
  - destruct HR as (_ & more & HR). eapply log_done_other; eauto.
  - destruct HR as (_ & ->). reflexivity.
  - destruct HR as (_ & ->). reflexivity.
Qed.

(** Whether a path is that of the log. *)
Lemma log_path_dec m s q : {f | st_log s = Some f /\ q = full_path m f} + {forall f, st_log s = Some f -> q <> full_path m f}.
Proof.
  destruct (st_log s) as [f|]; [|right; discriminate].
  destruct (list_eq_dec Z.eq_dec q (full_path m f)) as [E|E]; [left; exists f; auto|right].
  intros f' [= <-]. exact E.
Qed.

(** ** What runs do *)

Lemma export_run_keeps m s w r w' l q x : export_start_run m s w = (r, w', l) -> on_disk (x_disk w) q = Some x ->
  on_disk (x_disk w') q = Some x \/
  exists f b more, st_log s = Some f /\ q = full_path m f /\ x = Data b /\ on_disk (x_disk w') q = Some (Data (b ++ more)).
Proof.
  intros H Hq. apply run_cases in H as [(_ & _ & ->)|(target & p & n & w1 & r2 & w2 & R)]; [auto|].
  destruct (log_path_dec m s q) as [(f & Ef & ->)|Hn].
  - right. destruct (ran_log _ _ _ _ _ _ _ _ _ _ _ _ _ R Ef) as (HD & more & HM & _).
    rewrite Hq in HD. destruct x as [|b]; [congruence|]. exists f, b, more. unfold written in HM. rewrite Hq in HM. auto.
  - left. destruct (ran_other _ _ _ _ _ _ _ _ _ _ _ _ _ R Hn) as (H1 & H2). rewrite H2.
    apply (proj1 (work_tracked _ _ _ _ _ _ _ _ (rn_work _ _ _ _ _ _ _ _ _ _ _ _ R))). rewrite H1. exact Hq.
Qed.

Lemma run_log m s w r w' l : export_start_run m s w = (r, w', l) ->
  (forall q, In q (created l) <-> on_disk (x_disk w) q = None /\ on_disk (x_disk w') q = Some Directory) /\
  NoDup (created l).
Proof.
  intros H. apply run_cases in H as [(_ & -> & ->)|(target & p & n & w1 & r2 & w2 & R)].
  { split; [|constructor]. intros q. split; [intros []|intros (H1 & H2); congruence]. }
  destruct (work_tracked _ _ _ _ _ _ _ _ (rn_work _ _ _ _ _ _ _ _ _ _ _ _ R)) as (T1 & T2 & T3). split; [|exact T3].
  intros q. rewrite T2. destruct (log_path_dec m s q) as [(f & Ef & ->)|Hn].
  - destruct (ran_log _ _ _ _ _ _ _ _ _ _ _ _ _ R Ef) as (_ & more & HM & _). rewrite HM.
    destruct (log_ready_file _ _ _ _ f (rn_ready _ _ _ _ _ _ _ _ _ _ _ _ R) Ef) as (H1 & _). rewrite H1.
    split; intros (A & B); discriminate.
  - destruct (ran_other _ _ _ _ _ _ _ _ _ _ _ _ _ R Hn) as (H1 & H2). rewrite H1, H2. reflexivity.
Qed.

Lemma run_new m s w r w' l q x : x_trace w = [] -> export_start_run m s w = (r, w', l) ->
  on_disk (x_disk w) q = None -> on_disk (x_disk w') q = Some x ->
  (exists f text, st_log s = Some f /\ q = full_path m f /\ x = Data text /\
     forall u, r = Ok u -> text = concat (map line_text l)) \/
  exists target o tr, st_target s = Some target /\ on_disk (x_disk w) (export_directory m target) = None /\
    open_read (ma_una m) (ma_reader m (full_path m (st_source s))) [] = (Ok o, tr) /\
    ((q = export_directory m target /\ x = Directory) \/
     (below_path (export_directory m target) q /\ exists t, o_tree o = Some t /\
       good (ma_reader m (full_path m (st_source s))) (opened_volume o) t q x)).
Proof.
  intros HT H HN Hq. apply run_cases in H as [(_ & _ & HE)|(target & p & n & w1 & r2 & w2 & R)]; [congruence|].
  destruct (log_path_dec m s q) as [(f & Ef & ->)|Hn].
  - left. destruct (ran_log _ _ _ _ _ _ _ _ _ _ _ _ _ R Ef) as (_ & more & HM & HU). unfold written in HM. rewrite HN in HM.
    exists f, more. repeat split; auto. cbn [app] in HM. rewrite Hq in HM. congruence.
  - right. destruct (ran_other _ _ _ _ _ _ _ _ _ _ _ _ _ R Hn) as (H1 & H2). rewrite H2 in Hq. rewrite HN in H1.
    destruct R as [R1 R2 R3 R4 R5 R6 R7 R8 _].
    apply work_cases in R8 as [(_ & HD & _)|(o & tr & wx & HO & HD & _ & HF)]; [rewrite HD in Hq; congruence|].
    rewrite R7, HT in HO. exists target, o, tr. repeat split; auto.
    rewrite <- R3. pose proof (export_file_same (ma_host m) (ma_reader m (full_path m (st_source s))) (opened_volume o) (o_tree o) p n wx) as HS.
    rewrite HF in HS. cbn [fst] in HS.
    assert (Hq' : on_disk (x_disk (snd (export_file (ma_host m) (ma_reader m (full_path m (st_source s))) (opened_volume o) (o_tree o) p n wx))) q = Some x).
    { rewrite <- HS. exact Hq. }
    apply export_file_grows in Hq' as [Hq'|Hq']; [rewrite HD in Hq'; congruence|exact Hq'].
Qed.

Lemma run_occupied m s w target x : st_target s = Some target -> on_disk (x_disk w) (export_directory m target) = Some x ->
  exists w', export_start_run m s w = (Err, w', []) /\ x_disk w' = x_disk w.
Proof.
  intros HT HX. destruct (export_start_run m s w) as [[r w'] l] eqn:E. exists w'.
  apply run_cases in E as [(-> & -> & ->)|(target' & p & n & w1 & r2 & w2 & [R1 R2 R3 R4 R5 R6 R7 R8 _])]; [auto|].
  rewrite HT in R1. injection R1 as <-. congruence.
Qed.

Lemma run_no_target m s w : st_target s = None \/ st_target s = Some [] ->
  exists w', export_start_run m s w = (Err, w', []) /\ x_disk w' = x_disk w.
Proof.
  intros HT. destruct (export_start_run m s w) as [[r w'] l] eqn:E. exists w'.
  apply run_cases in E as [(-> & -> & ->)|(target' & p & n & w1 & r2 & w2 & [R1 R2 R3 R4 R5 R6 R7 R8 _])]; [auto|].
  destruct HT; congruence.
Qed.

Lemma run_unreadable m s w r w' l : x_trace w = [] ->
  (forall o tr, open_read (ma_una m) (ma_reader m (full_path m (st_source s))) [] <> (Ok o, tr)) \/
  (exists c, st_codepage s = Some c /\ ma_codepage m c = Err) ->
  export_start_run m s w = (r, w', l) ->
  (forall u, r <> Ok u) /\ l = [] /\
  forall q, (forall f, st_log s = Some f -> q <> full_path m f) -> on_disk (x_disk w') q = on_disk (x_disk w) q.
Proof.
  intros HT HO H. apply run_cases in H as [(-> & -> & ->)|(target & p & n & w1 & r2 & w2 & R)].
  { repeat split; auto. discriminate. }
  pose proof R as [R1 R2 R3 R4 R5 R6 R7 R8 R9]. apply work_cases in R8 as [(-> & HD & HU)|(o & tr & wx & HO' & _ & HC & _)].
  - split; [|split; [reflexivity|]].
    + intros u ->. destruct r2 as [u2| | |]; [now destruct (HU u2)| | |]; destruct R9; discriminate.
    + intros q Hq. destruct (ran_other _ _ _ _ _ _ _ _ _ _ _ _ _ R Hq) as (E1 & E2). congruence.
  - rewrite R7, HT in HO'. destruct HO as [HO|(c & Hc & HE)]; [now apply HO in HO'|].
    destruct (HC c Hc) as (b & Hb). congruence.
Qed.

(** The stored items stay when nothing in their directory changes. *)
Lemma stored_below rd v t named s s' : forall k p,
  (forall q x, q = p \/ below_path p q -> on_disk s q = Some x -> on_disk s' q = Some x) ->
  stored rd v t named s k p -> stored rd v t named s' k p.
Proof.
  intros k p H HS. revert H. induction HS as [k p d l name H1 H2 H3 H4 H5 IH H6 H7]. intros H.
  apply (stored_item rd v t named s' k p d l name); auto.
  - apply H; [|exact H3]. right. eexists. reflexivity.
  - intros j Hj. apply (IH j Hj). intros q x Hq. apply H. right.
    destruct Hq as [->|(y & ->)]; [eexists; reflexivity|]. exists (name j ++ 47 :: y). rewrite <- app_assoc. reflexivity.
Qed.

Lemma run_success m s w u w' l : x_trace w = [] -> export_start_run m s w = (Ok u, w', l) ->
  exists target o tr, st_target s = Some target /\ target <> [] /\
    on_disk (x_disk w) (export_directory m target) = None /\
    on_disk (x_disk w') (export_directory m target) = Some Directory /\
    open_read (ma_una m) (ma_reader m (full_path m (st_source s))) [] = (Ok o, tr) /\
    (forall f, st_log s = Some f ->
       on_disk (x_disk w') (full_path m f) =
         Some (Data (written (x_disk w) (full_path m f) ++ concat (map line_text l)))) /\
    (una_ok (ma_una m) -> io_bytes (ma_reader m (full_path m (st_source s))) ->
     (forall f y, st_log s = Some f -> full_path m f <> export_directory m target ++ 47 :: y) ->
     untroubled l -> forall t, o_tree o = Some t ->
     all_stored (ma_reader m (full_path m (st_source s))) (opened_volume o) t
       (told_name (ma_host m) (v_byte_order (opened_volume o)) l) (x_disk w') (export_directory m target)).
Proof.
  intros HT H. apply run_cases in H as [(H & _)|(target & p & n & w1 & r2 & w2 & R)]; [discriminate|].
  pose proof R as [R1 R2 R3 R4 R5 R6 R7 R8 R9].
  assert (E2 : exists u2, r2 = Ok u2).
  { destruct r2 as [u2| | |]; [eauto| | |]; destruct R9; discriminate. }
  destruct E2 as (u2 & ->). pose proof (work_tracked _ _ _ _ _ _ _ _ R8) as (T1 & T2 & T3).
  apply work_cases in R8 as [(_ & _ & HU)|(o & tr & wx & HO & HD & _ & HF)]; [now destruct (HU u2)|].
  rewrite R7, HT in HO. exists target, o, tr.
  assert (HC : In (export_directory m target) (created l)).
  { unfold export_file_log in HF. apply lbind_ok in HF as (u4 & w4 & l4 & r4 & H4 & HF & ->).
    apply lbind_ok in HF as (u5 & w5 & l5 & r5 & H5 & HF & ->). injection H5 as _ <- <-.
    rewrite created_app. apply in_or_app. right. left. symmetry. rewrite R3. reflexivity. }
  destruct (proj1 (T2 _) HC) as (C1 & C2).
  assert (HL : forall f, st_log s = Some f -> export_directory m target <> full_path m f).
  { intros f Ef E. destruct (log_ready_file _ _ _ _ f R6 Ef) as (H1 & _). congruence. }
  repeat split; auto.
  - rewrite (proj2 (ran_other _ _ _ _ _ _ _ _ _ _ _ _ _ R HL)). exact C2.
  - intros f Ef. destruct (ran_log _ _ _ _ _ _ _ _ _ _ _ _ _ R Ef) as (_ & more & HM & HU). now rewrite <- (HU u eq_refl).
  - intros Hu HB HA HN t Ht. rewrite Ht in HF.
    pose proof (export_file_done _ _ _ _ _ _ _ _ _ _ (opened_shape _ _ _ _ _ Hu HB HO Ht) HF HN) as (name & S1 & S2 & S3).
    exists name. split; [|split; assumption]. intros j Hj. rewrite R3 in S1.
    eapply stored_below; [|exact (S1 j Hj)]. intros q x Hq Hx.
    rewrite (proj2 (ran_other _ _ _ _ _ _ _ _ _ _ _ _ q R ltac:(
      intros f Ef E; destruct Hq as [Hq|(y & Hq)]; [apply (HA f (name j) Ef); congruence|];
      apply (HA f (name j ++ 47 :: y) Ef); rewrite <- E, Hq, <- app_assoc; reflexivity))). exact Hx.
Qed.

Lemma run_defined_if m s w : x_trace w = [] -> una_ok (ma_una m) ->
  io_bytes (ma_reader m (full_path m (st_source s))) -> (forall c, defined (ma_codepage m c)) ->
  (forall o tr t p n target w1, open_read (ma_una m) (ma_reader m (full_path m (st_source s))) [] = (Ok o, tr) -> o_tree o = Some t ->
     st_target s = Some target -> path_join p n = export_directory m target -> dot_name n = false ->
     on_disk (x_disk w) (export_directory m target) = None ->
     (forall q, (forall f, st_log s = Some f -> q <> full_path m f) -> on_disk (x_disk w1) q = on_disk (x_disk w) q) ->
     defined (fst (export_file (ma_host m) (ma_reader m (full_path m (st_source s))) (opened_volume o) (Some t) p n w1))) ->
  (st_log s = None \/ forall k, ho_fault (ma_host m) k = None) ->
  defined (fst (fst (export_start_run m s w))).
Proof.
  intros HT Hu HB HCP HN HL. destruct (export_start_run m s w) as [[r w'] l] eqn:E. cbn [fst].
  apply run_cases in E as [(-> & _)|(target & p & n & w1 & r2 & w2 & [R1 R2 R3 R4 R5 R6 R7 R8 R9])]; [exact I|].
  assert (HD : defined r2).
  { clear R9. unfold work in R8. unfold lbind at 1 in R8. unfold quiet at 1 in R8.
    assert (HC : exists rc, (match st_codepage s with
        | None => xret tt | Some c => dx _ <- xlift (ma_codepage m c); xret tt end) w1 = (rc, w1) /\ defined rc).
    { destruct (st_codepage s) as [c|]; [|eexists; split; [reflexivity|exact I]]. unfold xbind, xlift, xret.
      specialize (HCP c). destruct (ma_codepage m c); eexists; (split; [reflexivity|]); try exact HCP; exact I. }
    destruct HC as (rc & HC & Hrc). rewrite HC in R8.
    destruct rc as [u| | |]; try (injection R8 as <- <- <-; exact Hrc).
    cbn [app] in R8. unfold lbind at 1 in R8. unfold quiet at 1 in R8. rewrite R7, HT in R8.
    destruct (open_read (ma_una m) (ma_reader m (full_path m (st_source s))) []) as [ro tr] eqn:EO.
    assert (HOD : defined ro).
    { destruct (open_read_cases (ma_una m) (ma_reader m (full_path m (st_source s))) Hu HB) as (r0 & t0 & H0 & Hd0 & _).
      rewrite EO in H0. injection H0 as -> ->. exact Hd0. }
    destruct ro as [o| | |]; try (injection R8 as <- <- <-; exact HOD).
    cbn [app] in R8.
    destruct (export_file_log (ma_host m) (ma_reader m (full_path m (st_source s))) (opened_volume o) (o_tree o) p n
        {| x_disk := x_disk w1; x_calls := x_calls w1; x_trace := tr |}) as [[rx wx] lx] eqn:EF.
    cbn [app] in R8. injection R8 as <- <- <-.
    pose proof (export_file_same (ma_host m) (ma_reader m (full_path m (st_source s))) (opened_volume o) (o_tree o) p n
      {| x_disk := x_disk w1; x_calls := x_calls w1; x_trace := tr |}) as HS.
    rewrite EF in HS. cbn [fst] in HS.
    assert (HX : defined (fst (export_file (ma_host m) (ma_reader m (full_path m (st_source s))) (opened_volume o) (o_tree o) p n
      {| x_disk := x_disk w1; x_calls := x_calls w1; x_trace := tr |}))).
    { destruct (o_tree o) as [t|] eqn:Et.
      - eapply HN; eauto. intros q Hq. exact (log_ready_other _ _ _ _ _ R6 Hq).
      - unfold export_file. apply xbind_defined; [|intros; exact I].
        unfold make_directory. rewrite call_fst. destruct (ho_fault _ _); [exact I|].
        destruct (dot_name n); [exact I|]. match goal with |- context [on_disk ?a ?b] => destruct (on_disk a b) end; exact I. }
    rewrite <- HS in HX. exact HX. }
  destruct r2 as [u| | |]; [|destruct R9 as (-> & _); exact I|destruct HD|destruct HD].
  destruct R9 as [(-> & _)|(_ & H1 & (k & H2) & _)]; [exact I|]. destruct HL as [HL|HL]; [congruence|]. now rewrite HL in H2.
Qed.

Lemma export_run_defined m s w : x_trace w = [] -> una_ok (ma_una m) ->
  io_bytes (ma_reader m (full_path m (st_source s))) -> (forall c, defined (ma_codepage m c)) ->
  (forall o tr t k d n, open_read (ma_una m) (ma_reader m (full_path m (st_source s))) [] = (Ok o, tr) -> o_tree o = Some t ->
     item_entry t k d -> safe_name (ma_host m) (v_byte_order (opened_volume o)) d n -> 9 <= zlen n) ->
  (st_log s = None \/ forall k, ho_fault (ma_host m) k = None) ->
  defined (fst (fst (export_start_run m s w))).
Proof.
  intros HT Hu HB HC HN HL. apply run_defined_if; auto. intros o tr t p n target w1 HO Ht _ _ _ _ _.
  apply export_file_defined.
  - eapply opened_shape; eauto.
  - eapply opened_volume_ok; eauto.
  - intros k d. eapply opened_item_ok; eauto.
  - eapply opened_first; eauto.
  - intros k d n0 Hk Hs. eapply HN; eauto.
Qed.

Lemma run_defined_own m s w target : x_trace w = [] -> una_ok (ma_una m) ->
  io_bytes (ma_reader m (full_path m (st_source s))) -> (forall c, defined (ma_codepage m c)) ->
  (forall o tr t, open_read (ma_una m) (ma_reader m (full_path m (st_source s))) [] = (Ok o, tr) -> o_tree o = Some t ->
    (forall k j d n, item_sub t k j -> item_entry t j d -> safe_name (ma_host m) (v_byte_order (opened_volume o)) d n ->
       ~ In 47 n /\ ~ In n [[46]; [46; 46]; [83; 116; 114; 101; 97; 109; 68; 97; 116; 97; 46; 98; 105; 110]]) /\
    (forall k i j d d' n, item_sub t k i -> item_sub t k j -> item_entry t i d -> item_entry t j d' ->
       safe_name (ma_host m) (v_byte_order (opened_volume o)) d n ->
       safe_name (ma_host m) (v_byte_order (opened_volume o)) d' n -> i = j)) ->
  st_target s = Some target -> vacant (x_disk w) (export_directory m target) ->
  (forall f, st_log s = Some f -> full_path m f <> export_directory m target /\
     forall y, full_path m f <> export_directory m target ++ 47 :: y) ->
  (st_log s = None \/ forall k, ho_fault (ma_host m) k = None) ->
  defined (fst (fst (export_start_run m s w))).
Proof.
  intros HT Hu HB HC HN Htg (V1 & V2) HA HL. apply run_defined_if; auto. intros o tr t p n target' w1 HO Ht Et HJ Hdot _ HQ.
  rewrite Htg in Et. injection Et as <-. destruct (HN o tr t HO Ht) as (N1 & N2).
  destruct (opened_first _ _ _ _ _ Hu HB HO Ht) as (d & Hd).
  eapply export_file_own; eauto.
  - eapply opened_shape; eauto.
  - eapply opened_volume_ok; eauto.
  - intros k d0. eapply opened_item_ok; eauto.
  - rewrite HJ. split; [rewrite HQ; [exact V1|]|intros y; rewrite HQ; [apply V2|]]; intros f Ef E.
    + apply (proj1 (HA f Ef)). congruence.
    + apply (proj2 (HA f Ef) y). congruence.
Qed.

(** ** A run on which nothing fails *)

Lemma run_exact m s w target o tr t : x_trace w = [] -> (forall k, ho_fault (ma_host m) k = None) ->
  una_ok (ma_una m) -> io_bytes (ma_reader m (full_path m (st_source s))) ->
  st_target s = Some target -> target <> [] ->
  (forall c, st_codepage s = Some c -> exists b, ma_codepage m c = Ok b) ->
  open_read (ma_una m) (ma_reader m (full_path m (st_source s))) [] = (Ok o, tr) -> o_tree o = Some t ->
  exportable (ma_host m) (ma_reader m (full_path m (st_source s))) (opened_volume o) t ->
  vacant (x_disk w) (export_directory m target) ->
  (forall f, st_log s = Some f -> on_disk (x_disk w) (full_path m f) <> Some Directory /\
     full_path m f <> export_directory m target /\ forall y, full_path m f <> export_directory m target ++ 47 :: y) ->
  exists w' l, export_start_run m s w = (Ok tt, w', l) /\ plain_lines l /\
    forall q x, (forall f, st_log s = Some f -> q <> full_path m f) ->
      (on_disk (x_disk w') q = Some x <->
       on_disk (x_disk w) q = Some x \/ (q = export_directory m target /\ x = Directory) \/
       expected (ma_host m) (ma_reader m (full_path m (st_source s))) (opened_volume o) t 0 (export_directory m target) q x).
Proof.
  intros HT HF Hu HB Htg Hne HCP HO Ht HE (V1 & V2) HL.
  set (rd := ma_reader m (full_path m (st_source s))) in *.
  destruct (split_last (full_path m (target ++ text_of ".export"))) as [p n] eqn:ES.
  destruct (export_name m target p n ES) as (HJ & HD).
  assert (HP : exists w1, prepare m s w = (Ok (p, n), w1)).
  { unfold prepare. rewrite Htg. unfold items_export_path. destruct target as [|c tg]; [congruence|].
    unfold xbind at 1. unfold xlift at 1. rewrite ES. unfold xbind at 1. unfold file_exists, call. rewrite HD, HJ, HF, V1.
    cbn [orb]. unfold xbind, log_open. destruct (st_log s) as [f|] eqn:Ef; [|eexists; reflexivity].
    destruct (HL f eq_refl) as (HL1 & _). unfold call. rewrite HF. cbn [x_disk].
    destruct (on_disk (x_disk w) (full_path m f)) as [[|b]|]; [congruence| |]; eexists; reflexivity. }
  destruct HP as (w1 & HP). pose proof (prepare_cases _ _ _ _ _ HP) as (T1 & target' & P1 & _ & _ & _ & _ & P6).
  rewrite Htg in P1. injection P1 as <-.
  set (wx := {| x_disk := x_disk w1; x_calls := x_calls w1; x_trace := tr |}).
  assert (HV : vacant (x_disk wx) (path_join p n)).
  { rewrite HJ. split.
    - cbn [x_disk wx]. rewrite (log_ready_other _ _ _ _ _ P6); [exact V1|]. intros f Ef E. destruct (HL f Ef) as (_ & HL2 & _). congruence.
    - intros y. cbn [x_disk wx]. rewrite (log_ready_other _ _ _ _ _ P6); [apply V2|]. intros f Ef E.
      destruct (HL f Ef) as (_ & _ & HL3). now apply (HL3 y). }
  destruct (opened_first _ _ _ _ _ Hu HB HO Ht) as (d & Hd).
  destruct (export_file_exact _ _ _ _ p n wx d HE HF Hd HD HV) as (w2 & HX & HQ).
  destruct (export_file_log (ma_host m) rd (opened_volume o) (o_tree o) p n wx) as [[rx w2'] l] eqn:EF.
  pose proof (export_file_same (ma_host m) rd (opened_volume o) (o_tree o) p n wx) as HS. rewrite EF, Ht, HX in HS. cbn [fst] in HS.
  injection HS as -> ->.
  assert (HW : work m s p n w1 = (Ok tt, w2, l)).
  { unfold work. unfold lbind at 1. unfold quiet at 1.
    assert (HC : (match st_codepage s with
        | None => xret tt | Some c => dx _ <- xlift (ma_codepage m c); xret tt end) w1 = (Ok tt, w1)).
    { destruct (st_codepage s) as [c|]; [|reflexivity]. destruct (HCP c eq_refl) as (b & Hb).
      unfold xbind, xlift. rewrite Hb. reflexivity. }
    rewrite HC. unfold lbind at 1. unfold quiet at 1. rewrite T1, HT. fold rd. rewrite HO. fold wx. rewrite EF. reflexivity. }
  destruct (log_close m (st_log s) (concat (map line_text l)) w2) as [r3 w3] eqn:EL.
  pose proof (log_close_cases _ _ _ _ _ _ EL) as HLC.
  destruct r3 as [u3| | |]; [|destruct HLC as (_ & _ & k & Hk); now rewrite HF in Hk|destruct HLC|destruct HLC].
  exists w3, l. split; [|split].
  - unfold export_start_run, lbind, quiet. rewrite HP. rewrite HW, EL. reflexivity.
  - pose proof (export_file_plain (ma_host m) rd (opened_volume o) t p n wx HE HF HV) as HPL. rewrite Ht in EF.
    rewrite EF in HPL. exact HPL.
  - intros q x Hq. rewrite (log_done_other _ _ _ _ _ _ HLC Hq). rewrite HQ. cbn [x_disk wx].
    rewrite (log_ready_other _ _ _ _ _ P6 Hq), HJ. reflexivity.
Qed.

(** ** The command line *)

Lemma export_main_ok m fuel argv w : argv <> [] -> Forall c_word argv -> (List.length (concat argv) < fuel)%nat ->
  export_main m fuel argv w =
  match tool (text_of "c:hl:t:vV")
    (export_start (fun l => match after_separator SLASH l with Some x => x | None => l end)) (tl argv) with
  | Ok (Start s) => export_start_run m s w
  | Ok (Usage ok _) => (if ok then Ok tt else Err, w, [])
  | Ok Copyright => (Ok tt, w, [])
  | Err => (Err, w, [])
  | Undef => (Undef, w, [])
  | NoFuel => (NoFuel, w, [])
  end.
Proof.
  intros Hn Hw HF. rewrite <- (export_options_ok SLASH fuel argv Hn Hw HF). unfold export_main, lbind, quiet, xlift.
  destruct (export_options SLASH fuel argv) as [[ok x| |s]| | |]; cbn [forget]; try reflexivity.
  - destruct ok; reflexivity.
  - destruct (export_start_run m s w) as [[r w'] l]. reflexivity.
Qed.
