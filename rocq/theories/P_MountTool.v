(** C98: runs of olecfmount. *)
From Coq Require Import String ZArith List Bool Lia.
From Verif Require Import Base Spec_IO M_Header M_Table M_Load M_Stream M_Tree M_Open M_Item M_File M_Mount M_Fuse M_Dokan
  Spec_Stream Spec_Load Spec_Tree Spec_Open Spec_Content Spec_Item Spec_Mount Spec_Fuse
  L_Base L_Item L_Mount L_Fuse L_Fuse2 P_Mount P_Fuse L_Write4 L_Write6 L_Write7 X_File X_Mount X_Fuse P_Write P_SetWrite L_Write3 P_Doc Spec_Write Spec_Doc L_Doc Spec_DocMount P_File L_DocMount P_DocMount.
From Verif Require Spec_Getopt L_Getopt P_Getopt.
From Verif Require Import M_Getopt M_MountTool Spec_MountTool L_MountTool.
Import ListNotations.
Open Scope Z_scope.

(** * Lemmas *)

Lemma serving_dec ho st o time : handle_made ho st time -> source_opens ho (st_source st) o ->
  fuse_starts ho st \/ ~ fuse_starts ho st.
Proof.
  intros _ _. unfold fuse_starts. destruct (mh_memory ho BFuse), (mh_mount ho); try (right; intros (_ & H1 & H2 & _); discriminate).
  destruct (st_extended st), (mh_add_arg ho 0), (mh_add_arg ho 1), (mh_add_arg ho 2), (st_verbose st), (mh_daemonize ho);
  try (right; intros (H1 & _ & _ & H4); try (destruct (H1 ltac:(discriminate)) as (? & ? & ?)); try (pose proof (H4 eq_refl)); discriminate);
  left; repeat split; congruence.
Qed.

Lemma source_one ho name o o' : source_opens ho name o -> source_opens ho name o' -> o = o'.
Proof. intros (_ & _ & _ & t & H) (_ & _ & _ & t' & H'). congruence. Qed.
Lemma time_one ho st t t' : handle_made ho st t -> handle_made ho st t' -> t = t'.
Proof. intros (_ & _ & H & _) (_ & _ & H' & _). congruence. Qed.

(** The three ways a run with FUSE can go. *)
Lemma fuse_ways ho three st w : host_ok ho ->
  (exists o time x w', serving ho st o time /\ w_own w' = w_own w + 1 /\
     let (rs, u) := fuse_run (served ho o time) (mh_calls ho) fuse_start in
     M_MountTool.mount_start ho (fuse_build three) st (tool_start w) =
     (Ok (mh_loop ho =? 0),
      state_with (left_handle ho) w' (if (mh_loop ho =? 0) && Nat.eqb (mh_destroys ho) 0 then Some {| fy_time := time; fy_file := Some x |} else None)
        [] false (fu_live u) (fuse_actions ho three st rs))) \/
  ((~ exists o time, serving ho st o time) /\
   exists l y w' live, M_MountTool.mount_start ho (fuse_build three) st (tool_start w) =
     (Ok false, state_with live w' None [] false 0 (l ++ [Message y])) /\ Forall (fun x => ~ calls_back x) l /\
     (((exists o time, handle_made ho st time /\ source_opens ho (st_source st) o) /\ live = [BFile] /\ w_own w' = w_own w + 1) \/
      ((~ exists o time, handle_made ho st time /\ source_opens ho (st_source st) o) /\ live = [] /\ w_own w' = w_own w))).
Proof.
  intros HK.
  assert (W : Forall (fun x => ~ calls_back x) (warnings ho st)).
  { unfold warnings. destruct (st_codepage st) as [c|]; [|constructor]. destruct (mh_codepage ho c) as [[|]| | |]; repeat constructor. intros []. }
  destruct (begins ho HK (fuse_build three) st w) as [(time & o & x & w' & H1 & H2 & H3 & H4 & _ & H5)|(H & l & y & w' & H1 & H2 & H3 & _)].
  - replace (system_part ho (fuse_build three) st) with (run_fuse ho three st) in H5 by (destruct three; reflexivity).
    destruct (serving_dec ho st o time H1 H2) as [F|F].
    + left. exists o, time, x, w'. split; [split; [exact H1|split; [exact H2|exact F]]|]. split; [exact H4|].
      destruct (fuse_run (served ho o time) (mh_calls ho) fuse_start) as [rs u] eqn:E.
      rewrite H5. rewrite (run_fuse_serving ho three st w' time x _ _ rs u (H3 _) E F). reflexivity.
    + right. split; [intros (o' & t' & _ & _ & C); auto|].
      destruct (run_fuse_not ho three st w' time x (warnings ho st) F) as (l & y & R1 & R2).
      exists (warnings ho st ++ l), y, w', [BFile]. rewrite H5, R1. split; [now rewrite app_assoc|].
      split; [apply Forall_app; auto|]. left. split; [eauto|auto].
  - right. split; [intros (o & t & C1 & C2 & _); apply H; eauto|].
    exists l, y, w', []. split; [exact H1|]. split; [destruct H2; subst l; [constructor|exact W]|].
    right. split; [intros (o & t & C1 & C2); apply H; eauto|auto].
Qed.

Ltac other HI := unfold unknown_codepage in HI; cbn [In] in HI;
  repeat match type of HI with _ \/ _ => destruct HI as [HI|HI] end; try discriminate HI; try contradiction HI.

(** The answers come one after the other. *)
Lemma run_app m a : forall b s, fuse_run m (a ++ b) s =
  (fst (fuse_run m a s) ++ fst (fuse_run m b (snd (fuse_run m a s))), snd (fuse_run m b (snd (fuse_run m a s)))).
Proof.
  induction a as [|[rd op] a IH]; intros b s; cbn [fuse_run List.app].
  - cbn [fst snd List.app]. apply surjective_pairing.
  - destruct (fuse_step rd m op s) as [r s1]. rewrite IH. destruct (fuse_run m a s1) as [rs s2]. reflexivity.
Qed.
Lemma run_length m a : forall s, length (fst (fuse_run m a s)) = length a.
Proof.
  induction a as [|[rd op] a IH]; intros s; cbn [fuse_run]; [reflexivity|].
  destruct (fuse_step rd m op s) as [r s1]. specialize (IH s1). destruct (fuse_run m a s1). cbn in *. congruence.
Qed.
Lemma run_at m a rd op b s :
  nth_error (fst (fuse_run m (a ++ (rd, op) :: b) s)) (length a) = Some (fst (fuse_step rd m op (snd (fuse_run m a s)))).
Proof.
  rewrite run_app. cbn [fst fuse_run]. rewrite nth_error_app2 by (rewrite run_length; lia). rewrite run_length, Nat.sub_diag.
  destruct (fuse_step rd m op _) as [r s1]. destruct (fuse_run m b s1). reflexivity.
Qed.

Lemma loop_answers ho three st w b s o time answers : host_ok ho ->
  M_MountTool.mount_start ho (fuse_build three) st (tool_start w) = (Ok b, s) -> serving ho st o time ->
  In (FuseLoop answers) (tl_actions s) -> answers = fst (fuse_run (served ho o time) (mh_calls ho) fuse_start).
Proof.
  intros HK E HS HI. destruct (fuse_ways ho three st w HK) as [(o' & t' & x & w' & F1 & _ & F2)|(F & _)].
  - assert (o' = o) by (destruct HS as (_ & H1 & _), F1 as (_ & H2 & _); exact (source_one _ _ _ _ H2 H1)). subst o'.
    assert (t' = time) by (destruct HS as (H1 & _), F1 as (H2 & _); exact (time_one _ _ _ _ H2 H1)). subst t'.
    destruct (fuse_run _ _ _) as [rs u]. rewrite E in F2. apply pair_equal_spec in F2 as (_ & ->).
    cbn [tl_actions state_with fst] in *. unfold fuse_actions, warnings in HI.
    repeat (apply in_app_or in HI as [HI|HI]).
    + exfalso. destruct (st_codepage st) as [c|]; [|destruct HI]. destruct (mh_codepage ho c) as [[|]| | |]; other HI.
    + exfalso. destruct three; other HI.
    + exfalso. destruct (st_verbose st); other HI.
    + cbn in HI. destruct HI as [HI|[]]. congruence.
    + exfalso. destruct (mh_loop ho =? 0); other HI.
  - exfalso. apply F. eauto.
Qed.

(** * Theorems *)

(** The exit status is success if the loop was run and ended without an error,
    and only then. *)
Theorem C98_exit :
  forall ho three st w, host_ok ho ->
    exists b s, M_MountTool.mount_start ho (fuse_build three) st (tool_start w) = (Ok b, s) /\
      (b = true <-> mh_loop ho = 0 /\ exists o time, serving ho st o time).
Proof.
  intros ho three st w HK. destruct (fuse_ways ho three st w HK) as [(o & t & x & w' & F1 & _ & F2)|(F & l & y & w' & live & F1 & _)].
  - destruct (fuse_run _ _ _) as [rs u]. rewrite F2. do 2 eexists. split; [reflexivity|]. rewrite Z.eqb_eq. split; [|tauto]. intros H. split; [exact H|eauto].
  - rewrite F1. do 2 eexists. split; [reflexivity|]. split; [discriminate|]. intros (_ & H). contradiction.
Qed.
Print Assumptions C98_exit.

(** What the tool does, and how many file entries stay allocated; when the loop
    is not reached the last thing is a line that tells, and no callback is
    called. *)
Theorem C98_actions :
  forall ho three st w b s, host_ok ho ->
    M_MountTool.mount_start ho (fuse_build three) st (tool_start w) = (Ok b, s) ->
    (forall o time, serving ho st o time ->
       tl_actions s = fuse_actions ho three st (fst (fuse_run (served ho o time) (mh_calls ho) fuse_start)) /\
       tl_entries s = fu_live (snd (fuse_run (served ho o time) (mh_calls ho) fuse_start))) /\
    ((~ exists o time, serving ho st o time) ->
       tl_entries s = 0 /\ exists l y, tl_actions s = l ++ [Message y] /\ Forall (fun x => ~ calls_back x) l).
Proof.
  intros ho three st w b s HK E. destruct (fuse_ways ho three st w HK) as [(o & t & x & w' & F1 & _ & F2)|(F & l & y & w' & live & F1 & F2 & _)].
  - split; [|intros H; exfalso; eauto]. intros o' t' HS.
    assert (o' = o) by (destruct HS as (_ & H1 & _), F1 as (_ & H2 & _); exact (source_one _ _ _ _ H1 H2)). subst o'.
    assert (t' = t) by (destruct HS as (H1 & _), F1 as (H2 & _); exact (time_one _ _ _ _ H1 H2)). subst t'.
    destruct (fuse_run _ _ _) as [rs u]. rewrite E in F2. apply pair_equal_spec in F2 as (_ & ->). split; reflexivity.
  - split; [intros o t H; exfalso; eauto|]. intros _. rewrite E in F1. apply pair_equal_spec in F1 as (_ & ->). split; [reflexivity|].
    exists l, y. split; [reflexivity|exact F2].
Qed.
Print Assumptions C98_actions.

(** What is freed: all that the tool allocated, once; but the file object and
    its handle of libbfio stay when the source was opened, and the mount handle
    when FUSE ends well without a call of destroy. *)
Theorem C98_released :
  forall ho three st w b s, host_ok ho ->
    M_MountTool.mount_start ho (fuse_build three) st (tool_start w) = (Ok b, s) ->
    let opened := exists o time, handle_made ho st time /\ source_opens ho (st_source st) o in
    NoDup (tl_live s) /\ ~ In BFuse (tl_live s) /\ ~ In BArguments (tl_live s) /\
    (In BHandle (tl_live s) <-> b = true /\ mh_destroys ho = O) /\
    (In BFileSystem (tl_live s) <-> b = true /\ mh_destroys ho = O) /\
    (In BFile (tl_live s) <-> opened) /\
    (opened -> w_own (tl_world s) = w_own w + 1) /\ (~ opened -> w_own (tl_world s) = w_own w).
Proof.
  intros ho three st w b s HK E. cbv zeta.
  destruct (fuse_ways ho three st w HK) as [(o & t & x & w' & F1 & F3 & F2)|(F & l & y & w' & live & F1 & F2 & F3)].
  - destruct (fuse_run _ _ _) as [rs u]. rewrite E in F2. apply pair_equal_spec in F2 as (F2 & ->). apply Ok_inj in F2. subst b.
    cbn [tl_live tl_world state_with]. unfold left_handle.
    assert (O : exists o time, handle_made ho st time /\ source_opens ho (st_source st) o) by (destruct F1 as (G1 & G2 & _); eauto).
    destruct (mh_loop ho =? 0) eqn:EL, (mh_destroys ho) eqn:ED; cbn [Nat.eqb andb].
    + split; [repeat constructor; cbn; intuition discriminate|]. cbn [In]. intuition discriminate.
    + split; [repeat constructor; cbn; intuition discriminate|]. cbn [In]. intuition discriminate.
    + split; [repeat constructor; cbn; intuition discriminate|]. cbn [In]. intuition discriminate.
    + split; [repeat constructor; cbn; intuition discriminate|]. cbn [In]. intuition discriminate.
  - rewrite E in F1. apply pair_equal_spec in F1 as (F1 & ->). apply Ok_inj in F1. subst b. cbn [tl_live tl_world state_with].
    destruct F3 as [(O & -> & W)|(O & -> & W)]; (split; [repeat constructor; cbn; intuition discriminate|]); cbn [In]; intuition discriminate.
Qed.
Print Assumptions C98_released.

(** A run with Dokan: it is a success whatever DokanMain answers, and nothing
    is freed. *)
Theorem C98_dokan :
  forall ho b st w, host_ok ho ->
    (forall o time, handle_made ho st time -> source_opens ho (st_source st) o ->
       exists s, M_MountTool.mount_start ho (Dokan b) st (tool_start w) = (Ok true, s) /\
         (exists l, tl_actions s = warnings ho st ++
            DokanMain (st_mount_point st) (fst (dokan_run b (served ho o time) (mh_dokan_calls ho) dokan_start)) :: l /\
            (mh_dokan_result ho = 0 -> l = []) /\
            (mh_dokan_result ho <> 0 -> exists y, l = [Message (text_of "Unable to run dokan main: " ++ y)])) /\
         tl_live s = [BFile; BFileSystem; BHandle] /\ w_own (tl_world s) = w_own w + 1) /\
    ((~ exists o time, handle_made ho st time /\ source_opens ho (st_source st) o) ->
       exists s, M_MountTool.mount_start ho (Dokan b) st (tool_start w) = (Ok false, s) /\ tl_live s = [] /\
         w_own (tl_world s) = w_own w /\ exists l y, tl_actions s = l ++ [Message y] /\ Forall (fun x => ~ calls_back x) l).
Proof.
  intros ho b st w HK.
  destruct (begins ho HK (Dokan b) st w) as [(time & o & x & w' & H1 & H2 & H3 & H4 & _ & H5)|(H & l & y & w' & H1 & H2 & H3 & _)].
  - split; [|intros C; exfalso; eauto]. intros o' t' G1 G2.
    assert (o' = o) by exact (source_one _ _ _ _ G2 H2). assert (t' = time) by exact (time_one _ _ _ _ G1 H1). subst o' t'.
    rewrite H5. cbn [system_part]. unfold with_on_error, run_dokan. rewrite H3.
    destruct (dokan_run b (served ho o time) (mh_dokan_calls ho) dokan_start) as [rs u]. cbn [fst].
    unfold tbind, act, tret, set_entries, ready, state_with. cbn [tl_actions tl_live tl_world].
    assert (D : mh_dokan_result ho = 0 /\ dokan_message (mh_dokan_result ho) = None \/
                mh_dokan_result ho <> 0 /\ exists y, dokan_message (mh_dokan_result ho) = Some (text_of "Unable to run dokan main: " ++ y)).
    { unfold dokan_message. destruct (Z.eqb_spec (mh_dokan_result ho) 0) as [D|D]; [left; auto|right; split; [exact D|]].
      repeat match goal with |- context [if ?r =? ?n then Some _ else _] => destruct (r =? n); [eexists; reflexivity|] end.
      exists (text_of "unknown error: " ++ (if mh_dokan_result ho <? 0 then [45] else []) ++ M_Export.decimal 10 (Z.abs (mh_dokan_result ho))).
      rewrite app_assoc. reflexivity. }
    destruct D as [(D1 & D2)|(D1 & y & D2)]; rewrite D2; eexists; (split; [reflexivity|]); cbn [tl_actions tl_live tl_world].
    + split; [|split; [reflexivity|exact H4]]. exists []. split; [reflexivity|]. split; [reflexivity|contradiction].
    + split; [|split; [reflexivity|exact H4]]. eexists. rewrite <- app_assoc. split; [reflexivity|]. split; [contradiction|]. intros _. eauto.
  - split; [intros o t C1 C2; exfalso; apply H; eauto|]. intros _. rewrite H1. eexists. split; [reflexivity|]. cbn [tl_live tl_world tl_actions state_with].
    split; [reflexivity|]. split; [exact H3|]. exists l, y. split; [reflexivity|].
    destruct H2; subst l; [constructor|]. unfold warnings. destruct (st_codepage st) as [c|]; [|constructor].
    destruct (mh_codepage ho c) as [[|]| | |]; repeat constructor. intros [].
Qed.
Print Assumptions C98_dokan.

(** Without a library there is only a failure that is told. *)
Theorem C98_none :
  forall ho st w, host_ok ho ->
    exists s l y, M_MountTool.mount_start ho NoSystem st (tool_start w) = (Ok false, s) /\
      tl_actions s = l ++ [Message y] /\ Forall (fun x => ~ calls_back x) l.
Proof.
  intros ho st w HK.
  assert (W : Forall (fun x => ~ calls_back x) (warnings ho st)).
  { unfold warnings. destruct (st_codepage st) as [c|]; [|constructor]. destruct (mh_codepage ho c) as [[|]| | |]; repeat constructor. intros []. }
  destruct (begins ho HK NoSystem st w) as [(time & o & x & w' & H1 & H2 & H3 & H4 & _ & H5)|(H & l & y & w' & H1 & H2 & H3 & _)].
  - rewrite H5. cbn. do 3 eexists. split; [reflexivity|]. cbn [tl_actions]. split; [reflexivity|exact W].
  - rewrite H1. do 3 eexists. split; [reflexivity|]. cbn [tl_actions state_with]. split; [reflexivity|]. destruct H2; subst l; [constructor|exact W].
Qed.
Print Assumptions C98_none.

(** The option -c changes nothing but that it can be refused or warned of. *)
Theorem C98_codepage :
  forall ho three st w c b s s0 b0, host_ok ho ->
    M_MountTool.mount_start ho (fuse_build three) (with_codepage st c) (tool_start w) = (Ok b, s) ->
    M_MountTool.mount_start ho (fuse_build three) (with_codepage st None) (tool_start w) = (Ok b0, s0) ->
    (forall x, c = Some x -> mh_codepage ho x <> Err) -> (exists o time, serving ho (with_codepage st None) o time) ->
    b = b0 /\ tl_live s = tl_live s0 /\ w_own (tl_world s) = w_own (tl_world s0) /\ tl_entries s = tl_entries s0 /\
    tl_actions s = warnings ho (with_codepage st c) ++ tl_actions s0.
Proof.
  intros ho three st w c b s s0 b0 HK E E0 HC (o & t & HS).
  assert (HS' : serving ho (with_codepage st c) o t).
  { destruct HS as ((A1 & A2 & A3 & _) & B & C). split; [|split; [exact B|exact C]]. split; [exact A1|]. split; [exact A2|]. split; [exact A3|exact HC]. }
  destruct (fuse_ways ho three (with_codepage st c) w HK) as [(o1 & t1 & x1 & w1 & F1 & F3 & F2)|(F & _)]; [|exfalso; eauto].
  destruct (fuse_ways ho three (with_codepage st None) w HK) as [(o2 & t2 & x2 & w2 & G1 & G3 & G2)|(F & _)]; [|exfalso; eauto].
  assert (o1 = o) by (destruct HS' as (_ & H1 & _), F1 as (_ & H2 & _); exact (source_one _ _ _ _ H2 H1)). subst o1.
  assert (t1 = t) by (destruct HS' as (H1 & _), F1 as (H2 & _); exact (time_one _ _ _ _ H2 H1)). subst t1.
  assert (o2 = o) by (destruct HS as (_ & H1 & _), G1 as (_ & H2 & _); exact (source_one _ _ _ _ H2 H1)). subst o2.
  assert (t2 = t) by (destruct HS as (H1 & _), G1 as (H2 & _); exact (time_one _ _ _ _ H2 H1)). subst t2.
  destruct (fuse_run _ _ _) as [rs u]. rewrite E in F2. rewrite E0 in G2.
  apply pair_equal_spec in F2 as (F2 & ->). apply pair_equal_spec in G2 as (G2 & ->). apply Ok_inj in F2. apply Ok_inj in G2.
  cbn [tl_live tl_world tl_entries tl_actions state_with]. do 4 (split; [congruence|]). reflexivity.
Qed.
Print Assumptions C98_codepage.

(** ** Mounted documents *)

(** The mount of a source that holds a document is one of the document. *)
Theorem C98_mounts :
  forall ho st o time h root doc chars,
    serving ho st o time ->
    holds (mh_una ho) (ev_reader (mh_file ho (st_source st))) h root doc ->
    mount_ok (served ho o time) ->
    names_ok (fun n => path_name (chars n) /\
      exists l, mh_name ho n (fh_byte_order h) = Some l /\ text (mh_codec ho) (chars n) l /\ zlen l <= 922337203685477580)
      (doc_items doc) ->
    (forall cs l, path_name cs -> text (mh_codec ho) cs l ->
      names_ok (fun n => una_utf8_compare (mh_una ho) l n (fh_byte_order h) = Ok (same_list cs (chars n))) (doc_items doc)) ->
    mounts (served ho o time) (ev_reader (mh_file ho (st_source st))) h root doc chars.
Proof.
  intros ho st o time h root doc chars (_ & (_ & _ & _ & t & HO) & _) H1 H2 H3 H4. constructor; try assumption.
  intros o' t' H. cbn [served mt_una mt_volume mt_tree] in *. assert (o' = o) by congruence. subst o'. split; reflexivity.
Qed.
Print Assumptions C98_mounts.

(** What getattr answers in the loop, at any time. *)
Theorem C98_getattr :
  forall ho three st w b s o time rd h root doc chars answers before r path after css,
    host_ok ho -> M_MountTool.mount_start ho (fuse_build three) st (tool_start w) = (Ok b, s) ->
    serving ho st o time -> mounts (served ho o time) rd h root doc chars ->
    In (FuseLoop answers) (tl_actions s) ->
    mh_calls ho = before ++ (r, FuGetattr path) :: after ->
    mount_path_of (served ho o time) css path ->
    match reached doc (fun q n => same_list q (chars n)) Top css with
    | Some p => timely doc p ->
        exists x, nth_error answers (length before) = Some (RStat x) /\ looks (served ho o time) root doc p x
    | None => nth_error answers (length before) = Some (RErrno ENOENT)
    end.
Proof.
  intros ho three st w b s o time rd h root doc chars answers before r path after css HK E HS HM HI HC HP.
  rewrite (loop_answers ho three st w b s o time answers HK E HS HI), HC, run_at. cbn [fuse_step fst].
  pose proof (C83_getattr _ _ _ _ _ _ _ _ HM HP) as G. destruct (reached doc _ Top css) as [p|].
  - intros Ht. destruct (G Ht) as (x & G1 & G2). exists x. rewrite G1. split; [reflexivity|exact G2].
  - rewrite G. reflexivity.
Qed.
Print Assumptions C98_getattr.

(** A file that is opened in the loop and read later, with any calls between:
    the bytes of the stream. *)
Theorem C98_read :
  forall ho three st w b s o time rd h root doc chars answers before r path flags between k size offset after css n c t bytes,
    host_ok ho -> M_MountTool.mount_start ho (fuse_build three) st (tool_start w) = (Ok b, s) ->
    serving ho st o time -> mounts (served ho o time) rd h root doc chars ->
    In (FuseLoop answers) (tl_actions s) ->
    mh_calls ho = before ++ (r, FuOpen path flags) :: between ++ (rd, FuRead k size offset) :: after ->
    mount_path_of (served ho o time) css path ->
    reached doc (fun q n => same_list q (chars n)) Top css = Some (At (Stream n c t bytes)) ->
    Z.land flags 3 = 0 ->
    exists k', nth_error answers (length before) = Some (RHandle k') /\
      (k = k' -> keeps_open k between -> 0 <= offset -> 0 < size <= INT_MAX ->
       4 <= fh_short_sector_size h \/ size <= 1073741824 ->
       nth_error answers (length before + S (length between)) = Some (RBytes (slice bytes offset size))).
Proof.
  intros ho three st w b s o time rd h root doc chars answers before r path flags between k size offset after css n c t bytes HK E HS HM HI HC HP HR HF.
  rewrite (loop_answers ho three st w b s o time answers HK E HS HI), HC, run_at.
  destruct (C83_read _ _ _ _ _ _ _ _ _ _ _ _ HM HP HR) as (f & F1 & F2 & _).
  set (m := served ho o time) in *. set (s0 := snd (fuse_run m before fuse_start)).
  assert (O : exists k' s1, fuse_step r m (FuOpen path flags) s0 = (RHandle k', s1)).
  { cbn [fuse_step]. rewrite HF. cbn [Z.eqb negb]. unfold open_handle. rewrite F1. eauto. }
  destruct O as (k' & s1 & O). exists k'. rewrite O. split; [reflexivity|]. intros <- HO H0 HZ Hfew.
  change (before ++ (r, FuOpen path flags) :: between ++ (rd, FuRead k size offset) :: after) with
    (before ++ [(r, FuOpen path flags)] ++ (between ++ (rd, FuRead k size offset) :: after)).
  rewrite 2 app_assoc. replace (length before + S (length between))%nat with (length ((before ++ [(r, FuOpen path flags)]) ++ between)) by (rewrite !app_length; cbn; lia).
  rewrite run_at. rewrite run_app. cbn [snd].
  assert (S1 : snd (fuse_run m (before ++ [(r, FuOpen path flags)]) fuse_start) = s1).
  { rewrite run_app. cbn [fuse_run]. fold s0. rewrite O. reflexivity. }
  rewrite S1. destruct (fuse_run m between s1) as [rs s2] eqn:ER. cbn [snd].
  destruct (C57_answers r m _ s0 k s1 path between rs s2 (or_introl (ex_intro _ flags eq_refl)) O HO ER) as (f' & A1 & A2 & _).
  rewrite A2. assert (f' = f) by congruence. subst f'. rewrite (F2 size offset H0 HZ Hfew). reflexivity.
Qed.
Print Assumptions C98_read.

(** ** The command line *)

(** The whole of main. *)
Theorem C98_main :
  forall ho sys fuel argv w,
    argv <> [] -> Forall Spec_Getopt.c_word argv -> (List.length (concat argv) < fuel)%nat -> ~ In [45] (tl argv) ->
    let says t := state_with [] w None [] false 0 [Message (text_of t)] in
    if mh_locale ho then
      if mh_output ho then
        match Spec_Getopt.tool (text_of "c:hvVX:") Spec_Getopt.mount_start (tl argv) with
        | Ok (Start st) => mount_main ho sys fuel argv (tool_start w) = M_MountTool.mount_start ho sys st (tool_start w)
        | Ok (Usage ok _) => mount_main ho sys fuel argv (tool_start w) = (Ok ok, tool_start w)
        | Ok Copyright => mount_main ho sys fuel argv (tool_start w) = (Ok true, tool_start w)
        | _ => False
        end
      else mount_main ho sys fuel argv (tool_start w) = (Ok false, says "Unable to initialize output settings."%string)
    else mount_main ho sys fuel argv (tool_start w) = (Ok false, says "Unable to initialize locale values."%string).
Proof.
  intros ho sys fuel argv w H1 H2 H3 H4. cbv zeta. unfold mount_main.
  destruct (mh_locale ho) eqn:EL.
  2:{ rewrite (on_error_err ho _ _ _ _ (or_else_says _ _ _ _ (eq_refl : check false (tool_start w) = (Err, tool_start w)))). reflexivity. }
  rewrite (on_error_ok ho _ _ _ _ _ (or_else_ok _ _ _ _ _ (eq_refl : check true (tool_start w) = (Ok tt, tool_start w)))).
  destruct (mh_output ho) eqn:EO.
  2:{ rewrite (on_error_err ho _ _ _ _ (or_else_says _ _ _ _ (eq_refl : check false (tool_start w) = (Err, tool_start w)))). reflexivity. }
  rewrite (on_error_ok ho _ _ _ _ _ (or_else_ok _ _ _ _ _ (eq_refl : check true (tool_start w) = (Ok tt, tool_start w)))).
  rewrite <- (L_Getopt.mount_options_ok fuel argv H1 H2 H3).
  destruct (P_Getopt.C74_decides 47 fuel argv H1 H2 H3 H4) as (_ & _ & r & Hr). rewrite Hr.
  rewrite (on_error_ok ho (fun s => (Ok r, s)) _ (tool_start w) r (tool_start w) eq_refl).
  destruct r as [ok x| |st]; reflexivity.
Qed.
Print Assumptions C98_main.

(** * Cases *)

(** olecfmount /f /m on the document of C81; FUSE asks for the attributes of
    "/b/d", opens it, reads 4 bytes at 2 and closes it. *)
Definition xt_reader : reader := file_reader (write (xw_format Little) xs_doc).
Definition xt_host (loop : Z) (destroys : nat) (memory : block -> bool) (dokan : Z) : mount_host :=
  {| mh_locale := true; mh_output := true; mh_memory := memory; mh_clock := Some 1700000000123456789;
     mh_codepage := fun c => Ok (match c with [] => false | _ => true end);
     mh_file := fun _ => good_env (write (xw_format Little) xs_doc);
     mh_una := xm_una; mh_codec := utf8; mh_name := xm_name;
     mh_add_arg := fun _ => true; mh_mount := true; mh_daemonize := true;
     mh_calls := [(xt_reader, FuGetattr [47; 98; 47; 100]); (xt_reader, FuOpen [47; 98; 47; 100] 0);
                  (xt_reader, FuRead 0 4 2); (xt_reader, FuRelease 0)];
     mh_loop := loop; mh_destroys := destroys; mh_dokan_calls := []; mh_dokan_result := dokan |}.
Definition xt_settings (x : option (list Z)) : settings :=
  {| st_allocation := false; st_codepage := Some []; st_log := None; st_target := None; st_extended := x;
     st_verbose := false; st_source := [47; 102]; st_mount_point := [47; 109] |}.

Lemma xt_ok loop destroys memory dokan : host_ok (xt_host loop destroys memory dokan).
Proof.
  constructor.
  - exact xm_una_ok.
  - intros n. change (io_bytes (file_reader (write (xw_format Little) xs_doc))). apply file_reader_bytes. destruct (C81_document_case Little) as (H1 & _). exact (write_bytes (xw_format Little) xs_doc H1).
  - intros c. right. eexists. reflexivity.
Qed.

Lemma xt_serving loop destroys x dokan o t : xd_open = (Ok o, t) ->
  serving (xt_host loop destroys (fun _ => true) dokan) (xt_settings x) o 1700000000123456789.
Proof.
  intros E. split; [|split].
  - split; [reflexivity|]. split; [reflexivity|]. split; [reflexivity|]. intros c _. discriminate.
  - split; [reflexivity|]. split; [reflexivity|]. split; [reflexivity|]. exists t. exact E.
  - split; [intros _; split; [reflexivity|split; reflexivity]|]. split; [reflexivity|]. split; [reflexivity|reflexivity].
Qed.

Definition xt_warning : action := Message (text_of "Unsupported ASCII codepage defaulting to: windows-1252.").
Definition xt_bytes : list Z := slice (Spec_SetWrite.set_written Little xs_set) 2 4.
Definition xt_words : list (list Z) := [text_of "olecfmount"; []; text_of "-o"; text_of "allow_other"].

Lemma xt_shape (r : res bool * tool) :
  match r with
  | (Ok true, s) =>
      match tl_actions s with
      | [a1; a2; a3; a4; FuseLoop [RStat x; r2; r3; r4]] =>
          [a1; a2; a3; a4] = [xt_warning; FuseNew xt_words; FuseMount [47; 109]; Daemonize] /\
          [r2; r3; r4] = [RHandle 0; RBytes xt_bytes; RDone] /\ st_size x = 360 /\ tl_live s = [BFile] /\ tl_entries s = 0
      | _ => False
      end
  | _ => False
  end ->
  exists s x, r = (Ok true, s) /\
    tl_actions s = [xt_warning; FuseNew xt_words; FuseMount [47; 109]; Daemonize; FuseLoop [RStat x; RHandle 0; RBytes xt_bytes; RDone]] /\
    st_size x = 360 /\ tl_live s = [BFile] /\ tl_entries s = 0.
Proof.
  generalize xt_warning, xt_words, xt_bytes. intros y ws bs. destruct r as [[[|]| | |] s]; intros C; try (exfalso; exact C).
  destruct (tl_actions s) as [|a1 [|a2 [|a3 [|a4 [|a5 [|a6 l]]]]]] eqn:EA; try (exfalso; exact C); destruct a5; try (exfalso; exact C);
    destruct answers as [|r1 [|r2 [|r3 [|r4 [|r5 l']]]]]; try (exfalso; exact C); destruct r1 as [x| | | | | | |]; try (exfalso; exact C).
  destruct C as (C1 & C2 & C3 & C4 & C5). exists s, x. split; [reflexivity|]. split; [|auto].
  injection C1 as -> -> -> ->. injection C2 as -> -> ->. exact EA.
Qed.

Example C98_case :
  exists o t, xd_open = (Ok o, t) /\
    let ho := xt_host 0 1 (fun _ => true) 0 in
    host_ok ho /\ serving ho (xt_settings (Some (text_of "allow_other"))) o 1700000000123456789 /\
    served ho o 1700000000123456789 = xm_mounted o /\
    mounts (served ho o 1700000000123456789) xt_reader (w_h (xw_format Little) xs_doc) (w_root (xw_format Little) xs_doc) xs_doc xd_chars /\
    exists s x, M_MountTool.mount_start ho Fuse3 (xt_settings (Some (text_of "allow_other"))) (tool_start no_world) = (Ok true, s) /\
      tl_actions s = [xt_warning; FuseNew xt_words; FuseMount [47; 109]; Daemonize; FuseLoop [RStat x; RHandle 0; RBytes xt_bytes; RDone]] /\
      st_size x = 360 /\ tl_live s = [BFile] /\ tl_entries s = 0.
Proof.
  destruct C83_case as (o & t & E & _). exists o, t. split; [exact E|]. cbv zeta.
  split; [apply xt_ok|]. split; [exact (xt_serving _ _ _ _ o t E)|]. split; [reflexivity|]. split; [exact (xd_mounts o t E)|].
  apply xt_shape. vm_compute. repeat split; reflexivity.
Qed.

(** FUSE cannot be started: no memory for its handle. *)
Definition xt_no_fuse (b : block) : bool := match b with BFuse => false | _ => true end.
Example C98_not_case :
  let ho := xt_host 0 1 xt_no_fuse 0 in
  host_ok ho /\ (~ exists o time, serving ho (xt_settings None) o time) /\
  (let (r, s) := M_MountTool.mount_start ho Fuse2 (xt_settings None) (tool_start no_world) in
   r = Ok false /\ tl_live s = [BFile] /\ tl_actions s =
     [xt_warning; FuseMount [47; 109]; FuseNew []; Message (text_of "Unable to create fuse handle.")]).
Proof.
  cbv zeta. split; [apply xt_ok|]. split; [intros (o & time & _ & _ & _ & H & _); discriminate H|]. vm_compute. repeat split; reflexivity.
Qed.

(** Finding: the tool never closes the source; after a run that ended well the
    file object and its handle of libbfio are still there. *)
Theorem C98_source_refuted :
  exists ho st w s, host_ok ho /\ M_MountTool.mount_start ho Fuse2 st (tool_start w) = (Ok true, s) /\
    In BFile (tl_live s) /\ w_own (tl_world s) <> w_own w.
Proof.
  destruct C83_case as (o & t & E & _). exists (xt_host 0 1 (fun _ => true) 0), (xt_settings None), no_world.
  pose proof (xt_ok 0 1 (fun _ => true) 0) as HK. pose proof (xt_serving 0 1 None 0 o t E) as HS.
  revert HK HS. generalize (xt_host 0 1 (fun _ => true) 0) (xt_settings None) (eq_refl : mh_loop (xt_host 0 1 (fun _ => true) 0) = 0).
  intros ho st HL HK HS. destruct (C98_exit ho false st no_world HK) as (b & s & H1 & H2). assert (b = true) by (apply H2; eauto). subst b.
  destruct (C98_released ho false st no_world true s HK H1) as (_ & _ & _ & _ & _ & R1 & R2 & _).
  destruct HS as (S1 & S2 & _). exists s. split; [exact HK|]. split; [exact H1|]. split; [apply R1; eauto|]. rewrite R2 by eauto. cbn. discriminate.
Qed.
Print Assumptions C98_source_refuted.

(** Finding: the exit status is success when DokanMain fails. *)
Theorem C98_dokan_refuted :
  exists ho st w s, host_ok ho /\ mh_dokan_result ho = -3 /\
    M_MountTool.mount_start ho (Dokan {| db_long_paths := false; db_old := true |}) st (tool_start w) = (Ok true, s).
Proof.
  destruct C83_case as (o & t & E & _). exists (xt_host 0 1 (fun _ => true) (-3)), (xt_settings None), no_world.
  pose proof (xt_ok 0 1 (fun _ => true) (-3)) as HK. destruct (xt_serving 0 1 None (-3) o t E) as (S1 & S2 & _).
  destruct (proj1 (C98_dokan _ {| db_long_paths := false; db_old := true |} _ no_world HK) o _ S1 S2) as (s & H & _).
  exists s. split; [exact HK|]. split; [reflexivity|exact H].
Qed.
Print Assumptions C98_dokan_refuted.

(** The command line of the run of C98_case. *)
Example C98_main_case :
  let argv := [text_of "olecfmount"; text_of "-X"; text_of "allow_other"; [47; 102]; [47; 109]] in
  Forall Spec_Getopt.c_word argv /\ ~ In [45] (tl argv) /\
  exists st, Spec_Getopt.tool (text_of "c:hvVX:") Spec_Getopt.mount_start (tl argv) = Ok (Start st) /\
    st_source st = [47; 102] /\ st_mount_point st = [47; 109] /\ st_extended st = Some (text_of "allow_other").
Proof.
  cbv zeta. split; [|split].
  - unfold Spec_Getopt.c_word. repeat constructor; cbn; intros; intuition (try discriminate; lia).
  - cbn. intuition discriminate.
  - eexists. split; [vm_compute; reflexivity|]. split; [reflexivity|]. split; reflexivity.
Qed.
