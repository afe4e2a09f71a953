(** Lemmas on runs of olecfmount. *)
From Coq Require Import String ZArith List Bool Lia.
From Verif Require Import Base Spec_IO M_Table M_Header M_Load M_Stream M_Tree M_Open M_Item M_File M_Mount M_Fuse M_Dokan
  Spec_Tree M_Getopt L_Open2 L_File M_MountTool Spec_MountTool.
Import ListNotations.
Open Scope Z_scope.

(** ** The file *)

Lemma fresh_read u rd : una_ok u -> io_bytes rd ->
  (exists o t, open_read u rd [] = (Ok o, t) /\ fst (file_open_read u rd io_clear None) = Ok (data_of o) /\
     io_shows (snd (file_open_read u rd io_clear None)) o /\
     (o_tree o = None -> io_start (snd (file_open_read u rd io_clear None)) = 0)) \/
  (exists t, open_read u rd [] = (Err, t) /\ fst (file_open_read u rd io_clear None) = Err).
Proof.
  intros Hu HB. destruct (file_open_read_ok u rd io_clear Hu HB) as (r & t & HO & _ & HC).
  destruct r as [o| | |]; try contradiction; [left|right; eauto].
  destruct HC as (H1 & H2). exists o, t. do 3 (split; [assumption|]). clear H2 HB Hu. revert HO H1.
  unfold open_read, file_open_read, ibind.
  destruct (ilift (table_initialize 109) []) as [[m0| | |] t0]; try discriminate.
  destruct (header_read rd m0 t0) as [[[h m1]| | |] t1]; try discriminate.
  rewrite open_tables_lists.
  destruct (open_lists rd h m1 t1) as [[[[[msat sat] ssat] l]| | |] t2]; try discriminate.
  destruct (create_tree u (fh_byte_order h) l) as [tr| | |] eqn:E; try discriminate.
  intros HO _. apply pair_equal_spec in HO as (HO & _). injection HO as <-. cbn [o_tree snd].
  intros ->. unfold stored_start. destruct l as [|d l]; [reflexivity|]. revert E. unfold create_tree.
  destruct (find_root (d :: l)) as [root|]; [|discriminate]. destruct (de_sub root =? UNUSED); [reflexivity|].
  unfold rbind. destruct (process_entry _ _ _ _ _ _ _ _); discriminate.
Qed.

(** Opening a new file object. *)
Lemma fresh_open u ev w : una_ok u -> io_bytes (ev_reader ev) ->
  (exists o t x w', open_read u (ev_reader ev) [] = (Ok o, t) /\ ev_is_open ev = true /\ ev_open ev = true /\
     file_open u ev w new_file 1 = (Ok tt, x, w') /\ file_volume x = Some (opened_volume o) /\ file_tree x = o_tree o /\
     w_own w' = w_own w + 1 /\ w_open w' = w_open w) \/
  (exists x w', file_open u ev w new_file 1 = (Err, x, w') /\ fs_handle x = None /\ w_own w' = w_own w /\ w_open w' = w_open w /\
     ~ (ev_is_open ev = true /\ ev_open ev = true /\ exists o t, open_read u (ev_reader ev) [] = (Ok o, t))).
Proof.
  intros Hu HB. unfold file_open, file_open_handle. cbn [fs_handle new_file flag_read flag_write fs_opened fs_created fs_data fs_io].
  change (flag_read 1) with true. change (flag_write 1) with false. cbn [negb andb].
  destruct (ev_is_open ev) eqn:E1; cbn [negb].
  2:{ right. do 2 eexists. split; [reflexivity|]. split; [reflexivity|]. cbn [w_own w_open]. split; [lia|]. split; [reflexivity|].
      intros (H & _). discriminate. }
  destruct (ev_open ev) eqn:E2; cbn [negb].
  2:{ right. do 2 eexists. split; [reflexivity|]. split; [reflexivity|]. cbn [w_own w_open]. split; [lia|]. split; [reflexivity|].
      intros (_ & H & _). discriminate. }
  cbn [orb].
  destruct (fresh_read u (ev_reader ev) Hu HB) as [(o & t & HO & H1 & H2 & H3)|(t & HO & H1)];
    destruct (file_open_read u (ev_reader ev) io_clear None) as [r io1]; cbn [fst snd] in *; subst r.
  - left. exists o, t. do 2 eexists. split; [exact HO|]. do 2 (split; [reflexivity|]). split; [reflexivity|].
    destruct H2 as (A1 & A2 & A3 & A4 & A5 & A6 & A7).
    split; [|split; [reflexivity|split; reflexivity]].
    unfold file_volume. cbn [fs_data fs_io]. rewrite A6. unfold opened_volume. cbn [data_of fd_sat fd_ssat].
    rewrite A3, A4, A5. destruct (o_tree o) as [tr|]; [rewrite (A7 tr eq_refl)|rewrite (H3 eq_refl)]; reflexivity.
  - right. do 2 eexists. split; [reflexivity|]. split; [reflexivity|]. cbn [w_own w_open bfio_close]. split; [lia|]. split; [reflexivity|].
    intros (_ & _ & o & t' & H). congruence.
Qed.

(** ** The steps of main *)

Section Steps.
Variable ho : mount_host.
Hypothesis HK : host_ok ho.

(** The states of a run: which blocks there are, which file. *)
Definition state_with live w h args fuse entries acts : tool :=
  {| tl_live := live; tl_world := w; tl_handle := h; tl_arguments := args; tl_fuse := fuse; tl_entries := entries; tl_actions := acts |}.

Lemma initialize_made w acts time :
  mh_memory ho BHandle = true -> mh_memory ho BFileSystem = true -> mh_clock ho = Some time ->
  handle_initialize ho (state_with [] w None [] false 0 acts) =
  (Ok tt, state_with [BFileSystem; BHandle] w (Some {| fy_time := time; fy_file := None |}) [] false 0 acts).
Proof.
  intros H1 H2 H3. unfold handle_initialize, file_system_initialize, tbind, or_else, take, state_with. cbn.
  rewrite H1. cbn. rewrite H2. cbn. rewrite H3. reflexivity.
Qed.

Lemma initialize_not w acts :
  (mh_memory ho BHandle = true -> mh_memory ho BFileSystem = true -> mh_clock ho = None) ->
  handle_initialize ho (state_with [] w None [] false 0 acts) = (Err, state_with [] w None [] false 0 acts).
Proof.
  intros H. unfold handle_initialize, file_system_initialize, tbind, or_else, take, state_with. cbn.
  destruct (mh_memory ho BHandle) eqn:E1; [|reflexivity]. cbn. destruct (mh_memory ho BFileSystem) eqn:E2.
  - cbn. rewrite (H eq_refl eq_refl). reflexivity.
  - reflexivity.
Qed.

Lemma destroy_gone n s : tl_handle s = None -> destroy_callbacks n s = (Ok tt, s).
Proof.
  intros H. induction n as [|n IH]; [reflexivity|]. cbn [destroy_callbacks]. unfold tbind, handle_free at 1. rewrite H. exact IH.
Qed.

(** The state in which FUSE or Dokan starts. *)
Definition ready w time x acts : tool :=
  state_with [BFile; BFileSystem; BHandle] w (Some {| fy_time := time; fy_file := Some x |}) [] false 0 acts.

Definition left_handle : list block := if (mh_loop ho =? 0) && (Nat.eqb (mh_destroys ho) 0) then [BFile; BFileSystem; BHandle] else [BFile].

Definition fuse_part (three : bool) (st : settings) (answers : list fuse_result) : list action :=
  (if three then [FuseNew (fuse_words three st); FuseMount (st_mount_point st)]
   else [FuseMount (st_mount_point st); FuseNew (fuse_words three st)]) ++
  (if st_verbose st then [] else [Daemonize]) ++
  [FuseLoop answers] ++
  (if mh_loop ho =? 0 then [] else [Message (text_of "Unable to run fuse loop.")]).

Lemma destroys_free n live h args entries acts w :
  destroy_callbacks n (state_with (BFuse :: live ++ [BFile; BFileSystem; BHandle]) w (Some h) args true entries acts) =
  (Ok tt, if Nat.eqb n 0 then state_with (BFuse :: live ++ [BFile; BFileSystem; BHandle]) w (Some h) args true entries acts
          else state_with (BFuse :: remove block_eq_dec BHandle (remove block_eq_dec BFileSystem live) ++ [BFile]) w None args true entries acts).
Proof.
  destruct n as [|n]; [reflexivity|]. cbn [destroy_callbacks Nat.eqb]. unfold tbind at 1.
  assert (E : handle_free (state_with (BFuse :: live ++ [BFile; BFileSystem; BHandle]) w (Some h) args true entries acts) =
    (Ok tt, state_with (BFuse :: remove block_eq_dec BHandle (remove block_eq_dec BFileSystem live) ++ [BFile]) w None args true entries acts)).
  { unfold handle_free, give, tbind. cbn [tl_handle state_with tl_live].
    destruct (in_dec block_eq_dec BFileSystem _) as [_|N].
    2:{ exfalso. apply N. right. apply in_or_app. right. cbn. auto. }
    cbn [set_live tl_live tl_world tl_handle tl_arguments tl_fuse tl_entries tl_actions].
    assert (R : remove block_eq_dec BFileSystem (BFuse :: live ++ [BFile; BFileSystem; BHandle]) = BFuse :: remove block_eq_dec BFileSystem live ++ [BFile; BHandle]).
    { cbn [remove]. destruct (block_eq_dec BFileSystem BFuse); [discriminate|]. rewrite remove_app. reflexivity. }
    rewrite R. destruct (in_dec block_eq_dec BHandle _) as [_|N].
    2:{ exfalso. apply N. right. apply in_or_app. right. cbn. auto. }
    cbn [set_live tl_live tl_world tl_handle tl_arguments tl_fuse tl_entries tl_actions set_handle_to].
    cbn [remove]. destruct (block_eq_dec BHandle BFuse); [discriminate|]. rewrite remove_app. reflexivity. }
  rewrite E. apply destroy_gone. reflexivity.
Qed.


Lemma tbind_ok {A B} (m : tm A) (k : A -> tm B) s a s' : m s = (Ok a, s') -> tbind m k s = k a s'.
Proof. intros H. unfold tbind. rewrite H. reflexivity. Qed.
Lemma tbind_err {A B} (m : tm A) (k : A -> tm B) s s' : m s = (Err, s') -> tbind m k s = (Err, s').
Proof. intros H. unfold tbind. rewrite H. reflexivity. Qed.
Lemma or_else_ok {A} (m : tm A) f s a s' : m s = (Ok a, s') -> or_else m f s = (Ok a, s').
Proof. intros H. unfold or_else. rewrite H. reflexivity. Qed.
Lemma or_else_says {A} (m : tm A) x s s' : m s = (Err, s') -> or_else m (message x) s =
  (Err, {| tl_live := tl_live s'; tl_world := tl_world s'; tl_handle := tl_handle s'; tl_arguments := tl_arguments s';
           tl_fuse := tl_fuse s'; tl_entries := tl_entries s'; tl_actions := tl_actions s' ++ [Message (text_of x)] |}).
Proof. intros H. unfold or_else. rewrite H. reflexivity. Qed.

(** The blocks for the arguments. *)
Definition argument_block (st : settings) : list block := match st_extended st with Some _ => [BArguments] | None => [] end.

Definition add_words (st : settings) : tm unit :=
  match st_extended st with
  | None => tret tt
  | Some x =>
      or_else (dt _ <- add_arg ho 0 []; dt _ <- add_arg ho 1 (text_of "-o"); add_arg ho 2 x)
              (message "Unable add fuse arguments.")
  end.
Definition start_fuse (three : bool) (st : settings) : tm unit :=
  if three then
    dt _ <- or_else (fuse_new ho) (message "Unable to create fuse handle.");
    or_else (fuse_mount ho (st_mount_point st)) (message "Unable to fuse mount file system.")
  else
    dt _ <- or_else (fuse_mount ho (st_mount_point st)) (message "Unable to create fuse channel.");
    or_else (fuse_new ho) (message "Unable to create fuse handle.").
Definition start_daemon (st : settings) : tm unit :=
  if st_verbose st then tret tt
  else dt _ <- act Daemonize; or_else (check (mh_daemonize ho)) (message "Unable to daemonize fuse.").

Definition words_added (st : settings) : Prop :=
  st_extended st <> None -> mh_add_arg ho 0 = true /\ mh_add_arg ho 1 = true /\ mh_add_arg ho 2 = true.

Definition base : list block := [BFile; BFileSystem; BHandle].

Lemma add_words_ok st w h args acts : words_added st ->
  add_words st (state_with base w h args false 0 acts) =
  (Ok tt, state_with (argument_block st ++ base) w h (args ++ match st_extended st with Some x => [[]; text_of "-o"; x] | None => [] end) false 0 acts).
Proof.
  intros H. unfold words_added in H. unfold add_words, argument_block. destruct (st_extended st) as [x|]; [|cbn; rewrite app_nil_r; reflexivity].
  destruct (H ltac:(discriminate)) as (A0 & A1 & A2). unfold or_else, tbind, add_arg, state_with, base. rewrite A0. cbn -[text_of].
  rewrite A1. cbn -[text_of]. rewrite A2. cbn -[text_of]. rewrite <- !app_assoc. reflexivity.
Qed.

Lemma add_words_not st w h args acts : ~ words_added st ->
  exists live args', (live = base \/ live = BArguments :: base) /\ add_words st (state_with base w h args false 0 acts) =
  (Err, state_with live w h args' false 0 (acts ++ [Message (text_of "Unable add fuse arguments.")])).
Proof.
  intros H. unfold words_added, add_words in *. destruct (st_extended st) as [x|]; [|exfalso; apply H; intros C; congruence].
  destruct (mh_add_arg ho 0) eqn:A0.
  2:{ do 2 eexists. split; [left; reflexivity|]. unfold or_else, tbind, add_arg. rewrite A0. reflexivity. }
  destruct (mh_add_arg ho 1) eqn:A1.
  2:{ do 2 eexists. split; [right; reflexivity|]. unfold or_else, tbind, add_arg, state_with, base. rewrite A0. cbn -[text_of]. rewrite A1. reflexivity. }
  destruct (mh_add_arg ho 2) eqn:A2.
  2:{ do 2 eexists. split; [right; reflexivity|]. unfold or_else, tbind, add_arg, state_with, base. rewrite A0. cbn -[text_of]. rewrite A1. cbn -[text_of]. rewrite A2. reflexivity. }
  exfalso. apply H. auto.
Qed.

Lemma start_fuse_ok three st live w h args acts : mh_memory ho BFuse = true -> mh_mount ho = true ->
  start_fuse three st (state_with live w h args false 0 acts) =
  (Ok tt, state_with (BFuse :: live) w h args true 0
     (acts ++ if three then [FuseNew args; FuseMount (st_mount_point st)] else [FuseMount (st_mount_point st); FuseNew args])).
Proof.
  intros H1 H2. unfold start_fuse, fuse_new, fuse_mount, or_else, tbind, take, check, act, state_with.
  destruct three; cbn -[text_of]; rewrite ?H1, ?H2; cbn -[text_of]; rewrite ?H1, ?H2; cbn -[text_of]; rewrite <- app_assoc; reflexivity.
Qed.

Lemma start_fuse_not three st live w h args acts : ~ (mh_memory ho BFuse = true /\ mh_mount ho = true) ->
  exists fuse acts' x, start_fuse three st (state_with live w h args false 0 acts) =
    (Err, state_with (if fuse : bool then BFuse :: live else live) w h args fuse 0 (acts ++ acts' ++ [Message x])) /\
    Forall (fun x => ~ calls_back x) acts'.
Proof.
  intros H. unfold start_fuse, fuse_new, fuse_mount, or_else, tbind, take, check, act, state_with.
  destruct (mh_memory ho BFuse) eqn:H1, (mh_mount ho) eqn:H2; try (exfalso; apply H; auto; fail); clear H.
  all: destruct three; cbn -[text_of]; rewrite ?H1, ?H2; cbn -[text_of]; rewrite ?H1, ?H2; cbn -[text_of].
  - exists true, [FuseNew args; FuseMount (st_mount_point st)]. eexists. rewrite <- !app_assoc. split; [reflexivity|]. repeat constructor; intros C; exact C.
  - exists false, [FuseMount (st_mount_point st)]. eexists. rewrite <- !app_assoc. split; [reflexivity|]. repeat constructor; intros C; exact C.
  - exists false, [FuseNew args]. eexists. rewrite <- !app_assoc. split; [reflexivity|]. repeat constructor; intros C; exact C.
  - exists false, [FuseMount (st_mount_point st); FuseNew args]. eexists. rewrite <- !app_assoc. split; [reflexivity|]. repeat constructor; intros C; exact C.
  - exists false, [FuseNew args]. eexists. rewrite <- !app_assoc. split; [reflexivity|]. repeat constructor; intros C; exact C.
  - exists false, [FuseMount (st_mount_point st)]. eexists. rewrite <- !app_assoc. split; [reflexivity|]. repeat constructor; intros C; exact C.
Qed.

Lemma start_daemon_ok st live w h args acts : (st_verbose st = false -> mh_daemonize ho = true) ->
  start_daemon st (state_with live w h args true 0 acts) =
  (Ok tt, state_with live w h args true 0 (acts ++ if st_verbose st then [] else [Daemonize])).
Proof.
  intros H. unfold start_daemon. destruct (st_verbose st); [cbn; rewrite app_nil_r; reflexivity|].
  unfold or_else, tbind, check, act, state_with. cbn -[text_of]. rewrite (H eq_refl). reflexivity.
Qed.

Lemma start_daemon_not st live w h args acts : ~ (st_verbose st = false -> mh_daemonize ho = true) ->
  start_daemon st (state_with live w h args true 0 acts) =
  (Err, state_with live w h args true 0 (acts ++ [Daemonize; Message (text_of "Unable to daemonize fuse.")])).
Proof.
  intros H. unfold start_daemon. destruct (st_verbose st); [exfalso; apply H; discriminate|].
  destruct (mh_daemonize ho) eqn:E; [exfalso; apply H; reflexivity|].
  unfold or_else, tbind, check, act, state_with. cbn -[text_of]. rewrite <- app_assoc. reflexivity.
Qed.

Lemma fuse_loop_is live w h args acts m rs u : mounted_by ho (state_with live w h args true 0 acts) = Some m ->
  fuse_run m (mh_calls ho) fuse_start = (rs, u) ->
  or_else (fuse_loop ho) (message "Unable to run fuse loop.") (state_with live w h args true 0 acts) =
  (if mh_loop ho =? 0 then Ok tt else Err,
   state_with live w h args true (fu_live u) (acts ++ [FuseLoop rs] ++ if mh_loop ho =? 0 then [] else [Message (text_of "Unable to run fuse loop.")])).
Proof.
  intros HM HR. unfold or_else, fuse_loop. rewrite HM, HR. unfold tbind, act, check, state_with. cbn -[text_of Z.eqb].
  destruct (mh_loop ho =? 0); cbn -[text_of]; rewrite <- ?app_assoc; reflexivity.
Qed.

(** The ends of a run. *)
Lemma fuse_destroy_is l w f args entries acts : l = [] \/ l = [BArguments] ->
  fuse_destroy ho (state_with (BFuse :: l ++ base) w (Some f) args true entries acts) =
  (Ok tt, state_with (if Nat.eqb (mh_destroys ho) 0 then l ++ base else l ++ [BFile]) w
            (if Nat.eqb (mh_destroys ho) 0 then Some f else None) args false entries acts).
Proof.
  intros Hl. unfold fuse_destroy, base. rewrite (tbind_ok _ _ _ _ _ (destroys_free _ _ _ _ _ _ _)).
  destruct (Nat.eqb (mh_destroys ho) 0); destruct Hl as [->| ->]; reflexivity.
Qed.

Lemma fuse_end st w f args entries acts :
  (dt _ <- fuse_destroy ho; dt _ <- free_args; tret true) (state_with (BFuse :: argument_block st ++ base) w (Some f) args true entries acts) =
  (Ok true, state_with (if Nat.eqb (mh_destroys ho) 0 then base else [BFile]) w (if Nat.eqb (mh_destroys ho) 0 then Some f else None) [] false entries acts).
Proof.
  assert (H : argument_block st = [] \/ argument_block st = [BArguments]) by (unfold argument_block; destruct (st_extended st); auto).
  rewrite (tbind_ok _ _ _ _ _ (fuse_destroy_is _ _ _ _ _ _ H)). unfold argument_block.
  destruct (Nat.eqb (mh_destroys ho) 0); destruct (st_extended st); reflexivity.
Qed.

Lemma error_end live w f args (fuse : bool) entries acts : live = base \/ live = BArguments :: base ->
  on_error_exit ho (state_with (if fuse then BFuse :: live else live) w (Some f) args fuse entries acts) =
  (Ok false, state_with [BFile] w None [] false entries acts).
Proof.
  intros HL. unfold on_error_exit. destruct fuse.
  - assert (E : exists l, live = l ++ base /\ (l = [] \/ l = [BArguments])).
    { destruct HL as [->| ->]; [exists []|exists [BArguments]]; auto. }
    destruct E as (l & -> & El). unfold tbind at 1. cbn [tl_fuse state_with]. rewrite (fuse_destroy_is _ _ _ _ _ _ El).
    destruct (Nat.eqb (mh_destroys ho) 0); destruct El as [->| ->]; reflexivity.
  - destruct HL as [->| ->]; reflexivity.
Qed.

Lemma run_fuse_is three st : run_fuse ho three st =
  (dt _ <- (fun s => (Ok tt, set_arguments s (if three then [text_of "olecfmount"] else [])));
   dt _ <- add_words st; dt _ <- start_fuse three st; dt _ <- start_daemon st;
   dt _ <- or_else (fuse_loop ho) (message "Unable to run fuse loop.");
   dt _ <- fuse_destroy ho; dt _ <- free_args; tret true).
Proof. reflexivity. Qed.

Lemma run_fuse_serving three st w time x acts m rs u :
  mounted_by ho (ready w time x acts) = Some m -> fuse_run m (mh_calls ho) fuse_start = (rs, u) -> fuse_starts ho st ->
  with_on_error ho (run_fuse ho three st) (ready w time x acts) =
  (Ok (mh_loop ho =? 0),
   state_with left_handle w (if (mh_loop ho =? 0) && Nat.eqb (mh_destroys ho) 0 then Some {| fy_time := time; fy_file := Some x |} else None)
     [] false (fu_live u) (acts ++ fuse_part three st rs)).
Proof.
  intros HM HR (F1 & F2 & F3 & F4). unfold with_on_error. rewrite run_fuse_is.
  assert (E : (dt _ <- (fun s => (Ok tt, set_arguments s (if three then [text_of "olecfmount"] else [])));
   dt _ <- add_words st; dt _ <- start_fuse three st; dt _ <- start_daemon st;
   dt _ <- or_else (fuse_loop ho) (message "Unable to run fuse loop.");
   dt _ <- fuse_destroy ho; dt _ <- free_args; tret true) (ready w time x acts) =
   (if mh_loop ho =? 0 then Ok true else Err,
    state_with (if mh_loop ho =? 0 then left_handle else BFuse :: argument_block st ++ base) w
      (if (mh_loop ho =? 0) && negb (Nat.eqb (mh_destroys ho) 0) then None else Some {| fy_time := time; fy_file := Some x |})
      (if mh_loop ho =? 0 then [] else fuse_words three st) (negb (mh_loop ho =? 0)) (fu_live u) (acts ++ fuse_part three st rs))).
  { unfold ready. rewrite (tbind_ok _ _ _ tt (state_with base w (Some {| fy_time := time; fy_file := Some x |}) (if three then [text_of "olecfmount"] else []) false 0 acts)) by reflexivity.
    rewrite (tbind_ok _ _ _ _ _ (add_words_ok st _ _ _ _ F1)). fold (fuse_words three st).
    rewrite (tbind_ok _ _ _ _ _ (start_fuse_ok three st _ _ _ _ _ F2 F3)).
    rewrite (tbind_ok _ _ _ _ _ (start_daemon_ok st _ _ _ _ _ F4)).
    assert (HM' : mounted_by ho (state_with (BFuse :: argument_block st ++ base) w (Some {| fy_time := time; fy_file := Some x |}) (fuse_words three st) true 0
       ((acts ++ (if three then [FuseNew (fuse_words three st); FuseMount (st_mount_point st)] else [FuseMount (st_mount_point st); FuseNew (fuse_words three st)])) ++
        (if st_verbose st then [] else [Daemonize]))) = Some m) by exact HM.
    pose proof (fuse_loop_is _ _ _ _ _ _ _ _ HM' HR) as HL.
    assert (HA : ((acts ++ (if three then [FuseNew (fuse_words three st); FuseMount (st_mount_point st)] else [FuseMount (st_mount_point st); FuseNew (fuse_words three st)])) ++
        (if st_verbose st then [] else [Daemonize])) ++ [FuseLoop rs] ++ (if mh_loop ho =? 0 then [] else [Message (text_of "Unable to run fuse loop.")]) = acts ++ fuse_part three st rs).
    { unfold fuse_part. rewrite <- !app_assoc. reflexivity. }
    rewrite HA in HL. unfold left_handle. destruct (mh_loop ho =? 0).
    - rewrite (tbind_ok _ _ _ _ _ HL), fuse_end. cbn [andb negb]. destruct (Nat.eqb (mh_destroys ho) 0); reflexivity.
    - rewrite (tbind_err _ _ _ _ HL). reflexivity. }
  rewrite E. unfold left_handle. destruct (mh_loop ho =? 0).
  - cbn [andb negb]. destruct (Nat.eqb (mh_destroys ho) 0); reflexivity.
  - cbn [andb negb].
    rewrite (error_end (argument_block st ++ base) w _ _ true (fu_live u) (acts ++ fuse_part three st rs)); [reflexivity|].
    unfold argument_block. destruct (st_extended st); auto.
Qed.

Lemma run_fuse_not three st w time x acts :
  ~ fuse_starts ho st ->
  exists acts' y, with_on_error ho (run_fuse ho three st) (ready w time x acts) =
    (Ok false, state_with [BFile] w None [] false 0 (acts ++ acts' ++ [Message y])) /\ Forall (fun x => ~ calls_back x) acts'.
Proof.
  intros HF. unfold with_on_error. rewrite run_fuse_is. unfold ready.
  rewrite (tbind_ok _ _ _ tt (state_with base w (Some {| fy_time := time; fy_file := Some x |}) (if three then [text_of "olecfmount"] else []) false 0 acts)) by reflexivity.
  assert (D : words_added st \/ ~ words_added st).
  { unfold words_added. destruct (st_extended st); [|left; congruence].
    destruct (mh_add_arg ho 0), (mh_add_arg ho 1), (mh_add_arg ho 2); [left; auto|right; intros C; destruct (C ltac:(discriminate)) as (? & ? & ?); discriminate..]. }
  destruct D as [F1|F1].
  2:{ destruct (add_words_not st w (Some {| fy_time := time; fy_file := Some x |}) (if three then [text_of "olecfmount"] else []) acts F1) as (live & args' & HL & HE).
      rewrite (tbind_err _ _ _ _ HE). exists [], (text_of "Unable add fuse arguments.").
      rewrite (error_end live w _ _ false 0 _ HL). split; [reflexivity|constructor]. }
  rewrite (tbind_ok _ _ _ _ _ (add_words_ok st _ _ _ _ F1)).
  assert (HB : argument_block st ++ base = base \/ argument_block st ++ base = BArguments :: base).
  { unfold argument_block. destruct (st_extended st); auto. }
  assert (D : (mh_memory ho BFuse = true /\ mh_mount ho = true) \/ ~ (mh_memory ho BFuse = true /\ mh_mount ho = true)).
  { destruct (mh_memory ho BFuse), (mh_mount ho); intuition discriminate. }
  destruct D as [(F2 & F3)|F2].
  2:{ destruct (start_fuse_not three st (argument_block st ++ base) w (Some {| fy_time := time; fy_file := Some x |})
        ((if three then [text_of "olecfmount"] else []) ++ match st_extended st with Some x => [[]; text_of "-o"; x] | None => [] end) acts F2) as (fuse & acts' & y & HE & HC).
      rewrite (tbind_err _ _ _ _ HE). exists acts', y. rewrite (error_end _ w _ _ fuse 0 _ HB). auto. }
  rewrite (tbind_ok _ _ _ _ _ (start_fuse_ok three st _ _ _ _ _ F2 F3)).
  assert (F4 : ~ (st_verbose st = false -> mh_daemonize ho = true)).
  { intros F4. apply HF. split; [exact F1|]. auto. }
  rewrite (tbind_err _ _ _ _ (start_daemon_not st _ _ _ _ _ F4)).
  rewrite (error_end _ w _ _ true 0 _ HB). do 2 eexists. split.
  - f_equal. f_equal. rewrite <- app_assoc. f_equal. change [Daemonize; Message (text_of "Unable to daemonize fuse.")] with ([Daemonize] ++ [Message (text_of "Unable to daemonize fuse.")]).
    rewrite app_assoc. reflexivity.
  - apply Forall_app. split; [destruct three|]; repeat constructor; intros C; exact C.
Qed.

(** ** The whole run *)

Definition system_part (sys : mount_system) (st : settings) : tm bool :=
  match sys with
  | Fuse2 => run_fuse ho false st
  | Fuse3 => run_fuse ho true st
  | Dokan b => run_dokan ho b st
  | NoSystem =>
      dt _ <- message "No sub system to mount Object Linking and Embedding (OLE) Compound File (CF) format.";
      tret false
  end.
Definition codepage_part (st : settings) : tm unit :=
  match st_codepage st with
  | None => tret tt
  | Some c =>
      dt b <- or_else (fun s => (mh_codepage ho c, s)) (message "Unable to set ASCII codepage in mount handle.");
      if b then tret tt else message "Unsupported ASCII codepage defaulting to: windows-1252."
  end.

Lemma mount_body_is sys st : mount_body ho sys st =
  (dt _ <- or_else (handle_initialize ho) (message "Unable to initialize mount handle.");
   dt _ <- codepage_part st;
   dt _ <- or_else (handle_open ho (st_source st)) (message "Unable to open source file");
   system_part sys st).
Proof. reflexivity. Qed.

Lemma on_error_ok {A} (m : tm A) k s a s' : m s = (Ok a, s') -> with_on_error ho (tbind m k) s = with_on_error ho (k a) s'.
Proof. intros H. unfold with_on_error. rewrite (tbind_ok _ _ _ _ _ H). reflexivity. Qed.
Lemma on_error_err {A} (m : tm A) k s s' : m s = (Err, s') -> with_on_error ho (tbind m k) s = on_error_exit ho s'.
Proof. intros H. unfold with_on_error. rewrite (tbind_err _ _ _ _ H). reflexivity. Qed.

Lemma codepage_ok st s : (forall c, st_codepage st = Some c -> mh_codepage ho c <> Err) ->
  codepage_part st s = (Ok tt, {| tl_live := tl_live s; tl_world := tl_world s; tl_handle := tl_handle s; tl_arguments := tl_arguments s;
           tl_fuse := tl_fuse s; tl_entries := tl_entries s; tl_actions := tl_actions s ++ warnings ho st |}).
Proof.
  intros H. unfold codepage_part, warnings. destruct (st_codepage st) as [c|].
  2:{ rewrite app_nil_r. destruct s. reflexivity. }
  specialize (H c eq_refl). destruct (hk_codepage ho HK c) as [E|(b & E)]; [contradiction|]. rewrite E.
  unfold or_else, tbind. destruct b; [|reflexivity]. rewrite app_nil_r. destruct s. reflexivity.
Qed.

Lemma codepage_not st s : ~ (forall c, st_codepage st = Some c -> mh_codepage ho c <> Err) ->
  codepage_part st s = (Err, {| tl_live := tl_live s; tl_world := tl_world s; tl_handle := tl_handle s; tl_arguments := tl_arguments s;
           tl_fuse := tl_fuse s; tl_entries := tl_entries s; tl_actions := tl_actions s ++ [Message (text_of "Unable to set ASCII codepage in mount handle.")] |}).
Proof.
  intros H. unfold codepage_part. destruct (st_codepage st) as [c|]; [|exfalso; apply H; discriminate].
  destruct (hk_codepage ho HK c) as [E|(b & E)].
  - unfold or_else, tbind. rewrite E. reflexivity.
  - exfalso. apply H. intros c' [= <-]. congruence.
Qed.

Lemma begins sys st w :
  (exists time o x w', handle_made ho st time /\ source_opens ho (st_source st) o /\
     (forall acts, mounted_by ho (ready w' time x acts) = Some (served ho o time)) /\ w_own w' = w_own w + 1 /\ w_open w' = w_open w /\
     mount_start ho sys st (tool_start w) = with_on_error ho (system_part sys st) (ready w' time x (warnings ho st))) \/
  ((~ exists time o, handle_made ho st time /\ source_opens ho (st_source st) o) /\
   exists acts y w', mount_start ho sys st (tool_start w) = (Ok false, state_with [] w' None [] false 0 (acts ++ [Message y])) /\
     (acts = [] \/ acts = warnings ho st) /\ w_own w' = w_own w /\ w_open w' = w_open w).
Proof.
  unfold mount_start. rewrite mount_body_is. change (tool_start w) with (state_with [] w None [] false 0 []).
  destruct (mh_memory ho BHandle) eqn:M1.
  2:{ right. split; [intros (time & o & (H & _) & _); congruence|].
      rewrite (on_error_err _ _ _ _ (or_else_says _ _ _ _ (initialize_not w [] ltac:(rewrite M1; discriminate)))).
      exists [], (text_of "Unable to initialize mount handle."), w. auto. }
  destruct (mh_memory ho BFileSystem) eqn:M2.
  2:{ right. split; [intros (time & o & (_ & H & _) & _); congruence|].
      rewrite (on_error_err _ _ _ _ (or_else_says _ _ _ _ (initialize_not w [] ltac:(intros _; rewrite M2; discriminate)))).
      exists [], (text_of "Unable to initialize mount handle."), w. auto. }
  destruct (mh_clock ho) as [time|] eqn:M3.
  2:{ right. split; [intros (time & o & (_ & _ & H & _) & _); congruence|].
      rewrite (on_error_err _ _ _ _ (or_else_says _ _ _ _ (initialize_not w [] ltac:(auto)))).
      exists [], (text_of "Unable to initialize mount handle."), w. auto. }
  rewrite (on_error_ok _ _ _ _ _ (or_else_ok _ _ _ _ _ (initialize_made w [] time M1 M2 M3))).
  assert (D : (forall c, st_codepage st = Some c -> mh_codepage ho c <> Err) \/ ~ (forall c, st_codepage st = Some c -> mh_codepage ho c <> Err)).
  { destruct (st_codepage st) as [c|]; [|left; discriminate]. destruct (hk_codepage ho HK c) as [E|(b & E)].
    - right. intros C. exact (C c eq_refl E).
    - left. intros c' [= <-]. congruence. }
  destruct D as [M4|M4].
  2:{ right. split; [intros (t' & o & (_ & _ & _ & H) & _); contradiction|].
      rewrite (on_error_err _ _ _ _ (codepage_not st _ M4)).
      exists [], (text_of "Unable to set ASCII codepage in mount handle."), w. auto. }
  rewrite (on_error_ok _ _ _ _ _ (codepage_ok st _ M4)).
  cbn [tl_live tl_world tl_handle tl_arguments tl_fuse tl_entries tl_actions state_with app].
  fold (state_with [BFileSystem; BHandle] w (Some {| fy_time := time; fy_file := None |}) [] false 0 (warnings ho st)).
  set (S := state_with _ _ _ _ _ _ _).
  assert (HE : forall w', on_error_exit ho (state_with [BFileSystem; BHandle] w' (Some {| fy_time := time; fy_file := None |}) [] false 0
      (warnings ho st ++ [Message (text_of "Unable to open source file")])) =
    (Ok false, state_with [] w' None [] false 0 (warnings ho st ++ [Message (text_of "Unable to open source file")]))) by reflexivity.
  destruct (mh_memory ho BFile) eqn:M5.
  2:{ right. split; [intros (t' & o & _ & H & _); congruence|].
      assert (HO : handle_open ho (st_source st) S = (Err, S)).
      { unfold handle_open, S, tbind, take. cbn. rewrite M5. reflexivity. }
      rewrite (on_error_err _ _ _ _ (or_else_says _ _ _ _ HO)).
      exists (warnings ho st), (text_of "Unable to open source file"), w. split; [apply HE|auto]. }
  assert (HO : handle_open ho (st_source st) S =
     match file_open (mh_una ho) (mh_file ho (st_source st)) w new_file 1 with
     | (Ok _, x, w) => (Ok tt, ready w time x (warnings ho st))
     | (Err, x, w) => (Err, state_with [BFileSystem; BHandle] (snd (file_free (mh_file ho (st_source st)) w x)) (Some {| fy_time := time; fy_file := None |}) [] false 0 (warnings ho st))
     | (Undef, _, w) => (Undef, set_world (set_live S (BFile :: tl_live S)) w)
     | (NoFuel, _, w) => (NoFuel, set_world (set_live S (BFile :: tl_live S)) w)
     end).
  { unfold handle_open, S, tbind, take. cbn -[file_open new_file file_free warnings]. rewrite M5. cbn -[file_open new_file file_free warnings].
    destruct (file_open _ _ w new_file 1) as [[[[]| | |] x] w']; reflexivity. }
  destruct (fresh_open (mh_una ho) (mh_file ho (st_source st)) w (hk_una ho HK) (hk_bytes ho HK _)) as
    [(o & t & x & w' & O1 & O2 & O3 & O4 & O5 & O6 & O7 & O8)|(x & w' & O1 & O2 & O3 & O4 & O5)]; rewrite ?O4, ?O1 in HO.
  - left. exists time, o, x, w'. split; [split; auto|]. split; [unfold source_opens; eauto 6|].
    split; [|split; [exact O7|split; [exact O8|exact (on_error_ok _ _ _ _ _ (or_else_ok _ _ _ _ _ HO))]]].
    intros acts. unfold mounted_by, ready, state_with. cbn [tl_handle fy_file]. rewrite O5, O6. reflexivity.
  - right. split; [intros (t' & o & _ & _ & H1 & H2 & t & H3); apply O5; eauto|].
    unfold file_free in HO. rewrite O2 in HO. cbn [snd] in HO.
    rewrite (on_error_err _ _ _ _ (or_else_says _ _ _ _ HO)).
    exists (warnings ho st), (text_of "Unable to open source file"), w'. split; [apply HE|auto].
Qed.
End Steps.
