(** Lemmas on the file object and on the classes of items of the Python
    bindings. *)
From Coq Require Import ZArith List Bool Lia Arith.
From Verif Require Import Base Spec_IO M_Header M_Table M_Load M_Stream M_Tree M_Open M_Item M_File M_Time M_Python M_Items
  Spec_Stream Spec_Load Spec_Open Spec_Tree Spec_Item Spec_File Spec_Python Spec_Items
  L_Base L_Header L_Stream L_Stream2 L_Stream3 L_Tree L_Tree2 L_Tree3 L_Open L_Open2 L_Exact L_Item L_Session L_File L_Time L_Fuse2 L_Python L_Items.
Import ListNotations.
Open Scope Z_scope.

(** ** Calls that leave the file alone *)
Definition file_call (call : pycall) : bool :=
  match call with
  | CallOpen _ | CallOpenObject _ | CallClose | CallSetCodepage _ | CallSignalAbort => true
  | _ => false
  end.

Ltac same_file :=
  repeat match goal with
    | |- context [match ?x with _ => _ end] =>
        match x with
        | context [match _ with _ => _ end] => fail 1
        | _ => destruct x
        end
    | |- context [let (_, _) := ?x in _] => destruct x
    end; try (split; reflexivity).

Lemma new_sub_item_file en w v t k : pw_state (snd (new_sub_item en w v t k)) = pw_state w /\ pw_closed (snd (new_sub_item en w v t k)) = pw_closed w.
Proof. unfold new_sub_item. same_file. Qed.

Lemma sub_index_file en w g k x : pw_state (snd (sub_item_by_index en w g k x)) = pw_state w /\ pw_closed (snd (sub_item_by_index en w g k x)) = pw_closed w.
Proof.
  unfold sub_item_by_index. destruct (live_tree w g) as [[v t]|]; [|split; reflexivity].
  destruct (get_sub_item t k x); [apply new_sub_item_file|split; reflexivity..].
Qed.

Lemma found_file en w v t r : pw_state (snd (found_item en w v t r)) = pw_state w /\ pw_closed (snd (found_item en w v t r)) = pw_closed w.
Proof. unfold found_item. destruct r as [[j|]| | |]; [apply new_sub_item_file|split; reflexivity..]. Qed.

Lemma file_item_file w r : pw_state (snd (new_file_item w r)) = pw_state w /\ pw_closed (snd (new_file_item w r)) = pw_closed w.
Proof. unfold new_file_item. same_file. Qed.

Lemma item_step_file en rd w i g c k cursor call :
  pw_state (snd (item_step_py en rd w i g c k cursor call)) = pw_state w /\ pw_closed (snd (item_step_py en rd w i g c k cursor call)) = pw_closed w.
Proof.
  unfold item_step_py. destruct call as [ | | | | | | |index| |name|path|op|].
  8:{ destruct (parse_integer index _ _); [split; reflexivity|apply sub_index_file]. }
  12:{ split; reflexivity. }
  all: destruct (live_tree w g) as [[v t]|].
  all: try (destruct (node_value t k) as [d| | |]); try (split; reflexivity).
  - destruct (pe_text en _ _); [destruct (pe_decodes en a)|..]; split; reflexivity.
  - destruct (get_number_of_sub_items t k); split; reflexivity.
  - destruct (get_number_of_sub_items t k); split; reflexivity.
  - destruct (parse_string name); [split; reflexivity|apply found_file].
  - destruct (parse_string name); split; reflexivity.
  - destruct (parse_string path); [split; reflexivity|apply found_file].
  - destruct (parse_string path); split; reflexivity.
  - destruct c; try (split; reflexivity); destruct (py_stream_step _ _ _ _ _ _); split; reflexivity.
  - destruct c; split; reflexivity.
Qed.

Lemma sequence_step_file en w i g k cu n call :
  pw_state (snd (sequence_step en w i g k cu n call)) = pw_state w /\ pw_closed (snd (sequence_step en w i g k cu n call)) = pw_closed w.
Proof.
  destruct call as [|v| |]; cbn [sequence_step]; try (split; reflexivity).
  - destruct v; try (split; reflexivity). destruct (_ || _); [split; reflexivity|]. destruct (n <? 0); [split; reflexivity|].
    destruct (_ || _); [split; reflexivity|apply sub_index_file].
  - destruct (cu <? 0); [split; reflexivity|]. destruct (n <? 0); [split; reflexivity|]. destruct (n <=? cu); [split; reflexivity|].
    pose proof (sub_index_file en w g k cu) as H. destruct (sub_item_by_index en w g k cu) as [a w']. destruct a; exact H.
Qed.

Lemma step_file en ev w call : file_call call = false ->
  pw_state (snd (py_step en ev w call)) = pw_state w /\ pw_closed (snd (py_step en ev w call)) = pw_closed w.
Proof.
  intros H. destruct call; try discriminate H; cbn [py_step]; try (split; reflexivity).
  - apply file_item_file.
  - destruct (parse_string path); [split; reflexivity|apply file_item_file].
  - destruct (nth_error (pw_objects w) i) as [[]|]; try (split; reflexivity). apply item_step_file.
  - destruct (nth_error (pw_objects w) i) as [[]|]; try (split; reflexivity). apply sequence_step_file.
Qed.

(** ** The state of the file object *)
Definition how_open (s : fstate) : option bool :=
  match fs_handle s with None => None | Some Own => Some true | Some (User _) => Some false end.

Definition py_agrees (st : option bool * Z) (w : pyworld) : Prop :=
  fst st = how_open (pw_state w) /\
  snd st = io_codepage (fs_io (pw_state w)) /\ codepage_name (snd st) <> None.

Lemma codepage_name_some c : codepage_name c <> None <-> In c codepages.
Proof.
  split.
  - unfold codepage_name. destruct (find _ codepage_names) as [x|] eqn:E; [|congruence]. intros _.
    apply find_some in E as [H1 H2]. apply Z.eqb_eq in H2. subst c.
    cbn in H1. repeat (destruct H1 as [<-|H1]; [cbn; intuition|]). destruct H1.
  - intros H. cbn in H. repeat (destruct H as [<-|H]; [vm_compute; discriminate|]). destruct H.
Qed.

Lemma codepage_string c : codepage_name c <> None -> codepage_to_string c = codepage_name c.
Proof.
  intros H. apply codepage_name_some in H. cbn in H. repeat (destruct H as [<-|H]; [vm_compute; reflexivity|]). destruct H.
Qed.

Lemma codepages_test c : existsb (Z.eqb c) codepages = match codepage_name c with Some _ => true | None => false end.
Proof.
  destruct (existsb (Z.eqb c) codepages) eqn:E.
  - apply existsb_exists in E as (x & Hx & Ex). apply Z.eqb_eq in Ex. subst x. apply codepage_name_some in Hx.
    destruct (codepage_name c); [reflexivity|congruence].
  - destruct (codepage_name c) eqn:En; [|reflexivity].
    assert (H : codepage_name c <> None) by congruence. apply codepage_name_some in H.
    assert (Hx : existsb (Z.eqb c) codepages = true) by (apply existsb_exists; exists c; split; [exact H|apply Z.eqb_refl]). congruence.
Qed.

Section File.
Variable en : pyenv.
Hypothesis Hen : pyenv_ok en.

(** An open call: the answer and the state. *)
Lemma open_step ev w (own : bool) mode : pinv en w -> env_bytes ev ->
  let call := if own then CallOpen mode else CallOpenObject mode in
  let possible := ev_is_open ev && (ev_open ev || negb own) in
  let st := how_open (pw_state w) in
  fst (py_step en ev w call) = open_answer en ev mode st possible /\
  io_codepage (fs_io (pw_state (snd (py_step en ev w call)))) = io_codepage (fs_io (pw_state w)) /\
  match fst (py_step en ev w call) with
  | ANone =>
      (exists o t, open_read (pe_una en) (ev_reader ev) [] = (Ok o, t) /\ shows (pw_state (snd (py_step en ev w call))) o) /\
      how_open (pw_state (snd (py_step en ev w call))) = Some own
  | _ => fs_handle (pw_state (snd (py_step en ev w call))) = fs_handle (pw_state w) /\
         (fs_handle (pw_state w) <> None -> pw_state (snd (py_step en ev w call)) = pw_state w)
  end.
Proof.
  intros Hi HB call possible st. pose proof (po_una en Hen) as Hu. pose proof (pi_file _ _ Hi) as Hf.
  assert (Hmode : match mode with None => true | Some m => match m with c :: _ => c =? 114 | [] => false end end = mode_accepted mode)
    by (destruct mode as [[|c m]|]; reflexivity).
  unfold open_answer. rewrite Hmode.
  destruct (mode_accepted mode) eqn:Em.
  2:{ assert (E : py_step en ev w call = (ARaise ValueError, w)) by (unfold call; destruct own; cbn [py_step]; rewrite Em; reflexivity).
      rewrite E. cbn [fst snd]. auto. }
  assert (Hres : forall r, result_of r = FError -> done_answer r = ARaise IOError) by (intros [| | |]; intros; try discriminate; reflexivity).
  destruct (fs_handle (pw_state w)) as [h|] eqn:Hh.
  - assert (Est : exists b, st = Some b) by (unfold st, how_open; rewrite Hh; destruct h; eauto). destruct Est as (b & Est). rewrite Est.
    unfold call. destruct own; cbn [py_step]; rewrite Em.
    + pose proof (open_call_error (pe_una en) ev (FOpen 1) (pw_state w) (pw_world w) I ltac:(left; congruence)) as E.
      cbn [file_step] in E. destruct (file_open _ _ _ _ _) as [[r s'] wo']. injection E as E1 -> ->. cbn [fst snd set_file pw_state].
      rewrite (Hres r E1), Hh. auto.
    + destruct (pw_handle w); [cbn [fst snd]; rewrite Hh; auto|].
      pose proof (open_call_error (pe_una en) ev (FOpenHandle (pw_next w) 1) (pw_state w) (set_open (pw_world w) (pw_next w) true) I ltac:(left; congruence)) as E.
      cbn [file_step] in E. destruct (file_open_handle _ _ _ _ _ _) as [[r s'] wo']. injection E as E1 -> ->. cbn [fst snd pw_state].
      rewrite (Hres r E1), Hh. auto.
  - unfold st, how_open at 1. rewrite Hh. pose proof Hf as Hf'. unfold file_inv in Hf'. rewrite Hh in Hf'. destruct Hf' as (F1 & F2 & F3).
    pose proof (pi_handle _ _ Hi) as Hp. rewrite Hh in Hp.
    set (op := if own then FOpen 1 else FOpenHandle (pw_next w) 1).
    set (wo := if own then pw_world w else set_open (pw_world w) (pw_next w) true).
    assert (Hop : is_open_call op) by (unfold op; destruct own; exact I).
    assert (Estep : fst (py_step en ev w call) = match fst (fst (file_step (pe_una en) ev op (pw_state w) wo)) with FDone => ANone | FError => ARaise IOError | _ => PyUndef end /\
      pw_state (snd (py_step en ev w call)) = snd (fst (file_step (pe_una en) ev op (pw_state w) wo))).
    { unfold call, op, wo. destruct own; cbn [py_step file_step]; rewrite Em.
      - destruct (file_open _ _ _ _ _) as [[[| | |] s'] wo']; cbn; auto.
      - rewrite Hp. destruct (file_open_handle _ _ _ _ _ _) as [[[| | |] s'] wo']; cbn; auto. }
    destruct Estep as [E1 E2]. rewrite E1, E2.
    destruct (open_call_cases (pe_una en) ev op (pw_state w) wo Hu HB Hop Hf Hh)
      as [(io' & w1 & [Hk _] & ES & _)|(io' & o & t & w1 & h & [Hk _] & Hsh & HO & ES & Hwho)].
    + assert (Hno : possible = true -> exists t, open_read (pe_una en) (ev_reader ev) [] = (Err, t)).
      { intros Hpos. destruct (open_call_able (pe_una en) ev op (pw_state w) wo Hu HB Hop Hf Hh) as [[A _]|(_ & A & _)].
        - unfold possible in Hpos. apply andb_true_iff in Hpos as [P1 P2].
          split; [unfold op; destruct own; reflexivity|]. split; [unfold op; destruct own; reflexivity|]. split; [exact P1|].
          unfold op, wo. destruct own; [left; now rewrite orb_false_r in P2|right]. unfold set_open. cbn. now rewrite Nat.eqb_refl.
        - rewrite ES in A. discriminate A.
        - exact A. }
      rewrite ES. cbn [fst snd fs_handle fs_io]. split; [|split; [exact Hk|split; [congruence|congruence]]].
      destruct possible; [|reflexivity]. destruct (Hno eq_refl) as (t & ->). reflexivity.
    + rewrite ES. cbn [fst snd fs_handle fs_io]. split; [|split; [exact Hk|split]].
      * assert (Hpos : possible = true).
        { unfold possible. revert ES. unfold op, wo. destruct own; cbn [file_step].
          - unfold file_open, file_open_handle. rewrite Hh. cbn [flag_read flag_write].
            destruct open_flags_1 as [-> ->]. cbn [negb andb]. destruct (ev_is_open ev); [|discriminate]. cbn [negb].
            destruct (ev_open ev); [reflexivity|]. cbn [negb]. rewrite F3. discriminate.
          - unfold file_open_handle. rewrite Hh. destruct open_flags_1 as [-> ->]. cbn [negb andb].
            destruct (ev_is_open ev); [|discriminate]. rewrite orb_true_r. reflexivity. }
        rewrite Hpos, HO. reflexivity.
      * exists o, t. split; [exact HO|]. split; [cbn; discriminate|]. split; [reflexivity|exact Hsh].
      * unfold op in Hwho. destruct own; destruct Hwho as [-> _]; reflexivity.
Qed.

Lemma track_step ev w call st : pinv en w -> env_bytes ev -> py_agrees st w ->
  py_agrees (py_track en st (call, fst (py_step en ev w call))) (snd (py_step en ev w call)) /\
  forall a, file_answer en ev st call = Some a -> fst (py_step en ev w call) = a.
Proof.
  intros Hi HB (A1 & A2 & A3).
  destruct (file_call call) eqn:Ef.
  - destruct call as [mode|mode| | | | |name| | | |path|i call|i call]; try discriminate Ef.
    + pose proof (open_step ev w true mode Hi HB) as (H1 & H2 & H3). cbv zeta in *.
      split.
      * unfold py_agrees. cbn [py_track]. rewrite H2. destruct (fst (py_step en ev w (CallOpen mode)));
          try (destruct H3 as [H3 _]; unfold how_open; rewrite H3; exact (conj A1 (conj A2 A3))).
        destruct H3 as [_ H3]. cbn [fst snd]. auto.
      * cbn [file_answer]. intros a [= <-]. rewrite H1, A1. rewrite orb_false_r. reflexivity.
    + pose proof (open_step ev w false mode Hi HB) as (H1 & H2 & H3). cbv zeta in *.
      split.
      * unfold py_agrees. cbn [py_track]. rewrite H2. destruct (fst (py_step en ev w (CallOpenObject mode)));
          try (destruct H3 as [H3 _]; unfold how_open; rewrite H3; exact (conj A1 (conj A2 A3))).
        destruct H3 as [_ H3]. cbn [fst snd]. auto.
      * cbn [file_answer]. intros a [= <-]. rewrite H1, A1. rewrite orb_true_r, andb_true_r. reflexivity.
    + cbn [py_step py_track file_answer]. pose proof (pi_file _ _ Hi) as Hf. pose proof (pi_handle _ _ Hi) as Hp. pose proof (pi_opened _ _ Hi) as Hop.
      unfold file_close, py_agrees, how_open, file_inv in *. destruct (fs_handle (pw_state w)) as [[n|]|] eqn:Eh; rewrite ?A1; cbn [fst snd pw_state fs_handle fs_io].
      * rewrite (Hop Hp). split; [split; [reflexivity|split; [reflexivity|vm_compute; discriminate]]|].
        intros a [= <-]. reflexivity.
      * destruct Hf as (_ & _ & ->). split; [split; [reflexivity|split; [reflexivity|vm_compute; discriminate]]|].
        intros a [= <-]. destruct (ev_close ev); reflexivity.
      * rewrite Eh. split; [split; [reflexivity|split; [exact A2|exact A3]]|]. intros a [= <-]. reflexivity.
    + cbn [py_step py_track file_answer]. unfold parse_string.
      destruct (existsb (Z.eqb 0) name); [split; [exact (conj A1 (conj A2 A3))|intros a [= <-]; reflexivity]|].
      destruct (pe_codepage en name) as [c|]; [|split; [exact (conj A1 (conj A2 A3))|intros a [= <-]; reflexivity]].
      unfold file_set_codepage. rewrite codepages_test. destruct (codepage_name c) eqn:Ec.
      * split; [|intros a [= <-]; reflexivity]. split; [exact A1|]. split; [reflexivity|]. cbn. rewrite Ec. discriminate.
      * split; [exact (conj A1 (conj A2 A3))|intros a [= <-]; reflexivity].
    + cbn. split; [exact (conj A1 (conj A2 A3))|intros a [= <-]; reflexivity].
  - destruct (step_file en ev w call Ef) as [E _]. split.
    + unfold py_agrees. rewrite E. destruct call; try discriminate Ef; exact (conj A1 (conj A2 A3)).
    + destruct call; try discriminate Ef; cbn [file_answer]; try discriminate.
      * cbn [py_step]. rewrite <- A2, codepage_string by exact A3. destruct (codepage_name (snd st)); [intros a [= <-]; reflexivity|discriminate].
      * rewrite A1. unfold how_open. destruct (fs_handle (pw_state w)) as [[|]|] eqn:Eh; try discriminate. intros a [= <-].
        pose proof (closed_no_tree en w Hi Eh) as Et. cbn [py_step]. rewrite Et. reflexivity.
Qed.

Lemma track_run h : forall w st, pinv en w -> program_bytes h -> py_agrees st w ->
  py_agrees (fold_left (py_track en) (combine (map snd h) (fst (py_run en h w))) st) (snd (py_run en h w)).
Proof.
  induction h as [|[ev call] h IH]; intros w st Hi Hb Ha; [exact Ha|]. inversion Hb; subst. cbn [py_run map snd].
  destruct (track_step ev w call st Hi H1 Ha) as [Ha' _]. destruct (py_step_inv en Hen ev w call Hi H1) as (Hi' & _).
  destruct (py_step en ev w call) as [a w1]. cbn [fst snd] in *. specialize (IH w1 _ Hi' H2 Ha').
  destruct (py_run en h w1). exact IH.
Qed.

Lemma ask_step h ev call : ask en h ev call = fst (py_step en ev (snd (py_run en h py_start)) call).
Proof. unfold ask. rewrite py_run_app, py_run_one. cbn [fst]. apply last_last. Qed.

Theorem file_object h ev call a : program_bytes h -> env_bytes ev ->
  file_answer en ev (py_tracked en (combine (map snd h) (fst (py_run en h py_start)))) call = Some a ->
  ask en h ev call = a.
Proof.
  intros Hb HB Hf. rewrite ask_step.
  pose proof (py_run_inv en Hen h py_start Hb (start_inv en)) as Hi.
  assert (H0 : py_agrees (None, 1252) py_start) by (split; [reflexivity|split; [reflexivity|vm_compute; discriminate]]).
  pose proof (track_run h py_start _ (start_inv en) Hb H0) as Ha.
  exact (proj2 (track_step ev _ call _ Hi HB Ha) a Hf).
Qed.

(** ** A file that is open *)
Lemma shows_py ev w call o : pinv en w -> env_bytes ev -> shows (pw_state w) o -> call <> CallClose ->
  shows (pw_state (snd (py_step en ev w call))) o.
Proof.
  intros Hi HB HS Hc. destruct (file_call call) eqn:Ef.
  - pose proof (proj1 HS) as Hh. destruct call; try discriminate Ef; try congruence.
    + destruct (open_step ev w true mode Hi HB) as (H1 & _ & H3). cbv zeta in *.
      assert (E : fst (py_step en ev w (CallOpen mode)) <> ANone).
      { rewrite H1. unfold open_answer, how_open. destruct (match mode with None => true | Some m => _ end); [|discriminate].
        destruct (fs_handle (pw_state w)) as [[|]|]; congruence. }
      destruct (fst (py_step en ev w (CallOpen mode))); try congruence; destruct H3 as [_ H3]; rewrite (H3 Hh); exact HS.
    + destruct (open_step ev w false mode Hi HB) as (H1 & _ & H3). cbv zeta in *.
      assert (E : fst (py_step en ev w (CallOpenObject mode)) <> ANone).
      { rewrite H1. unfold open_answer, how_open. destruct (match mode with None => true | Some m => _ end); [|discriminate].
        destruct (fs_handle (pw_state w)) as [[|]|]; congruence. }
      destruct (fst (py_step en ev w (CallOpenObject mode))); try congruence; destruct H3 as [_ H3]; rewrite (H3 Hh); exact HS.
    + cbn [py_step]. destruct (parse_string name); [exact HS|]. destruct (pe_codepage en l); [|exact HS].
      unfold file_set_codepage. destruct (existsb _ _); exact HS.
    + exact HS.
  - rewrite (proj1 (step_file en ev w call Ef)). exact HS.
Qed.

Lemma shows_py_run h : forall w o, pinv en w -> program_bytes h -> shows (pw_state w) o -> no_close (map snd h) ->
  shows (pw_state (snd (py_run en h w))) o.
Proof.
  induction h as [|[ev call] h IH]; intros w o Hi Hb HS Hn; [exact HS|]. inversion Hb; inversion Hn; subst. cbn [py_run].
  pose proof (shows_py ev w call o Hi H1 HS H5) as HS'. destruct (py_step_inv en Hen ev w call Hi H1) as (Hi' & _).
  destruct (py_step en ev w call) as [a w1]. cbn [fst snd] in *. specialize (IH w1 o Hi' H2 HS' H6).
  destruct (py_run en h w1). exact IH.
Qed.

Lemma run_at h1 ev call h2 : nth_error (fst (py_run en (h1 ++ (ev, call) :: h2) py_start)) (length h1) =
  Some (fst (py_step en ev (snd (py_run en h1 py_start)) call)).
Proof.
  erewrite py_run_nth by (rewrite nth_error_app2, Nat.sub_diag by lia; reflexivity).
  rewrite firstn_app, Nat.sub_diag, firstn_O, app_nil_r, firstn_all. reflexivity.
Qed.

Lemma run_split h1 ev call h2 : snd (py_run en (h1 ++ (ev, call) :: h2) py_start) =
  snd (py_run en h2 (snd (py_step en ev (snd (py_run en h1 py_start)) call))).
Proof. rewrite py_run_app. cbn [snd py_run]. destruct (py_step en ev _ call) as [a w1]. cbn [snd]. destruct (py_run en h2 w1). reflexivity. Qed.

Theorem opened_program h1 ev call h2 : program_bytes (h1 ++ (ev, call) :: h2) -> opens call ->
  nth_error (fst (py_run en (h1 ++ (ev, call) :: h2) py_start)) (length h1) = Some ANone -> no_close (map snd h2) ->
  exists o t, open_read (pe_una en) (ev_reader ev) [] = (Ok o, t) /\
    shows (pw_state (snd (py_run en (h1 ++ (ev, call) :: h2) py_start))) o.
Proof.
  intros Hb Ho Ha Hn. apply Forall_app in Hb as [Hb1 Hb2]. inversion Hb2 as [|? ? HB Hb3]; subst. cbn [fst] in HB.
  rewrite run_at in Ha. injection Ha as Ha. rewrite run_split.
  pose proof (py_run_inv en Hen h1 py_start Hb1 (start_inv en)) as Hi. set (w := snd (py_run en h1 py_start)) in *.
  destruct (py_step_inv en Hen ev w call Hi HB) as (Hi' & _).
  assert (G : exists o t, open_read (pe_una en) (ev_reader ev) [] = (Ok o, t) /\ shows (pw_state (snd (py_step en ev w call))) o).
  { destruct call as [mode|mode| | | | | | | | | | |]; try contradiction.
    - destruct (open_step ev w true mode Hi HB) as (_ & _ & H3). cbv zeta in H3. rewrite Ha in H3. apply H3.
    - destruct (open_step ev w false mode Hi HB) as (_ & _ & H3). cbv zeta in H3. rewrite Ha in H3. apply H3. }
  destruct G as (o & t & HO & HS). exists o, t. split; [exact HO|]. now apply shows_py_run.
Qed.

Lemma version_text major minor : 0 <= major -> 0 <= minor -> format_version major minor = version_answer major minor.
Proof.
  intros H1 H2. unfold format_version, version_answer.
  destruct (9 <? major) eqn:E1; [apply Z.ltb_lt in E1; replace (major <=? 9) with false by (symmetry; apply Z.leb_gt; lia); reflexivity|].
  apply Z.ltb_ge in E1. replace (major <=? 9) with true by (symmetry; apply Z.leb_le; lia).
  destruct (9 <? minor) eqn:E2; [apply Z.ltb_lt in E2; replace (minor <=? 9) with false by (symmetry; apply Z.leb_gt; lia); reflexivity|].
  apply Z.ltb_ge in E2. replace (minor <=? 9) with true by (symmetry; apply Z.leb_le; lia). cbn [andb].
  assert (D : forall x, 0 <= x <= 9 -> find (fun d => fst d =? x) (combine (map Z.of_nat (seq 0 10)) digits) = Some (x, 48 + x)).
  { intros x Hx. assert (Hc : x = 0 \/ x = 1 \/ x = 2 \/ x = 3 \/ x = 4 \/ x = 5 \/ x = 6 \/ x = 7 \/ x = 8 \/ x = 9) by lia.
    repeat (destruct Hc as [->|Hc]; [vm_compute; reflexivity|]). subst x. vm_compute. reflexivity. }
  rewrite !D by lia. reflexivity.
Qed.

(** ** Classes *)
Lemma narrow_equal_eq s t : (forall x, In x s -> x <> 0) -> zlen t = zlen s ->
  narrow_equal (length s) (s ++ [0]) (t ++ [0]) = true <-> t = s.
Proof.
  revert t; induction s as [|x s IH]; intros t Hs Hl.
  - destruct t; [cbn; tauto|]. unfold zlen in Hl. cbn [length] in Hl. lia.
  - destruct t as [|y t]; [unfold zlen in Hl; cbn [length] in Hl; lia|]. cbn [length app narrow_equal].
    assert (x <> 0) by (apply Hs; left; reflexivity). replace (x =? 0) with false by (symmetry; now apply Z.eqb_neq).
    cbn [orb]. rewrite andb_true_iff, Z.eqb_eq, IH.
    + split; [intros [-> ->]; reflexivity|intros [= -> ->]; auto].
    + intros z Hz. apply Hs. right. exact Hz.
    + unfold zlen in *. cbn [length] in Hl. lia.
Qed.

Lemma class_exact e d c : item_type_object en e d = Ok c ->
  (c = ClassItem <-> de_type d <> TYPE_STREAM) /\
  forall n, pe_text en (de_name d) e = Ok n -> (c = ClassPropertySetStream <-> c <> ClassItem /\ property_set_name n).
Proof.
  unfold item_type_object. destruct (de_type d =? TYPE_STREAM) eqn:E.
  2:{ apply Z.eqb_neq in E. intros [= <-]. split; [tauto|]. intros n _. split; [discriminate|]. intros [H _]. congruence. }
  apply Z.eqb_eq in E. destruct (pe_text en (de_name d) e) as [s| | |]; cbn [rbind]; try discriminate.
  assert (Hne : forall n, property_set_name n -> zlen n = 19 \/ zlen n = 27) by (intros n [->| ->]; [left|right]; reflexivity).
  assert (N1 : forall x, In x text_summary -> x <> 0) by (intros x Hx; cbn in Hx; intuition lia).
  assert (N2 : forall x, In x text_document_summary -> x <> 0) by (intros x Hx; cbn in Hx; intuition lia).
  assert (T1 : text_summary = summary_name) by reflexivity.
  assert (T2 : text_document_summary = document_summary_name) by reflexivity.
  assert (X : forall c', (c' = ClassPropertySetStream /\ property_set_name s) \/ (c' = ClassStream /\ ~ property_set_name s) ->
     (c' = ClassItem <-> de_type d <> TYPE_STREAM) /\
     (forall n, Ok s = Ok n -> (c' = ClassPropertySetStream <-> c' <> ClassItem /\ property_set_name n))).
  { intros c' H. split.
    - split; [destruct H as [[-> _]|[-> _]]; discriminate|congruence].
    - intros n [= <-]. destruct H as [[-> H]|[-> H]].
      + split; [intros _; split; [discriminate|exact H]|reflexivity].
      + split; [discriminate|]. intros [_ H']. contradiction. }
  destruct (zlen s + 1 =? 20) eqn:L1.
  - apply Z.eqb_eq in L1. pose proof (narrow_equal_eq text_summary s N1 ltac:(change (zlen text_summary) with 19; lia)) as HN.
    change (length text_summary) with 19%nat in HN.
    destruct (narrow_equal 19 _ _); intros [= <-]; apply X.
    + left. split; [reflexivity|]. left. rewrite <- T1. now apply HN.
    + right. split; [reflexivity|]. intros [H|H]; [rewrite <- T1 in H; apply HN in H; discriminate H|].
      rewrite H in L1. vm_compute in L1. discriminate L1.
  - apply Z.eqb_neq in L1. destruct (zlen s + 1 =? 28) eqn:L2.
    + apply Z.eqb_eq in L2. pose proof (narrow_equal_eq text_document_summary s N2 ltac:(change (zlen text_document_summary) with 27; lia)) as HN.
      change (length text_document_summary) with 27%nat in HN.
      destruct (narrow_equal 27 _ _); intros [= <-]; apply X.
      * left. split; [reflexivity|]. right. rewrite <- T2. now apply HN.
      * right. split; [reflexivity|]. intros [H|H]; [|rewrite <- T2 in H; apply HN in H; discriminate H].
        rewrite H in L2. vm_compute in L2. discriminate L2.
    + apply Z.eqb_neq in L2. intros [= <-]. apply X. right. split; [reflexivity|]. intros H. destruct (Hne s H); lia.
Qed.

Definition class_at (w w' : pyworld) (i : nat) : Prop :=
  exists v t k d c, live_tree w (pw_closed w) = Some (v, t) /\ node_value t k = Ok d /\
    item_type_object en (v_byte_order v) d = Ok c /\ nth_error (pw_objects w') i = Some (OItem (pw_closed w) c k 0) /\
    pw_closed w' = pw_closed w /\ pw_state w' = pw_state w.

Lemma new_sub_class w v t k i : live_tree w (pw_closed w) = Some (v, t) ->
  fst (new_sub_item en w v t k) = AObject i -> class_at w (snd (new_sub_item en w v t k)) i.
Proof.
  intros Hl. unfold new_sub_item. destruct (node_value t k) as [d| | |] eqn:En; try discriminate.
  destruct (item_type_object _ _ _) as [c| | |] eqn:Ec; try discriminate. cbn. intros [= <-].
  exists v, t, k, d, c. do 3 (split; [assumption|]). split; [|auto]. cbn. rewrite nth_error_app2, Nat.sub_diag by lia. reflexivity.
Qed.

Lemma sub_index_class w g k x i : pinv en w -> fst (sub_item_by_index en w g k x) = AObject i ->
  class_at w (snd (sub_item_by_index en w g k x)) i.
Proof.
  intros Hi. unfold sub_item_by_index. destruct (live_tree w g) as [[v t]|] eqn:El; [|discriminate].
  destruct (live_tree_inv en w g v t Hi El) as (-> & _). destruct (get_sub_item t k x); try discriminate. now apply new_sub_class.
Qed.

Lemma gives_class ev w call i : pinv en w -> gives_sub_item call = true -> fst (py_step en ev w call) = AObject i ->
  class_at w (snd (py_step en ev w call)) i.
Proof.
  intros Hi Hg. destruct call as [mode|mode| | | | |name| | | |path|j call|j call]; try discriminate Hg; cbn [py_step].
  - destruct (nth_error (pw_objects w) j) as [[g c k cursor|]|]; try discriminate.
    destruct call as [ | | | | | | |index| |name|path|op|]; try discriminate Hg; unfold item_step_py.
    + destruct (parse_integer index _ _); [discriminate|]. now apply sub_index_class.
    + destruct (live_tree w g) as [[v t]|] eqn:El; [|destruct (parse_string name); discriminate].
      destruct (live_tree_inv en w g v t Hi El) as (-> & _).
      destruct (node_value t k); try discriminate. destruct (parse_string name); [discriminate|].
      unfold found_item. destruct (sub_node_by_utf8_name _ _ _ _ _) as [[x|]| | |]; try discriminate. now apply new_sub_class.
    + destruct (live_tree w g) as [[v t]|] eqn:El; [|destruct (parse_string path); discriminate].
      destruct (live_tree_inv en w g v t Hi El) as (-> & _).
      destruct (node_value t k); try discriminate. destruct (parse_string path); [discriminate|].
      unfold found_item. destruct (sub_item_by_utf8_path _ _ _ _ _) as [[x|]| | |]; try discriminate. now apply new_sub_class.
  - destruct (nth_error (pw_objects w) j) as [[|g k cu n]|] eqn:Ej; try discriminate.
    destruct call as [|v| |]; try discriminate Hg; cbn [sequence_step].
    + destruct v; try discriminate. destruct (_ || _); [discriminate|]. destruct (n <? 0); [discriminate|].
      destruct (_ || _); [discriminate|]. now apply sub_index_class.
    + destruct (cu <? 0); [discriminate|]. destruct (n <? 0); [discriminate|]. destruct (n <=? cu); [discriminate|].
      pose proof (sub_index_class w g k cu) as H. pose proof (sub_index_objects en w g k cu) as (new & Ho & _).
      destruct (sub_item_by_index en w g k cu) as [a w']. cbn [fst snd] in *. destruct a; try discriminate. cbn [fst snd]. intros [= ->].
      destruct (H i Hi eq_refl) as (v & t & k' & d & c & A1 & A2 & A3 & A4 & A5 & A6).
      exists v, t, k', d, c. do 3 (split; [assumption|]). split; [|auto].
      unfold set_object. cbn [set_objects pw_objects]. rewrite replace_nth_other; [exact A4|].
      intros ->. rewrite Ho, nth_error_app1, Ej in A4 by (apply nth_error_Some; congruence). discriminate A4.
Qed.

(** ** What other calls do to an object *)
Lemma tree_shows u s t : file_inv u s -> file_tree s = Some t -> exists o, o_tree o = Some t /\ shows s o.
Proof.
  intros Hi Ht. unfold file_inv in Hi. destruct (fs_handle s) as [h|] eqn:Eh.
  - destruct Hi as [(rd & o & tt & H1 & H2 & H3 & H4) _]. exists o. unfold file_tree in Ht. rewrite H3 in Ht.
    split; [exact Ht|]. split; [congruence|auto].
  - destruct Hi as (H & _). unfold file_tree in Ht. rewrite H in Ht. discriminate.
Qed.

Lemma live_same h w i g c k cursor : pinv en w -> program_bytes h -> no_close (map snd h) ->
  nth_error (pw_objects w) i = Some (OItem g c k cursor) ->
  live_tree (snd (py_run en h w)) g = live_tree w g /\ pw_closed (snd (py_run en h w)) = pw_closed w.
Proof.
  intros Hi Hb Hn Ho. pose proof (run_closed en Hen h w Hi Hb Hn) as Hc. split; [|exact Hc]. unfold live_tree. rewrite Hc.
  destruct (Nat.eqb g (pw_closed w)) eqn:Eg; [|reflexivity]. apply Nat.eqb_eq in Eg.
  destruct (proj1 (Forall_forall _ _) (pi_objects _ _ Hi) _ (nth_error_In _ _ Ho)) as (_ & _ & HT).
  destruct (HT Eg) as (t & d & Ht & _).
  destruct (tree_shows _ _ _ (pi_file _ _ Hi) Ht) as (o & Eo & HS).
  pose proof (shows_py_run h w o Hi Hb HS Hn) as HS'.
  assert (ET : forall s, shows s o -> file_tree s = Some t) by (intros s (_ & Hd & _); unfold file_tree; rewrite Hd; exact Eo).
  rewrite (ET _ HS), (ET _ HS'), (shows_volume _ _ _ HS Eo), (shows_volume _ _ _ HS' Eo). reflexivity.
Qed.

(** A call on an item object, after calls on other objects. *)
Theorem others_apart h h2 ev i q : program_bytes h -> program_bytes h2 -> no_close (map snd h2) -> apart_from i h2 ->
  (forall c, ask en h ev (OnItem i CallType) = AClass c ->
   ask en (h ++ h2) ev (OnItem i q) = ask en h ev (OnItem i q) \/
   exists x y, ask en (h ++ h2) ev (OnItem i q) = AObject x /\ ask en h ev (OnItem i q) = AObject y).
Proof.
  intros Hb Hb2 Hn Hap c. rewrite !ask_step, py_run_app. cbn [snd].
  pose proof (py_run_inv en Hen h py_start Hb (start_inv en)) as Hi. set (w := snd (py_run en h py_start)) in *.
  cbn [py_step]. destruct (nth_error (pw_objects w) i) as [[g c' k cursor|g k cu n]|] eqn:Ei; try discriminate. intros _.
  destruct (run_item en i h2 w g c' k cursor Ei) as (cursor' & E1 & E2). rewrite (E2 Hap) in E1. rewrite E1.
  destruct (live_same h2 w i g c' k cursor Hi Hb2 Hn Ei) as [EL _]. set (w2 := snd (py_run en h2 w)) in *.
  assert (Hs : forall a : reply, a = a \/ exists x y, a = AObject x /\ a = AObject y) by auto.
  assert (Hadd : forall ob ob', fst (add_object w2 ob) = fst (add_object w ob') \/
     exists x y, fst (add_object w2 ob) = AObject x /\ fst (add_object w ob') = AObject y) by (intros; right; cbn; eauto).
  assert (Hns : forall v t j, fst (new_sub_item en w2 v t j) = fst (new_sub_item en w v t j) \/
     exists x y, fst (new_sub_item en w2 v t j) = AObject x /\ fst (new_sub_item en w v t j) = AObject y).
  { intros v t j. unfold new_sub_item. destruct (node_value t j); try apply Hs. destruct (item_type_object _ _ _); try apply Hs. apply Hadd. }
  assert (Hfo : forall v t r, fst (found_item en w2 v t r) = fst (found_item en w v t r) \/
     exists x y, fst (found_item en w2 v t r) = AObject x /\ fst (found_item en w v t r) = AObject y).
  { intros v t r. unfold found_item. destruct r as [[j|]| | |]; try apply Hs. apply Hns. }
  unfold item_step_py, sub_item_by_index. rewrite EL.
  destruct q as [ | | | | | | |index| |name|path|op|].
  8:{ destruct (parse_integer index _ _); [apply Hs|]. destruct (live_tree w g) as [[v t]|]; [|apply Hs].
      destruct (get_sub_item t k z); try apply Hs. apply Hns. }
  12:{ apply Hs. }
  all: destruct (live_tree w g) as [[v t]|].
  all: try (destruct (node_value t k) as [d| | |]); try (apply Hs).
  - destruct (pe_text en _ _); [destruct (pe_decodes en a)|..]; apply Hs.
  - destruct (get_number_of_sub_items t k); apply Hs.
  - destruct (get_number_of_sub_items t k); try apply Hs. apply Hadd.
  - destruct (parse_string name); [apply Hs|]. apply Hfo.
  - destruct (parse_string name); apply Hs.
  - destruct (parse_string path); [apply Hs|]. apply Hfo.
  - destruct (parse_string path); apply Hs.
  - destruct c'; try apply Hs; destruct (py_stream_step _ _ _ _ _ _); apply Hs.
  - destruct c'; apply Hs.
Qed.

(** The class of an item below another one. *)
Theorem class_of_sub_item h1 ev call h2 i : program_bytes (h1 ++ (ev, call) :: h2) -> gives_sub_item call = true ->
  nth_error (fst (py_run en (h1 ++ (ev, call) :: h2) py_start)) (length h1) = Some (AObject i) -> no_close (map snd h2) ->
  exists c, forall ev', ask en (h1 ++ (ev, call) :: h2) ev' (OnItem i CallType) = AClass c /\
    (c = ClassItem <-> ask en (h1 ++ (ev, call) :: h2) ev' (OnItem i (CallStream PyTell)) = ARaise AttributeError) /\
    forall n, ask en (h1 ++ (ev, call) :: h2) ev' (OnItem i CallName) = AText n ->
      (c = ClassPropertySetStream <-> c <> ClassItem /\ property_set_name n).
Proof.
  intros Hb Hg Ha Hn. apply Forall_app in Hb as [Hb1 Hb2]. inversion Hb2 as [|? ? HB Hb3]; subst. cbn [fst] in HB.
  rewrite run_at in Ha. injection Ha as Ha.
  pose proof (py_run_inv en Hen h1 py_start Hb1 (start_inv en)) as Hi.
  destruct (py_step_inv en Hen ev _ call Hi HB) as (Hi' & _).
  destruct (gives_class ev _ call i Hi Hg Ha) as (v & t & k & d & c & A1 & A2 & A3 & A4 & A5 & A6).
  set (w0 := snd (py_run en h1 py_start)) in *. set (w1 := snd (py_step en ev w0 call)) in *.
  destruct (run_item en i h2 w1 _ _ _ _ A4) as (cursor & E1 & _).
  destruct (live_same h2 w1 i _ c k 0 Hi' Hb3 Hn A4) as [EL EC].
  assert (EL0 : live_tree w1 (pw_closed w0) = Some (v, t)) by (rewrite <- A1; unfold live_tree; rewrite A5, A6; reflexivity).
  rewrite EL0 in EL. destruct (class_exact _ _ _ A3) as [K1 K2]. exists c. intros ev'. rewrite !ask_step, run_split. fold w0. fold w1.
  set (w2 := snd (py_run en h2 w1)) in *. cbn [py_step]. rewrite E1. unfold item_step_py. rewrite EL, A2. split; [reflexivity|]. split.
  - destruct c; [split; auto|..].
    all: split; [discriminate|]; intros X; exfalso; cbn [py_stream_step] in X; unfold py_stream_tell in X.
    all: destruct (stream_get_offset d cursor) eqn:Eo; cbn in X; discriminate X.
  - intros n. destruct (pe_text en (de_name d) (v_byte_order v)) as [s| | |]; try discriminate.
    destruct (pe_decodes en s); [|discriminate]. cbn [fst]. intros [= ->]. now apply K2.
Qed.

(** The items that the file object gives are never of that class. *)
Theorem class_of_file_item h1 ev call h2 i : program_bytes (h1 ++ (ev, call) :: h2) ->
  (call = CallRootItem \/ exists path, call = CallItemByPath path) ->
  nth_error (fst (py_run en (h1 ++ (ev, call) :: h2) py_start)) (length h1) = Some (AObject i) ->
  forall ev', ask en (h1 ++ (ev, call) :: h2) ev' (OnItem i CallType) = AClass ClassItem \/
              ask en (h1 ++ (ev, call) :: h2) ev' (OnItem i CallType) = AClass ClassStream.
Proof.
  intros Hb Hc Ha ev'. rewrite run_at in Ha. injection Ha as Ha. rewrite ask_step, run_split.
  set (w0 := snd (py_run en h1 py_start)) in *.
  assert (G : exists c k, nth_error (pw_objects (snd (py_step en ev w0 call))) i = Some (OItem (pw_closed w0) c k 0) /\ c <> ClassPropertySetStream).
  { assert (X : forall r, fst (new_file_item w0 r) = AObject i -> exists c k,
        nth_error (pw_objects (snd (new_file_item w0 r))) i = Some (OItem (pw_closed w0) c k 0) /\ c <> ClassPropertySetStream).
    { intros r. unfold new_file_item. destruct r as [[k|]| | |]; try discriminate. destruct (file_tree (pw_state w0)); [|discriminate].
      destruct (node_value t k) as [d| | |]; try discriminate. cbn. intros [= <-]. exists (file_type_object d), k.
      rewrite nth_error_app2, Nat.sub_diag by lia. split; [reflexivity|]. unfold file_type_object. destruct (_ =? _); discriminate. }
    destruct Hc as [->|(path & ->)]; cbn [py_step] in *; [now apply X|]. destruct (parse_string path); [discriminate Ha|]. now apply X. }
  destruct G as (c & k & E & Hne). destruct (run_item en i h2 _ _ _ _ _ E) as (cursor & E1 & _). cbn [py_step]. rewrite E1.
  destruct c; [left|right|congruence]; reflexivity.
Qed.

Theorem format_version_exact f h1 ev call h2 : program_bytes (h1 ++ (ev, call) :: h2) -> opens call ->
  nth_error (fst (py_run en (h1 ++ (ev, call) :: h2) py_start)) (length h1) = Some ANone -> no_close (map snd h2) ->
  io_sound (ev_reader ev) f ->
  exists e, header_acceptable (slice f 0 512) e /\
    forall ev', ask en (h1 ++ (ev, call) :: h2) ev' CallFormatVersion =
      version_answer (value_at e (slice f 0 512) 26 2) (value_at e (slice f 0 512) 24 2).
Proof.
  intros Hb Ho Ha Hn HS. destruct (opened_program h1 ev call h2 Hb Ho Ha Hn) as (o & t & HO & (_ & _ & S1 & S2 & _)).
  apply Forall_app in Hb as [Hb1 Hb2]. inversion Hb2 as [|? ? HB _]; subst. cbn [fst] in HB.
  destruct (opened_outcome (pe_una en) (ev_reader ev) (po_una en Hen) HB o t HO) as (data & e & Hd & Hl & Hby & Hacc & Hh & _).
  destruct (HS [] 0 512 data ltac:(lia) ltac:(lia) Hd Hl) as [_ Hdata]. rewrite Hdata in *.
  exists e. split; [exact Hacc|]. intros ev'. rewrite ask_step. cbn [py_step fst]. rewrite S1, S2, Hh. cbn [decoded fh_major_format_version fh_minor_format_version].
  apply version_text; apply value_at_nonneg; exact Hby.
Qed.
End File.
