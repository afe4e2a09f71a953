(** Lemmas on olecfinfo when requests for memory can fail: whole runs. *)
From Coq Require Import String ZArith List Bool Lia Permutation.
From Verif Require Import Base Spec_IO Spec_Stream Spec_Tree Spec_Open M_Table M_Header M_Load M_Stream M_Tree M_Open M_Item M_Mount M_File
  M_Prop M_PyProp M_Info M_Mem Spec_Mem M_PropMem Spec_PropMem Spec_Prop Spec_PyProp Spec_Info Spec_InfoTool M_InfoTool
  L_Base L_Tree L_Mem L_PropMem L_Mem3 L_Mem5 L_Mem6 L_File L_Sound L_Info2 L_Info3 L_Info4 L_Info5 L_InfoTool L_InfoGrow.
Import ListNotations.
Open Scope Z_scope.

(** * The steps *)
Fixpoint qchain (l : list (im unit * string)) : im unit :=
  match l with [] => qret tt | (m, _) :: l => qbind m (fun _ => qchain l) end.
Fixpoint chain (l : list (pio unit)) : pio unit :=
  match l with [] => pret tt | m :: l => pbind m (fun _ => chain l) end.

Lemma in_turn_chain l : forall s,
  match qchain l s with
  | (Ok _, s') => in_turn l s = (Ok None, s')
  | (Err, s') => exists m, in_turn l s = (Ok (Some m), s')
  | (Undef, s') => in_turn l s = (Undef, s')
  | (NoFuel, s') => in_turn l s = (NoFuel, s')
  end.
Proof.
  induction l as [|[m x] l IH]; intros s; cbn [qchain in_turn]; [reflexivity|]. unfold qbind.
  destruct (m s) as [[a| | |] s1]; try reflexivity; [apply IH|eauto].
Qed.

Lemma follows_chain o l gs : Forall2 (fun x g => follows o (fst x) g) l gs -> follows o (qchain l) (chain gs).
Proof.
  induction 1 as [|[m x] g l gs H _ IH]; cbn [qchain chain]; [apply follows_ret|].
  apply follows_bind; [exact H|]. intros _. exact IH.
Qed.

Lemma grows_prints m a : prints m a -> grows m.
Proof. intros H w. destruct (H w) as (t & ->). eexists. reflexivity. Qed.

Lemma shown_shows o : shows (shown_file o) o.
Proof. split; [discriminate|]. split; [reflexivity|]. do 6 (split; [reflexivity|]). intros tr H. cbn [shown_file fs_io io_start]. now rewrite H. Qed.

Section Run.
Variables (lib : infolib) (text : list Z -> fv_encoding -> option (list Z))
  (empty : fv_type -> option (list Z)) (names : list Z -> endian -> option (list Z))
  (date : Z -> option (list Z)) (u : una) (rd : reader) (mem : memory).
Hypothesis HL : infolib_ok lib text empty names date.
Hypothesis Hu : una_ok u.
Hypothesis HB : io_bytes rd.

Lemma allocation_prints : prints unallocated_fprint (allocation_pieces true).
Proof.
  unfold unallocated_fprint, allocation_pieces. rewrite str_text.
  apply (prints_same _ ([Some (text_of "Unallocated blocks:" ++ [10])] ++ [Some [10]])).
  - cbn [printed app fst snd]. rewrite <- app_assoc. reflexivity.
  - apply prints_bind; apply prints_print.
Qed.

Lemma steps_follow o allocation : sound_file u o ->
  exists gs, Forall2 (fun x g => follows (o_tree o) (fst x) g) (info_steps mem lib u rd (shown_file o) allocation) gs /\
    prints_some (chain gs) (told lib text empty names date u rd o allocation).
Proof.
  intros HSo. set (s := shown_file o). pose proof (shown_shows o : shows s o) as HS.
  exists ([file_fprint s; items_fprint lib (file_endian s) (file_tree s)] ++
          (if allocation then [unallocated_fprint] else []) ++
          [summary_fprint lib u rd (file_volume s) (file_tree s) 1252;
           document_summary_fprint lib u rd (file_volume s) (file_tree s) 1252]).
  pose proof (file_prints u o HSo s HS) as HF.
  destruct (items_prints lib text empty names date u o HL Hu HSo s HS) as (L & HLi & HPi).
  pose proof (information_prints lib text empty names date u rd o HL Hu HB HSo s 1252
               (5 :: str "SummaryInformation") (str "Summary information:") HS) as HI1.
  pose proof (information_prints lib text empty names date u rd o HL Hu HB HSo s 1252
               (5 :: str "DocumentSummaryInformation") (str "Document summary information:") HS) as HI2.
  assert (HV : match o_tree o, file_volume s with
               | Some t, Some v => volume_ok v /\ forall k d, node_value t k = Ok d -> dirent_ok d
               | _, _ => True
               end).
  { destruct (o_tree o) as [t|] eqn:Et; [|exact I]. rewrite (shows_volume s o t HS Et). split; [apply (sf_volume _ _ HSo)|].
    intros k d Hd. apply (sound_item u o t Hu HSo Et k). unfold node_value in Hd.
    destruct (nth_error (tr_nodes t) k) as [n|] eqn:En; [|discriminate]. exists n. split; [exact En|congruence]. }
  split.
  - unfold info_steps. cbv zeta. change (io_codepage (fs_io s)) with 1252. change (file_tree s) with (o_tree o).
    constructor; [apply follows_shown; exact (grows_prints _ _ HF)|]. constructor; [apply follows_items|].
    apply Forall2_app.
    + destruct allocation; constructor; [|constructor]. apply follows_shown. exact (grows_prints _ _ allocation_prints).
    + constructor; [apply follows_information; assumption|]. constructor; [apply follows_information; assumption|constructor].
  - change (file_tree s) with (o_tree o).
    assert (HR : prints_some (pret tt) (fun l => l = [])) by apply prints_prints_some, prints_ret.
    pose proof (prints_some_then _ _ _ _ HI1 (prints_some_then _ _ _ _ HI2 HR)) as HE.
    assert (HM : prints_some (chain ((if allocation then [unallocated_fprint] else []) ++
          [summary_fprint lib u rd (file_volume s) (o_tree o) 1252;
           document_summary_fprint lib u rd (file_volume s) (o_tree o) 1252]))
          (fun l => exists a b, a = allocation_pieces allocation /\ (exists s1 b1,
              information lib text empty date u rd (opened_volume o) (o_tree o) 1252 (5 :: str "SummaryInformation") (str "Summary information:" ++ [10]) s1 /\
              (exists s2 b2, information lib text empty date u rd (opened_volume o) (o_tree o) 1252 (5 :: str "DocumentSummaryInformation") (str "Document summary information:" ++ [10]) s2 /\
                 b2 = [] /\ b1 = s2 ++ b2) /\ b = s1 ++ b1) /\ l = a ++ b)).
    { destruct allocation.
      - exact (prints_some_then _ _ _ _ (prints_prints_some _ _ allocation_prints) HE).
      - intros w. destruct (HE w) as (l & t & Hl & Ht). exists l, t. split; [|exact Ht]. exists [], l. auto. }
    pose proof (prints_some_then _ _ _ _ (prints_prints_some _ _ HF) (prints_some_then _ _ _ _ (prints_prints_some _ _ HPi) HM)) as HP.
    intros w. destruct (HP w) as (l & t & HQ & HT). exists l, t. split; [|exact HT].
    destruct HQ as (a1 & b1 & -> & (a2 & b2 & -> & (a3 & b3 & -> & (s1 & b4 & H1 & (s2 & b5 & H2 & -> & ->) & ->) & ->) & ->) & ->).
    rewrite !str_text in H1, H2. exists L, s1, s2. split; [exact HLi|]. split; [exact H1|]. split; [exact H2|].
    now rewrite app_nil_r.
Qed.

(** The header is printed before anything is requested. *)
Lemma steps_head o allocation s : sound_file u o -> exists more,
  i_out (snd (in_turn (info_steps mem lib u rd (shown_file o) allocation) {| i_out := []; i_root := None; i_mem := s |})) =
  fst (printed (file_pieces (o_header o))) ++ more.
Proof.
  intros HSo. pose proof (file_prints u o HSo (shown_file o) (shown_shows o)) as HF.
  set (rest := tl (info_steps mem lib u rd (shown_file o) allocation)).
  assert (G : qgrows (in_turn rest)).
  { apply qgrows_turn. unfold rest, info_steps. cbv zeta. cbn [app tl]. constructor; [apply qgrows_items|]. apply Forall_app. split.
    - destruct allocation; constructor; [|constructor]. apply qgrows_shown. exact (grows_prints _ _ allocation_prints).
    - constructor; [apply qgrows_information|]. constructor; [apply qgrows_information|constructor]. }
  change (info_steps mem lib u rd (shown_file o) allocation) with
    ((shown (file_fprint (shown_file o)), "Unable to print file information."%string) :: rest).
  clearbody rest. cbn [in_turn]. unfold shown at 1. cbn [i_out i_root i_mem].
  destruct (HF {| p_out := []; p_trace := m_trace s |}) as (t & ->). cbn [p_out app].
  change (snd (printed (file_pieces (o_header o)))) with true. cbv iota beta. exact (G _).
Qed.

Lemma steps_run o allocation s : sound_file u o -> fit s ->
  exists failed st l q leak,
    in_turn (info_steps mem lib u rd (shown_file o) allocation) {| i_out := []; i_root := None; i_mem := s |} = (Ok failed, st) /\
    moved s q [] (root_blocks st ++ leak) (i_mem st) /\ at_most_a_section (i_mem st) leak /\
    told lib text empty names date u rd o allocation l /\
    match failed with
    | None => leak = [] /\ granted q /\ i_out st = fst (printed l) /\ snd (printed l) = true
    | Some _ => (granted q /\ i_out st = fst (printed l) /\ snd (printed l) = false) \/
                (refused q /\ exists more, fst (printed l) = i_out st ++ more)
    end.
Proof.
  intros HSo F. destruct (steps_follow o allocation HSo) as (gs & H2 & HP).
  destruct (follows_chain _ _ _ H2) as [_ H]. set (st0 := {| i_out := []; i_root := None; i_mem := s |}).
  specialize (H st0 F). assert (O : owns (i_mem st0) (root_blocks st0)) by (intros x; cbn; lia).
  assert (R : root_ok (o_tree o) st0) by (intros k p; discriminate). specialize (H O R).
  destruct (HP (view st0)) as (l & t' & HT & HR). rewrite HR in H. cbn [fst snd view st0 i_out p_out app] in H.
  pose proof (in_turn_chain (info_steps mem lib u rd (shown_file o) allocation) st0) as HC.
  destruct (qchain _ st0) as [r st]. cbn [fst snd] in H. change (i_mem st0) with s in H. change (root_blocks st0) with (@nil Z) in H.
  destruct r as [[]| | |]; cbn [post] in H.
  - destruct H as (_ & q & M & G & E & V). exists None, st, l, q, []. split; [exact HC|]. rewrite app_nil_r. split; [exact M|].
    split; [apply section_none|]. split; [exact HT|]. split; [reflexivity|]. split; [exact G|].
    split; [exact (f_equal p_out (eq_sym V))|]. destruct (snd (printed l)); [reflexivity|discriminate].
  - destruct HC as (m & HC). destruct H as (_ & q & leak & M & Lk & H). exists (Some m), st, l, q, leak. split; [exact HC|].
    split; [exact M|]. split; [exact Lk|]. split; [exact HT|].
    destruct H as [(G & E & V)|(Rq & more & E)]; [left|right; split; [exact Rq|exists more; exact E]].
    split; [exact G|]. split; [exact (f_equal p_out (eq_sym V))|]. destruct (snd (printed l)); [discriminate|reflexivity].
  - destruct (snd (printed l)); cbn in H; tauto.
  - destruct (snd (printed l)); cbn in H; tauto.
Qed.
End Run.

(** * The handles *)
Definition handle_blocks (h : info_handle) : list Z := [ih_io h; ih_file h; ih_struct h].
Definition source_blocks (x : option (Z * mfile)) : list Z :=
  match x with Some (b, f) => b :: file_blocks f | None => [] end.

Lemma initialize_mm mem s : fit s ->
  exists r s' q, info_initialize mem s = (Ok r, s') /\ m_trace s' = m_trace s /\
    (forall k b, In (k, b) q -> k = RTool) /\
    match r with
    | Some h => moved s q [] (handle_blocks h) s' /\ granted q
    | None => moved s q [] [] s' /\ refused q
    end.
Proof.
  intros F. unfold info_initialize.
  destruct (alloc_spec mem RTool s F) as (r & s1 & X1 & T1 & M1). rewrite (mbind_ok _ _ _ _ _ X1). destruct r as [a|].
  2: { exists None, s1, [(RTool, false)]. split; [reflexivity|]. split; [exact T1|].
       split; [intros k b [[= <- _]|[]]; reflexivity|]. split; [exact M1|apply refused_one]. }
  destruct (alloc_spec mem RTool s1 (proj1 M1)) as (r & s2 & X2 & T2 & M2). rewrite (mbind_ok _ _ _ _ _ X2). destruct r as [b|].
  2: { destruct (release_spec a s2 (proj1 M2)) as (s3 & X3 & T3 & M3); [own|]. rewrite (mbind_ok _ _ _ _ _ X3).
       exists None, s3, [(RTool, true); (RTool, false)]. split; [reflexivity|]. split; [congruence|].
       split; [intros k x [[= <- _]|[[= <- _]|[]]]; reflexivity|]. split; [weigh|apply refused_two, refused_one]. }
  destruct (alloc_spec mem RTool s2 (proj1 M2)) as (r & s3 & X3 & T3 & M3). rewrite (mbind_ok _ _ _ _ _ X3). destruct r as [c|].
  2: { destruct (release_spec b s3 (proj1 M3)) as (s4 & X4 & T4 & M4); [own|]. rewrite (mbind_ok _ _ _ _ _ X4).
       destruct (release_spec a s4 (proj1 M4)) as (s5 & X5 & T5 & M5); [own|]. rewrite (mbind_ok _ _ _ _ _ X5).
       exists None, s5, [(RTool, true); (RTool, true); (RTool, false)]. split; [reflexivity|]. split; [congruence|].
       split; [intros k x [[= <- _]|[[= <- _]|[[= <- _]|[]]]]; reflexivity|]. split; [weigh|apply refused_two, refused_two, refused_one]. }
  eexists (Some _), s3, [(RTool, true); (RTool, true); (RTool, true)]. split; [reflexivity|]. split; [congruence|].
  split; [intros k x [[= <- _]|[[= <- _]|[[= <- _]|[]]]]; reflexivity|].
  unfold handle_blocks. cbn [ih_io ih_file ih_struct]. split; [weigh|grants].
Qed.

Lemma source_mm mem u ev s : una_ok u -> io_bytes (ev_reader ev) -> fit s ->
  exists r s' q, source_open mem u ev s = (Ok r, s') /\
    match r with
    | None => moved s q [] [] s' /\
        (refused q \/ ev_is_open ev = false \/ ev_open ev = false \/ exists t, open_read u (ev_reader ev) (m_trace s) = (Err, t))
    | Some (b, f) => moved s q [] (source_blocks r) s' /\ closable f /\ ev_is_open ev = true /\ ev_open ev = true /\
        opens u (ev_reader ev) (m_trace s) (In (RSat, false) q) (In (RSsat, false) q) (mf_opened f) (m_trace s') /\
        forall k, In (k, false) q -> k = RSat \/ k = RSsat
    end.
Proof.
  intros Hu HB F. unfold source_open.
  destruct (alloc_spec mem RTool s F) as (r & s1 & X1 & T1 & M1). rewrite (mbind_ok _ _ _ _ _ X1). destruct r as [b|].
  2: { exists None, s1, [(RTool, false)]. split; [reflexivity|]. split; [exact M1|]. left. apply refused_one. }
  destruct (grant_spec mem RTool s1 (proj1 M1)) as (named & s2 & X2 & T2 & M2). rewrite (mbind_ok _ _ _ _ _ X2).
  destruct (named && ev_is_open ev && ev_open ev) eqn:Ec.
  - apply andb_true_iff in Ec as [Ec E3]. apply andb_true_iff in Ec as [E1 E2]. subst named.
    destruct (open_mm mem u (ev_reader ev) s2 Hu HB (proj1 M2)) as (r & s3 & q & X3 & P). rewrite (mbind_ok _ _ _ _ _ X3).
    destruct r as [f|].
    + exists (Some (b, f)), s3, ([(RTool, true); (RTool, true)] ++ q). split; [reflexivity|].
      pose proof (open_closable _ _ _ _ _ _ Hu P) as C. destruct P as (M3 & O & Q & _). cbn [source_blocks].
      split; [weigh|]. split; [exact C|]. split; [exact E2|]. split; [exact E3|].
      assert (QE : forall k, In (k, false) ([(RTool, true); (RTool, true)] ++ q) <-> In (k, false) q).
      { intros k. cbn [app In]. split; [intros [H|[H|H]]; [discriminate|discriminate|exact H]|tauto]. }
      split; [|intros k Hk; apply Q, QE, Hk]. rewrite T2, T1 in O.
      destruct O as (m & t1 & t2 & t3 & t4 & H1 & H2 & H3 & H4 & H5 & H6). exists m, t1, t2, t3, t4.
      split; [exact H1|]. split; [exact H2|]. split; [|split; [|split; [exact H5|exact H6]]].
      * destruct H3 as [[N H3]|[R H3]]; [left|right]; (split; [rewrite QE; assumption|exact H3]).
      * destruct H4 as [[N H4]|[R H4]]; [left|right]; (split; [rewrite QE; assumption|exact H4]).
    + destruct P as (M3 & P). destruct (release_spec b s3 (proj1 M3)) as (s4 & X4 & T4 & M4); [own|].
      rewrite (mbind_ok _ _ _ _ _ X4). exists None, s4, ([(RTool, true); (RTool, true)] ++ q). split; [reflexivity|].
      split; [weigh|]. destruct P as [R|E]; [left; now apply refused_r|]. right. right. right. rewrite T2, T1 in E. eauto.
  - destruct (release_spec b s2 (proj1 M2)) as (s4 & X4 & T4 & M4); [own|]. rewrite (mbind_ok _ _ _ _ _ X4).
    exists None, s4, [(RTool, true); (RTool, named)]. split; [reflexivity|]. split; [weigh|].
    destruct named; [|left; apply refused_two, refused_one]. right. destruct (ev_is_open ev); [|now left].
    destruct (ev_open ev); [discriminate|]. right. now left.
Qed.

Lemma source_close_mm ev x s : (forall b f, x = Some (b, f) -> closable f) -> fit s -> owns s (source_blocks x) ->
  exists s', source_close ev x s = (Ok (match x with Some _ => ev_close ev | None => false end), s') /\ moved s [] (source_blocks x) [] s'.
Proof.
  intros C F O. destruct x as [[b f]|]; cbn [source_close source_blocks] in *.
  - destruct (release_spec b s F) as (s1 & X1 & _ & M1); [own|]. rewrite (mbind_ok _ _ _ _ _ X1).
    destruct (close_mm f s1 (C _ _ eq_refl) (proj1 M1)) as (s2 & X2 & _ & M2); [own|]. rewrite (mbind_ok _ _ _ _ _ X2).
    exists s2. split; [reflexivity|]. weigh.
  - exists s. split; [reflexivity|]. split; [exact F|]. split; [now rewrite app_nil_r|reflexivity].
Qed.

Lemma info_close_mm ev root x s : (forall b f, x = Some (b, f) -> closable f) -> fit s -> owns s (opt_list root ++ source_blocks x) ->
  exists s', info_close ev root x s = (Ok (match x with Some _ => ev_close ev | None => false end), s') /\
    moved s [] (opt_list root ++ source_blocks x) [] s'.
Proof.
  intros C F O. unfold info_close.
  destruct (release_all_spec (opt_list root) s F) as (s1 & X1 & _ & M1); [own|]. rewrite (mbind_ok _ _ _ _ _ X1).
  destruct (source_close_mm ev x s1 C (proj1 M1)) as (s2 & X2 & M2); [own|]. exists s2. split; [exact X2|]. weigh.
Qed.

Lemma info_free_mm ev h s : fit s -> owns s (handle_blocks h) ->
  exists s', info_free ev h None s = (Ok true, s') /\ moved s [] (handle_blocks h) [] s'.
Proof.
  intros F O. unfold info_free, handle_blocks in *. rewrite (mbind_ok (mret true) _ s true s) by reflexivity.
  destruct (release_spec (ih_io h) s F) as (s1 & X1 & _ & M1); [own|]. rewrite (mbind_ok _ _ _ _ _ X1).
  destruct (release_spec (ih_file h) s1 (proj1 M1)) as (s2 & X2 & _ & M2); [own|]. rewrite (mbind_ok _ _ _ _ _ X2).
  destruct (release_spec (ih_struct h) s2 (proj1 M2)) as (s3 & X3 & _ & M3); [own|]. rewrite (mbind_ok _ _ _ _ _ X3).
  exists s3. split; [reflexivity|]. weigh.
Qed.

(** * The run *)
Definition early (r : report) : Prop :=
  exists a x, r_messages r = a ++ [x] /\
    In x ["Unable to initialize info handle."; "Unable to set ASCII codepage in info handle."; "Unable to open: source."]%string.

Definition ended (lib : infolib) text empty names date (u : una) (ev : env) (allocation : bool) (codepage : option (res bool))
    (s : mst) (q : list (kind * bool)) (r : report) : Prop :=
  (r_success r = false -> r_messages r <> []) /\
  ((r_success r = false /\ r_out r = [] /\
    (refused q \/ codepage = Some Err \/ ev_is_open ev = false \/ ev_open ev = false \/
     exists t, open_read u (ev_reader ev) (m_trace s) = (Err, t)) /\ early r) \/
   exists o t' (a b : Prop) l,
     ev_is_open ev = true /\ ev_open ev = true /\
     opens u (ev_reader ev) (m_trace s) a b o t' /\ (a -> In (RSat, false) q) /\ (b -> In (RSsat, false) q) /\
     told lib text empty names date u (ev_reader ev) o allocation l /\
     (exists more, fst (printed l) = r_out r ++ more) /\
     (r_success r = true -> (forall k, In (k, false) q -> k = RSat \/ k = RSsat) /\
        r_out r = fst (printed l) /\ snd (printed l) = true /\ ev_close ev = true) /\
     (granted q -> r_out r = fst (printed l) /\ r_success r = snd (printed l) && ev_close ev) /\
     (exists more, r_out r = fst (printed (file_pieces (o_header o))) ++ more)).

Lemma end_not_nil {A} (l : list A) x : l ++ [x] <> [].
Proof. destruct l; discriminate. Qed.

Lemma main_mm lib text empty names date mem u ev allocation codepage s :
  infolib_ok lib text empty names date -> una_ok u -> io_bytes (ev_reader ev) -> fit s ->
  match codepage with Some r => defined r | None => True end ->
  exists r s' q leak, info_main mem lib u ev allocation codepage s = (Ok r, s') /\
    moved s q [] leak s' /\ at_most_a_section s' leak /\ (r_success r = true -> leak = []) /\
    ended lib text empty names date u ev allocation codepage s q r.
Proof.
  intros HL Hu HB F HC. unfold info_main.
  destruct (initialize_mm mem s F) as (r & s1 & q1 & X1 & T1 & K1 & H1). rewrite (mbind_ok _ _ _ _ _ X1). destruct r as [h|].
  2: { destruct H1 as [M1 R1]. eexists _, s1, q1, []. split; [reflexivity|]. split; [exact M1|]. split; [apply section_none|].
       split; [reflexivity|]. split; [discriminate|]. left. split; [reflexivity|]. split; [reflexivity|]. split; [now left|]. exists [], "Unable to initialize info handle."%string. cbn; auto. }
  destruct H1 as [M1 G1].
  set (failure := fun (root : option Z) (x : option (Z * mfile)) (out : list Z) (messages : list string) =>
        dm _ <- info_close ev root x; dm _ <- info_free ev h None;
        mret {| r_success := false; r_out := out; r_messages := messages |}).
  assert (FL : forall root x out ms q leak s2, (forall b f, x = Some (b, f) -> closable f) ->
      moved s q [] (handle_blocks h ++ opt_list root ++ source_blocks x ++ leak) s2 ->
      exists s', failure root x out ms s2 = (Ok {| r_success := false; r_out := out; r_messages := ms |}, s') /\ moved s q [] leak s').
  { intros root x out ms q leak s2 C M. unfold failure.
    destruct (info_close_mm ev root x s2 C (proj1 M)) as (s3 & X3 & M3); [own|]. rewrite (mbind_ok _ _ _ _ _ X3).
    destruct (info_free_mm ev h s3 (proj1 M3)) as (s4 & X4 & M4); [own|]. rewrite (mbind_ok _ _ _ _ _ X4).
    exists s4. split; [reflexivity|]. weigh. }
  assert (ER : codepage = Some Err \/ codepage <> Some Err) by (destruct codepage as [[x| | |]|]; [right|left|right|right|right]; congruence).
  destruct ER as [-> |NE].
  { destruct (FL None None [] ["Unable to set ASCII codepage in info handle."%string] q1 [] s1) as (s2 & X2 & M2); [discriminate|cbn [opt_list source_blocks app]; weigh|].
    eexists _, s2, q1, []. split; [exact X2|]. split; [exact M2|]. split; [apply section_none|]. split; [reflexivity|]. split; [discriminate|].
    left. split; [reflexivity|]. split; [reflexivity|]. split; [right; now left|]. eexists [], _. split; [reflexivity|]. cbn; auto. }
  set (notes := match codepage with Some (Ok false) => ["Unsupported ASCII codepage defaulting to: windows-1252."%string] | _ => [] end).
  set (rest := (dm f <- source_open mem u ev;
          match f with
          | None => failure None None [] (notes ++ ["Unable to open: source."%string])
          | Some (b, f) =>
              fun s =>
                match in_turn (info_steps mem lib u (ev_reader ev) (shown_file (mf_opened f)) allocation)
                        {| i_out := []; i_root := None; i_mem := s |} with
                | (Ok failed, st) =>
                    let root := option_map snd (i_root st) in
                    (match failed with
                     | Some message => failure root (Some (b, f)) (i_out st) (notes ++ [message])
                     | None =>
                         dm closed <- info_close ev root (Some (b, f));
                         if closed then
                           dm freed <- info_free ev h None;
                           if freed then mret {| r_success := true; r_out := i_out st; r_messages := notes |}
                           else mret {| r_success := false; r_out := i_out st;
                                        r_messages := notes ++ ["Unable to free info handle."%string] |}
                         else failure None None (i_out st) (notes ++ ["Unable to close info handle."%string])
                     end) (i_mem st)
                | (Err, st) => (Err, i_mem st)
                | (Undef, st) => (Undef, i_mem st)
                | (NoFuel, st) => (NoFuel, i_mem st)
                end
          end) s1).
  match goal with |- exists r s' q leak, ?x = _ /\ _ => assert (E : x = rest) end.
  { unfold rest, notes. destruct codepage as [[x| | |]|]; try contradiction; try congruence; reflexivity. }
  rewrite E. clear E. unfold rest. clear rest.
  destruct (source_mm mem u ev s1 Hu HB (proj1 M1)) as (r & s2 & q2 & X2 & H2). rewrite (mbind_ok _ _ _ _ _ X2). rewrite T1 in H2.
  destruct r as [[b f]|].
  2: { destruct H2 as [M2 P2].
       destruct (FL None None [] (notes ++ ["Unable to open: source."%string]) (q1 ++ q2) [] s2) as (s3 & X3 & M3); [discriminate|cbn [opt_list source_blocks app]; weigh|].
       eexists _, s3, (q1 ++ q2), []. split; [exact X3|]. split; [exact M3|]. split; [apply section_none|]. split; [reflexivity|].
       split; [intros _; apply end_not_nil|]. left. split; [reflexivity|]. split; [reflexivity|].
       split; [destruct P2 as [R|P]; [left; now apply refused_r|tauto]|]. eexists notes, _. split; [reflexivity|]. cbn; auto. }
  destruct H2 as (M2 & C & E1 & E2 & O & Q).
  assert (CL : forall b' f', Some (b, f) = Some (b', f') -> closable f') by (intros b' f' [= <- <-]; exact C).
  destruct (steps_run lib text empty names date u (ev_reader ev) mem HL Hu HB (mf_opened f) allocation s2
              (opens_sound _ _ _ _ _ _ _ Hu HB O) (proj1 M2)) as (failed & st & l & q3 & leak & X3 & M3 & Lk & HT & H3).
  pose proof (steps_head lib u (ev_reader ev) mem (mf_opened f) allocation s2 (opens_sound _ _ _ _ _ _ _ Hu HB O)) as HD.
  rewrite X3 in HD. cbn [snd] in HD. rewrite X3. cbv zeta. change (opt_list (option_map snd (i_root st))) with (root_blocks st) in *.
  assert (A1 : In (RSat, false) q2 -> In (RSat, false) (q1 ++ q2 ++ q3)) by (intros H; apply in_or_app; right; apply in_or_app; now left).
  assert (A2 : In (RSsat, false) q2 -> In (RSsat, false) (q1 ++ q2 ++ q3)) by (intros H; apply in_or_app; right; apply in_or_app; now left).
  assert (KQ : granted q3 -> forall k, In (k, false) (q1 ++ q2 ++ q3) -> k = RSat \/ k = RSsat).
  { intros G3 k Hk. apply in_app_or in Hk as [Hk|Hk]; [specialize (G1 _ _ Hk); discriminate|].
    apply in_app_or in Hk as [Hk|Hk]; [exact (Q k Hk)|specialize (G3 _ _ Hk); discriminate]. }
  destruct failed as [message|].
  - destruct (FL (option_map snd (i_root st)) (Some (b, f)) (i_out st) (notes ++ [message]) (q1 ++ q2 ++ q3) leak (i_mem st)) as (s4 & X4 & M4);
      [exact CL|change (opt_list (option_map snd (i_root st))) with (root_blocks st); weigh|].
    eexists _, s4, (q1 ++ q2 ++ q3), leak. split; [exact X4|]. split; [exact M4|].
    split. { apply (section_later (i_mem st) s4 []); [|exact Lk].
      rewrite (proj1 (proj2 M4)), (proj1 (proj2 M3)), (proj1 (proj2 M2)), (proj1 (proj2 M1)), app_nil_r, <- !app_assoc. reflexivity. } split; [discriminate|].
    split; [intros _; apply end_not_nil|]. right. exists (mf_opened f), (m_trace s2), (In (RSat, false) q2), (In (RSsat, false) q2), l.
    split; [exact E1|]. split; [exact E2|]. split; [exact O|]. split; [exact A1|]. split; [exact A2|]. split; [exact HT|]. cbn [r_out r_success].
    split; [|split; [discriminate|split; [|exact HD]]].
    + destruct H3 as [(_ & -> & _)|(_ & H3)]; [exists []; now rewrite app_nil_r|exact H3].
    + intros G. destruct H3 as [(_ & -> & ->)|((k & Hk) & _)]; [auto|]. exfalso.
      assert (In (k, false) (q1 ++ q2 ++ q3)) as Hin by (apply in_or_app; right; apply in_or_app; now right).
      specialize (G _ _ Hin). discriminate.
  - destruct H3 as (-> & G3 & HO & HP).
    destruct (info_close_mm ev (option_map snd (i_root st)) (Some (b, f)) (i_mem st) CL (proj1 M3)) as (s4 & X4 & M4);
      [change (opt_list (option_map snd (i_root st))) with (root_blocks st); own|]. rewrite (mbind_ok _ _ _ _ _ X4).
    change (opt_list (option_map snd (i_root st))) with (root_blocks st) in M4.
    assert (EN : forall r, r_out r = i_out st -> r_success r = ev_close ev -> (r_success r = false -> r_messages r <> []) ->
              ended lib text empty names date u ev allocation codepage s (q1 ++ q2 ++ q3) r).
    { intros r Ho Hs Hm. split; [exact Hm|]. right. exists (mf_opened f), (m_trace s2), (In (RSat, false) q2), (In (RSsat, false) q2), l.
      split; [exact E1|]. split; [exact E2|]. split; [exact O|]. split; [exact A1|]. split; [exact A2|]. split; [exact HT|]. rewrite HO in HD. rewrite Ho, Hs, HO, HP.
      split; [exists []; now rewrite app_nil_r|]. split; [intros Hc; split; [exact (KQ G3)|auto]|]. split; [intros _; split; reflexivity|exact HD]. }
    destruct (ev_close ev) eqn:Ev.
    + destruct (info_free_mm ev h s4 (proj1 M4)) as (s5 & X5 & M5); [own|]. rewrite (mbind_ok _ _ _ _ _ X5).
      eexists _, s5, (q1 ++ q2 ++ q3), []. split; [reflexivity|]. split; [weigh|]. split; [apply section_none|]. split; [reflexivity|].
      apply EN; [reflexivity|reflexivity|discriminate].
    + destruct (FL None None (i_out st) (notes ++ ["Unable to close info handle."%string]) (q1 ++ q2 ++ q3) [] s4) as (s5 & X5 & M5);
        [discriminate|cbn [opt_list source_blocks app]; weigh|].
      eexists _, s5, (q1 ++ q2 ++ q3), []. split; [exact X5|]. split; [exact M5|]. split; [apply section_none|]. split; [reflexivity|].
      apply EN; [reflexivity|reflexivity|intros _; apply end_not_nil].
Qed.
