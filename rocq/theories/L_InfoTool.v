(** Lemmas on olecfinfo when requests for memory can fail: printing. *)
From Coq Require Import String ZArith List Bool Lia.
From Verif Require Import Base Spec_IO Spec_Stream M_Table M_Header M_Load M_Stream M_Tree M_Open M_Item M_Mount M_File
  M_Prop M_PyProp M_Info M_Mem Spec_Mem M_PropMem Spec_PropMem M_InfoTool L_Base L_Tree L_Mem L_PropMem L_Mem3.
Import ListNotations.
Open Scope Z_scope.

(** * Printing only adds *)
Definition grows {A} (g : pio A) : Prop := forall w, exists more, p_out (snd (g w)) = p_out w ++ more.

Lemma grows_lift {A} (r : res A) : grows (plift r).
Proof. intros w. exists []. now rewrite app_nil_r. Qed.
Lemma grows_ret {A} (a : A) : grows (pret a).
Proof. intros w. exists []. now rewrite app_nil_r. Qed.
Lemma grows_print l : grows (print l).
Proof. intros w. now exists l. Qed.
Lemma grows_bind {A B} (g : pio A) (k : A -> pio B) : grows g -> (forall a, grows (k a)) -> grows (pbind g k).
Proof.
  intros G K w. destruct (G w) as (m & Hm). unfold pbind. destruct (g w) as [[a| | |] w1]; cbn [snd] in *; try (exists m; exact Hm).
  destruct (K a w1) as (m' & Hm'). exists (m ++ m'). rewrite Hm', Hm, app_assoc. reflexivity.
Qed.
Lemma grows_string l : grows (print_string l).
Proof. unfold print_string. destruct (existsb _ l); [apply grows_print|apply grows_lift]. Qed.
Lemma grows_name lib fuel : forall l i n, grows (name_loop lib fuel l i n).
Proof.
  induction fuel as [|fuel IH]; intros l i n; cbn [name_loop]; [apply grows_lift|].
  destruct (i <? n); [|apply grows_ret]. apply grows_bind; [apply grows_lift|]. intros c.
  apply grows_bind; [destruct (is_control lib c); apply grows_print|]. intros _. apply IH.
Qed.

Lemma granted_or_refused (q : list (kind * bool)) : granted q \/ refused q.
Proof.
  induction q as [|[k [|]] q IH]; [left; apply granted_nil| |].
  - destruct IH as [G|R]; [left; now apply granted_two|right; now apply refused_two].
  - right. exists k. now left.
Qed.

(** * One call beside the one without refusals *)
Definition view (s : ist) : pstate := {| p_out := i_out s; p_trace := m_trace (i_mem s) |}.
Definition root_blocks (s : ist) : list Z := opt_list (option_map snd (i_root s)).

Lemma section_moved s q a b s1 a2 b2 s2 leak : moved s q a b s1 -> moved s q a2 b2 s2 -> at_most_a_section s1 leak -> at_most_a_section s2 leak.
Proof. intros (_ & M1 & _) (_ & M2 & _). apply (section_later s1 s2 []). now rewrite M2, M1, app_nil_r. Qed.

Section Follows.
Variable o : option tree.

(** The root item in the handle is the one of the file. *)
Definition root_ok (s : ist) : Prop := forall k p, i_root s = Some (k, p) -> get_root_item o = Ok (Some k).

Definition post {A} (s : ist) (r : res A) (s' : ist) (r' : res A) (w' : pstate) : Prop :=
  match r with
  | Ok a => root_ok s' /\ exists q, moved (i_mem s) q (root_blocks s) (root_blocks s') (i_mem s') /\ granted q /\
      r' = Ok a /\ w' = view s'
  | Err => root_ok s' /\ exists q leak, moved (i_mem s) q (root_blocks s) (root_blocks s' ++ leak) (i_mem s') /\
      at_most_a_section (i_mem s') leak /\
      ((granted q /\ r' = Err /\ w' = view s') \/ (refused q /\ exists more, p_out w' = i_out s' ++ more))
  | _ => ~ defined r'
  end.

(** [h] are blocks that are in use and stay so. *)
Definition follows {A} (f : im A) (g : pio A) : Prop :=
  grows g /\
  forall s, fit (i_mem s) -> owns (i_mem s) (root_blocks s) -> root_ok s ->
    post s (fst (f s)) (snd (f s)) (fst (g (view s))) (snd (g (view s))).

Lemma owns_after s q a b s' : moved s q a b s' -> owns s a -> owns s' b.
Proof. intros M O. own. Qed.

Lemma follows_lift {A} (r : res A) : follows (qlift r) (plift r).
Proof.
  split; [apply grows_lift|]. intros s F O R. cbn. unfold post. destruct r as [a| | |]; auto.
  - split; [exact R|]. exists []. split; [split; [exact F|]; split; [now rewrite app_nil_r|intros x; lia]|]. split; [apply granted_nil|auto].
  - split; [exact R|]. exists [], []. split; [split; [exact F|]; split; [now rewrite app_nil_r|intros x; rewrite app_nil_r; lia]|].
    split; [apply section_none|]. left. split; [apply granted_nil|auto].
Qed.

Lemma follows_ret {A} (a : A) : follows (qret a) (pret a).
Proof. exact (follows_lift (Ok a)). Qed.

Lemma follows_bind {A B} (f : im A) g (k : A -> im B) k' : follows f g -> (forall a, follows (k a) (k' a)) ->
  follows (qbind f k) (pbind g k').
Proof.
  intros [G H] K. split; [apply grows_bind; [exact G|intros a; apply K]|].
  intros s F O R. specialize (H s F O R). unfold qbind, pbind.
  destruct (f s) as [r s1]. cbn [fst snd] in H. destruct (g (view s)) as [r' w1]. cbn [fst snd] in H.
  destruct r as [a| | |]; cbn [fst snd post] in *.
  - destruct H as (R1 & q & M & Gq & -> & ->). destruct (K a) as [GK HK].
    specialize (HK s1 (proj1 M) (owns_after _ _ _ _ _ M O) R1).
    destruct (k a s1) as [r2 s2]. cbn [fst snd] in HK. destruct (k' a (view s1)) as [r2' w2]. cbn [fst snd] in *.
    destruct r2 as [b| | |]; cbn [post] in *; auto.
    + destruct HK as (R2 & q2 & M2 & Gq2 & E & E'). split; [exact R2|]. exists (q ++ q2). split; [weigh|].
      split; [now apply granted_app|auto].
    + destruct HK as (R2 & q2 & leak & M2 & L & E). split; [exact R2|]. exists (q ++ q2), leak. split; [weigh|]. split; [exact L|].
      destruct E as [(Gq2 & E)|(Rq2 & E)]; [left; split; [now apply granted_app|exact E]|right; split; [now apply refused_r|exact E]].
  - destruct H as (R1 & q & leak & M & L & H). split; [exact R1|]. exists q, leak. split; [exact M|]. split; [exact L|].
    destruct H as [(Gq & -> & ->)|(Rq & more & E)]; [left; auto|right]. split; [exact Rq|].
    destruct r' as [a| | |]; cbn [fst snd]; eauto. destruct (K a) as [GK _]. destruct (GK w1) as (m' & Hm').
    exists (more ++ m'). rewrite Hm', E, app_assoc. reflexivity.
  - destruct r'; cbn [defined fst] in *; tauto.
  - destruct r'; cbn [defined fst] in *; tauto.
Qed.

Lemma follows_shown {A} (g : pio A) : grows g -> follows (shown g) g.
Proof.
  intros G. split; [exact G|]. intros s F O R. unfold shown. fold (view s). destruct (g (view s)) as [r w]. cbn [fst snd].
  set (s' := {| i_out := p_out w; i_root := i_root s; i_mem := _ |}).
  assert (V : w = view s') by (destruct w; reflexivity).
  assert (M : moved (i_mem s) [] (root_blocks s) (root_blocks s') (i_mem s')).
  { split; [exact F|]. split; [symmetry; apply app_nil_r|]. intros x. reflexivity. }
  unfold post. destruct r as [a| | |]; auto.
  - split; [exact R|]. exists []. split; [exact M|]. split; [apply granted_nil|auto].
  - split; [exact R|]. exists [], []. split; [now rewrite app_nil_r|]. split; [apply section_none|]. left. split; [apply granted_nil|auto].
Qed.

Lemma follows_print l : follows (shown (print l)) (print l).
Proof. apply follows_shown, grows_print. Qed.

(** What follows with blocks [ps] that are released at the end. *)
Lemma holding_post {A} ps (f : im A) g : follows f g ->
  forall s, fit (i_mem s) -> owns (i_mem s) (ps ++ root_blocks s) -> root_ok s ->
    match fst (holding ps f s) with
    | Ok a => root_ok (snd (holding ps f s)) /\ exists q,
        moved (i_mem s) q (ps ++ root_blocks s) (root_blocks (snd (holding ps f s))) (i_mem (snd (holding ps f s))) /\ granted q /\
        g (view s) = (Ok a, view (snd (holding ps f s)))
    | Err => root_ok (snd (holding ps f s)) /\ exists q leak,
        moved (i_mem s) q (ps ++ root_blocks s) (root_blocks (snd (holding ps f s)) ++ leak) (i_mem (snd (holding ps f s))) /\
        at_most_a_section (i_mem (snd (holding ps f s))) leak /\
        ((granted q /\ g (view s) = (Err, view (snd (holding ps f s)))) \/
         (refused q /\ exists more, p_out (snd (g (view s))) = i_out (snd (holding ps f s)) ++ more))
    | _ => ~ defined (fst (g (view s)))
    end.
Proof.
  intros [G H] s F O R. specialize (H s F ltac:(own) R). unfold holding.
  destruct (f s) as [r s1]. cbn [fst snd] in H. destruct (g (view s)) as [r' w1]. cbn [fst snd] in H.
  assert (REL : forall q leak, moved (i_mem s) q (root_blocks s) (root_blocks s1 ++ leak) (i_mem s1) ->
    exists m, release_all ps (i_mem s1) = (Ok tt, m) /\ m_trace m = m_trace (i_mem s1) /\
      moved (i_mem s) q (ps ++ root_blocks s) (root_blocks s1 ++ leak) m).
  { intros q leak M. destruct (release_all_spec ps (i_mem s1) (proj1 M)) as (m & E & T & M'); [own|].
    exists m. split; [exact E|]. split; [exact T|]. weigh. }
  destruct r as [a| | |]; cbn [post] in H.
  - destruct H as (R1 & q & M & Gq & -> & ->). destruct (REL q []) as (m & E & T & M'); [now rewrite app_nil_r|].
    unfold qbind, in_memory. rewrite E. cbn [fst snd qret]. split; [exact R1|]. exists q. rewrite app_nil_r in M'.
    split; [exact M'|]. split; [exact Gq|]. unfold view. cbn [i_out i_mem]. now rewrite T.
  - destruct H as (R1 & q & leak & M & L & H). destruct (REL q leak M) as (m & E & T & M').
    unfold qbind, in_memory. rewrite E. cbn [fst snd qlift]. split; [exact R1|]. exists q, leak. split; [exact M'|].
    split; [exact (section_moved _ _ _ _ _ _ _ _ _ M M' L)|].
    destruct H as [(Gq & -> & ->)|(Rq & more & H)]; [left|right; eauto]. split; [exact Gq|]. unfold view. cbn [i_out i_mem]. now rewrite T.
  - cbn [fst]. exact H.
  - cbn [fst]. exact H.
Qed.

Lemma follows_block {A} mem (f : im A) g : follows f g -> follows (with_block mem f) g.
Proof.
  intros H. split; [apply H|]. intros s F O R. unfold with_block, take, qbind, in_memory.
  destruct (alloc_spec mem RTool (i_mem s) F) as (r & m1 & E & T & M). rewrite E.
  set (s1 := {| i_out := i_out s; i_root := i_root s; i_mem := m1 |}).
  assert (V : view s1 = view s) by (unfold view; cbn [i_out i_mem s1]; now rewrite T).
  destruct r as [p|].
  - cbn [qret]. change (root_blocks s) with (root_blocks s1) in *. change (m1) with (i_mem s1) in M.
    assert (O1 : owns (i_mem s1) ([p] ++ root_blocks s1)) by own.
    pose proof (holding_post [p] f g H s1 (proj1 M) O1 R) as P. rewrite V in P.
    destruct (holding [p] f s1) as [r s2]. cbn [fst snd] in *. destruct r as [a| | |]; cbn [post]; auto.
    + destruct P as (R2 & q & M2 & Gq & ->). split; [exact R2|]. exists ((RTool, true) :: q).
      split; [change (root_blocks s) with (root_blocks s1); weigh|]. split; [|auto]. now apply granted_two.
    + destruct P as (R2 & q & leak & M2 & L & P). split; [exact R2|]. exists ((RTool, true) :: q), leak.
      split; [change (root_blocks s) with (root_blocks s1); weigh|]. split; [exact L|].
      destruct P as [(Gq & ->)|(Rq & P)]; [left; split; [now apply granted_two|auto]|right; split; [now apply refused_two|exact P]].
  - cbn [qlift fst snd post]. split; [exact R|]. exists [(RTool, false)], [].
    split; [change (root_blocks s1) with (root_blocks s); change (i_mem s1) with m1; weigh|]. split; [apply section_none|].
    right. split; [apply refused_one|]. apply H.
Qed.

Lemma follows_root mem : follows (root_item mem o) (plift (get_root_item o)).
Proof.
  split; [apply grows_lift|]. intros s F O R. unfold root_item. destruct (i_root s) as [[k p]|] eqn:Er.
  - cbn [fst snd post]. split; [exact R|]. exists []. split; [split; [exact F|]; split; [now rewrite app_nil_r|intros x; lia]|].
    split; [apply granted_nil|]. split; [exact (R _ _ Er)|reflexivity].
  - unfold take, qbind, in_memory, qlift. destruct (get_root_item o) as [[k|]| | |] eqn:Eg.
    + destruct (alloc_spec mem RTool (i_mem s) F) as (r & m1 & E & T & M). rewrite E.
      destruct r as [p|]; cbn [qret qlift fst snd plift post].
      * split; [intros k' p' E'; cbn [i_root] in E'; injection E' as <- _; exact Eg|]. exists [(RTool, true)].
        unfold root_blocks. rewrite Er. cbn [i_root i_mem option_map opt_list snd]. split; [exact M|]. split; [apply granted_one|].
        split; [reflexivity|]. unfold view. cbn [i_out i_mem]. now rewrite T.
      * split; [exact R|]. exists [(RTool, false)], []. unfold root_blocks. cbn [i_root i_mem]. rewrite Er. split; [exact M|].
        split; [apply section_none|]. right. split; [apply refused_one|]. exists []. now rewrite app_nil_r.
    + exact (proj2 (follows_lift (Ok None)) s F O R).
    + destruct o; discriminate.
    + destruct o; discriminate.
    + destruct o; discriminate.
Qed.

(** * The functions of info_handle.c *)
Section Functions.
Variables (mem : memory) (lib : infolib) (u : una) (rd : reader).
Hypothesis HB : io_bytes rd.

Ltac follow := repeat (apply follows_bind; [first [apply follows_lift|apply follows_print|apply follows_shown|idtac]|intros ?]).

Lemma follows_sub_items k t one one' : (forall j, follows (one j) (one' j)) ->
  forall n i, follows (q_sub_items_fprint mem k t one n i) (sub_items_fprint k t one' n i).
Proof.
  intros H. induction n as [|n IH]; intros i; cbn [q_sub_items_fprint sub_items_fprint]; [apply follows_ret|].
  apply follows_bind; [apply follows_lift|]. intros j. apply follows_bind; [apply follows_block, H|]. intros _. apply IH.
Qed.

Lemma pbind_assoc {A B C} (x : pio A) (f : A -> pio B) (g : B -> pio C) w :
  pbind x (fun a => pbind (f a) g) w = pbind (pbind x f) g w.
Proof. unfold pbind. destruct (x w) as [[a| | |] w']; reflexivity. Qed.

Lemma follows_ext {A} (f : im A) g g' : (forall w, g w = g' w) -> follows f g -> follows f g'.
Proof.
  intros E [G H]. split; [intros w; rewrite <- E; apply G|]. intros s F O R. rewrite <- E. exact (H s F O R).
Qed.

Lemma follows_item fuel : forall e t k level, follows (q_item_fprint mem lib fuel e t k level) (item_fprint lib fuel e t k level).
Proof.
  induction fuel as [|fuel IH]; intros e t k level; cbn [q_item_fprint item_fprint]; [apply follows_lift|].
  apply follows_bind; [apply follows_lift|]. intros d. apply follows_bind; [apply follows_lift|]. intros size.
  set (named := dp name <- plift (match il_name lib (de_name d) e size with Some l => Ok l | None => Err end);
                dp _ <- print (indent level);
                dp _ <- name_loop lib (length name + 1) name 0 (u64 (size - 1));
                print (str " (" ++ integer (de_size d) ++ str " bytes)" ++ [NL])).
  apply (follows_ext _ (dp _ <- named; dp n <- plift (get_number_of_sub_items t k);
           sub_items_fprint k t (fun j => item_fprint lib fuel e t j (S level)) (Z.to_nat n) 0)).
  - intros w. unfold named, pbind. destruct (plift _ w) as [[name| | |] w1]; try reflexivity.
    destruct (print _ w1) as [[x| | |] w2]; try reflexivity.
    destruct (name_loop _ _ _ _ _ w2) as [[y| | |] w3]; reflexivity.
  - apply follows_bind; [apply follows_block|].
    + apply follows_bind; [apply follows_lift|]. intros name. apply follows_bind; [apply follows_print|]. intros _.
      apply follows_bind; [apply follows_shown, grows_name|]. intros _. apply follows_print.
    + intros _. apply follows_bind; [apply follows_lift|]. intros n. apply follows_sub_items. intros j. apply IH.
Qed.

Lemma follows_items e : follows (q_items_fprint mem lib e o) (items_fprint lib e o).
Proof.
  unfold q_items_fprint, items_fprint. apply follows_bind; [apply follows_root|]. intros root.
  apply follows_bind; [|intros _; apply follows_print]. destruct root as [k|]; [|apply follows_print].
  destruct o as [t|]; [|apply follows_print]. apply follows_bind; [apply follows_print|]. intros _. apply follows_item.
Qed.

Lemma follows_value_data p : follows (q_value_data_fprint mem lib p) (value_data_fprint lib p).
Proof.
  unfold q_value_data_fprint. cbv zeta.
  assert (GS : forall s l, grows (dp _ <- print value_data_prefix; dp _ <- print_string s; print l)).
  { intros s l. apply grows_bind; [apply grows_print|]. intros _. apply grows_bind; [apply grows_string|]. intros _. apply grows_print. }
  assert (FS : forall s l, follows (dq _ <- shown (print value_data_prefix); dq _ <- shown (print_string s); shown (print l))
                                   (dp _ <- print value_data_prefix; dp _ <- print_string s; print l)).
  { intros s l. apply follows_bind; [apply follows_print|]. intros _. apply follows_bind; [apply follows_shown, grows_string|]. intros _. apply follows_print. }
  destruct ((pv_type p =? 30) || (pv_type p =? 31)) eqn:E1.
  - unfold value_data_fprint. rewrite E1. assert (Ht : pv_type p = 30 \/ pv_type p = 31) by lia.
    replace (pv_type p =? 11) with false by lia. replace ((pv_type p =? 2) || (pv_type p =? 18)) with false by lia.
    replace ((pv_type p =? 3) || (pv_type p =? 19)) with false by lia. replace ((pv_type p =? 20) || (pv_type p =? 21)) with false by lia.
    cbv zeta. apply follows_bind; [apply follows_lift|]. intros size. destruct (SSIZE_MAX <? size); [apply follows_lift|].
    apply follows_block. apply follows_bind; [apply follows_lift|]. intros s. apply FS.
  - destruct (pv_type p =? 64) eqn:E2.
    + unfold value_data_fprint. rewrite E1, E2.
      replace (pv_type p =? 11) with false by lia. replace ((pv_type p =? 2) || (pv_type p =? 18)) with false by lia.
      replace ((pv_type p =? 3) || (pv_type p =? 19)) with false by lia. replace ((pv_type p =? 20) || (pv_type p =? 21)) with false by lia.
      cbv zeta. apply follows_bind; [apply follows_lift|]. intros x. apply follows_block.
      apply follows_bind; [apply follows_lift|]. intros s. apply FS.
    + apply follows_shown. unfold value_data_fprint. rewrite E1, E2. cbv zeta.
      repeat match goal with |- grows (if ?b then _ else _) => destruct b end; try apply grows_ret;
        (apply grows_bind; [apply grows_lift|intros ?; apply grows_print]).
Qed.

Lemma follows_value class p : follows (q_value_fprint mem lib class p) (value_fprint lib class p).
Proof.
  unfold q_value_fprint, value_fprint. cbv zeta. set (name := identifier_name _ _ _).
  assert (GN : forall l : list Z, forall f : string -> list Z, grows (match name with Some s => print (f s) | None => pret tt end)).
  { intros _ f. destruct name; [apply grows_print|apply grows_ret]. }
  apply follows_bind; [apply follows_print|]. intros _. apply follows_bind; [apply follows_shown, (GN [] (fun s => str s ++ str " ("))|]. intros _.
  apply follows_bind; [apply follows_print|]. intros _. apply follows_bind; [apply follows_shown, (GN [] (fun _ => str ")"))|]. intros _.
  apply follows_bind; [apply follows_print|]. intros _. apply follows_bind; [apply follows_print|]. intros _.
  apply follows_bind; [apply follows_value_data|]. intros _. apply follows_print.
Qed.

Lemma follows_class class : follows (q_class_fprint mem lib class) (class_fprint lib class).
Proof.
  apply follows_block, follows_shown. unfold class_fprint. apply grows_bind; [apply grows_lift|]. intros s.
  apply grows_bind; [apply grows_print|]. intros _. apply grows_bind; [apply grows_string|]. intros _. apply grows_print.
Qed.

Lemma follows_parts {A} label (get : Z -> res A) one one' : (forall x, follows (one x) (one' x)) ->
  forall n i, follows (q_parts_fprint label get one n i) (parts_fprint label get one' n i).
Proof.
  intros H. induction n as [|n IH]; intros i; cbn [q_parts_fprint parts_fprint]; [apply follows_ret|].
  apply follows_bind; [apply follows_print|]. intros _. apply follows_bind; [apply follows_lift|]. intros x.
  apply follows_bind; [apply H|]. intros _. apply IH.
Qed.

Lemma follows_section x : follows (q_section_fprint mem lib x) (section_fprint lib x).
Proof.
  unfold q_section_fprint, section_fprint. apply follows_bind; [apply follows_class|]. intros _. cbv zeta.
  apply follows_bind; [apply follows_print|]. intros _. apply follows_bind; [apply follows_print|]. intros _.
  apply follows_parts. intros p. apply follows_value.
Qed.

Lemma follows_set x : follows (q_set_fprint mem lib x) (set_fprint lib x).
Proof.
  unfold q_set_fprint, set_fprint. apply follows_bind; [apply follows_class|]. intros _. cbv zeta.
  apply follows_bind; [apply follows_print|]. intros _. apply follows_bind; [apply follows_print|]. intros _.
  apply follows_parts. intros y. apply follows_section.
Qed.

Lemma follows_set_stream v d cp : volume_ok v -> dirent_ok d ->
  follows (q_set_stream_fprint mem lib rd v d cp) (set_stream_fprint lib rd v d cp).
Proof.
  intros HV HD. split.
  { unfold set_stream_fprint. apply grows_bind; [|intros [x c]; apply follows_set].
    intros w. destruct (get_set _ _ _ _ _ _ (p_trace w)) as [r t]. exists []. cbn. now rewrite app_nil_r. }
  intros s F O R. unfold q_set_stream_fprint, qbind, in_memory.
  destruct (get_set_mm mem (pl_values (il_prop lib)) rd v d cp HV HD HB 0 (i_mem s) F) as (r & m1 & q & E & P). rewrite E.
  set (s1 := {| i_out := i_out s; i_root := i_root s; i_mem := m1 |}).
  unfold set_stream_fprint, pbind. cbn [view p_trace p_out]. unfold get_set_post in P.
  destruct r as [[x c]|].
  - destruct P as (M & Gq & Eg). rewrite Eg. cbn [p_out].
    change {| p_out := i_out s; p_trace := m_trace m1 |} with (view s1).
    change (root_blocks s) with (root_blocks s1) in *. change m1 with (i_mem s1) in M.
    assert (O1 : owns (i_mem s1) (mp_blocks x ++ root_blocks s1)) by own.
    pose proof (holding_post (mp_blocks x) _ _ (follows_set (plain_set x)) s1 (proj1 M) O1 R) as PH.
    destruct (holding _ _ s1) as [r s2]. cbn [fst snd] in *. destruct r as [a| | |]; cbn [post]; auto.
    + destruct PH as (R2 & q2 & M2 & Gq2 & ->). split; [exact R2|]. exists (q ++ q2).
      split; [change (root_blocks s) with (root_blocks s1); weigh|]. split; [now apply granted_app|auto].
    + destruct PH as (R2 & q2 & leak & M2 & L & PH). split; [exact R2|]. exists (q ++ q2), leak.
      split; [change (root_blocks s) with (root_blocks s1); weigh|]. split; [exact L|].
      destruct PH as [(Gq2 & ->)|(Rq2 & PH)]; [left; split; [now apply granted_app|auto]|right; split; [now apply refused_r|exact PH]].
  - destruct P as (leak & M & L & P). cbn [qlift fst snd post]. split; [exact R|]. exists q, leak.
    split; [change (root_blocks s1) with (root_blocks s); change (i_mem s1) with m1; weigh|].
    split; [exact (kept_section _ _ _ _ _ _ _ (proj1 L))|].
    destruct P as [Rq|Eg].
    + right. split; [exact Rq|]. destruct (get_set _ _ _ _ _ _ (m_trace (i_mem s))) as [[[x c]| | |] t]; cbn [snd p_out s1 i_out];
        try (exists []; now rewrite app_nil_r). apply (follows_set x).
    + rewrite Eg. cbn [fst snd]. destruct (granted_or_refused q) as [Gq|Rq]; [left; auto|right]. split; [exact Rq|]. exists []. cbn [p_out s1 i_out]. now rewrite app_nil_r.
Qed.

Lemma follows_information name heading v cp :
  match o, v with
  | Some t, Some v => volume_ok v /\ forall k d, node_value t k = Ok d -> dirent_ok d
  | _, _ => True
  end ->
  follows (q_information_fprint mem lib u rd name heading v o cp) (information_fprint lib u rd name heading v o cp).
Proof.
  intros H. unfold q_information_fprint, information_fprint. apply follows_bind; [apply follows_root|]. intros root.
  destruct root as [k|]; [|apply follows_ret]. destruct o as [t|]; [|apply follows_lift]. destruct v as [v|]; [|apply follows_lift].
  destruct H as [HV HD]. apply follows_bind; [apply follows_lift|]. intros [j|]; [|apply follows_ret].
  apply follows_block. destruct (node_value t j) as [d| | |] eqn:Ed.
  - exact (follows_bind (shown (print (heading ++ [NL]))) (print (heading ++ [NL])) (fun _ => q_set_stream_fprint mem lib rd v d cp)
             (fun _ => set_stream_fprint lib rd v d cp) (follows_print _) (fun _ => follows_set_stream v d cp HV (HD j d Ed))).
  - exact (follows_lift Err).
  - exact (follows_lift Undef).
  - exact (follows_lift NoFuel).
Qed.
End Functions.
End Follows.
