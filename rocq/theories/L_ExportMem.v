(** Lemmas on olecfexport when requests for memory can fail: each function does
    what the one of M_ExportTool does as long as nothing is refused, and
    releases its blocks in any case. *)
From Coq Require Import ZArith List Bool Lia Permutation.
From Verif Require Import Base Spec_IO Spec_Stream Spec_Load Spec_Tree Spec_Open L_Base M_Table M_Header M_Load M_Stream M_Tree
  M_Open M_Item M_Mount M_File M_Export M_Getopt M_ExportTool M_Mem Spec_Mem M_InfoTool M_ExportMem Spec_Export
  L_Export L_Export2 L_Mem L_Mem2 L_Mem3 L_Mem5 L_Mem6 L_InfoTool2 L_Sound.
Import ListNotations.
Open Scope Z_scope.

(** Refusals other than of the tables. *)
Definition other (q : list (kind * bool)) : Prop := exists k, In (k, false) q /\ k <> RSat /\ k <> RSsat.

Lemma other_app q q' : other (q ++ q') -> other q \/ other q'.
Proof. intros (k & H & N). apply in_app_or in H as [H|H]; [left|right]; exists k; auto. Qed.
Lemma not_other_nil : ~ other [].
Proof. intros (k & [] & _). Qed.
Lemma not_other_one k : ~ other [(k, true)].
Proof. intros (k' & [H|[]] & _). discriminate. Qed.
Lemma granted_split q q' : granted (q ++ q') -> granted q /\ granted q'.
Proof. intros G. split; intros k b H; apply (G k b), in_or_app; auto. Qed.

(** [f] releases the blocks [held] in any case. *)
Definition ends {A} (safe : Prop) (held : list Z) (f : em A) (g : lio A) (s : est) : Prop :=
  exists r s' q l, f s = (r, s') /\ m_requests (e_mem s') = m_requests (e_mem s) ++ q /\ e_log s' = e_log s ++ l /\
    (granted q -> g (e_host s) = (r, e_host s', l)) /\
    (defined r -> moved (e_mem s) q held [] (e_mem s') /\ (other q -> r = Err \/ exists n, In (Unable n) l)) /\
    (safe -> defined r).

Definition sim {A} (safe : Prop) (held : list Z) (f : em A) (g : lio A) : Prop :=
  forall s, fit (e_mem s) -> owns (e_mem s) held -> ends safe held f g s.

Section Sim.
Variable safe : Prop.

Lemma sim_ext {A} held (f : em A) g g' : (forall w, g w = g' w) -> sim safe held f g -> sim safe held f g'.
Proof.
  intros E H s F O. destruct (H s F O) as (r & s' & q & l & X & Q & L & G & D & S). exists r, s', q, l.
  rewrite <- E. auto 10.
Qed.

Lemma sim_host {A} (m : xio A) : (safe -> forall w, defined (fst (m w))) -> sim safe [] (hosted m) (quiet m).
Proof.
  intros D s F O. unfold ends, hosted, quiet. destruct (m (e_host s)) as [r w] eqn:E.
  exists r, {| e_host := w; e_log := e_log s; e_mem := e_mem s |}, [], []. split; [reflexivity|].
  split; [cbn; now rewrite app_nil_r|]. split; [cbn; now rewrite app_nil_r|]. split; [intros _; reflexivity|]. split.
  - intros _. split; [now apply moved_refl|]. intros H. destruct (not_other_nil H).
  - intros S. specialize (D S (e_host s)). rewrite E in D. exact D.
Qed.

Lemma sim_log x : sim safe [] (logged x) (say x).
Proof.
  intros s F O. exists (Ok tt), (snd (logged x s)), [], [x]. split; [reflexivity|]. split; [cbn; now rewrite app_nil_r|].
  split; [reflexivity|]. split; [reflexivity|]. split; [|intros _; exact I]. intros _. split; [now apply moved_refl|].
  intros H. destruct (not_other_nil H).
Qed.

Lemma sim_ret {A} (a : A) : sim safe [] (eret a) (quiet (xret a)).
Proof.
  intros s F O. exists (Ok a), s, [], []. split; [reflexivity|]. split; [now rewrite app_nil_r|]. split; [now rewrite app_nil_r|].
  split; [reflexivity|]. split; [|intros _; exact I]. intros _. split; [now apply moved_refl|]. intros H. destruct (not_other_nil H).
Qed.

Lemma release_all_run held s : fit (e_mem s) -> owns (e_mem s) held ->
  exists m', remembered (release_all held) s = (Ok tt, {| e_host := e_host s; e_log := e_log s; e_mem := m' |}) /\
    moved (e_mem s) [] held [] m'.
Proof.
  intros F O. destruct (release_all_spec held (e_mem s) F O) as (m' & X & _ & M). exists m'. unfold remembered. rewrite X. auto.
Qed.

Lemma on_error_run {A} held s : fit (e_mem s) -> owns (e_mem s) held ->
  exists m', @on_error A held s = (Err, {| e_host := e_host s; e_log := e_log s; e_mem := m' |}) /\
    moved (e_mem s) [] held [] m'.
Proof.
  intros F O. destruct (release_all_run held s F O) as (m' & X & M). exists m'. split; [|exact M].
  unfold on_error, ebind. rewrite X. reflexivity.
Qed.

Lemma sim_fail {A} held : sim safe held (@on_error A held) (quiet (xlift Err)).
Proof.
  intros s F O. destruct (@on_error_run A held s F O) as (m' & X & M).
  exists Err, {| e_host := e_host s; e_log := e_log s; e_mem := m' |}, [], []. split; [exact X|].
  split; [apply M|]. split; [cbn; now rewrite app_nil_r|]. split; [reflexivity|]. split; [|intros _; exact I].
  intros _. split; [exact M|]. now left.
Qed.

Lemma sim_undef {A} held (r : res A) : ~ defined r -> ~ safe -> sim safe held (elift r) (quiet (xlift r)).
Proof.
  intros N S s F O. exists r, s, [], []. split; [reflexivity|]. split; [now rewrite app_nil_r|]. split; [now rewrite app_nil_r|].
  split; [reflexivity|]. split; [contradiction|]. contradiction.
Qed.

Lemma sim_obtain {A} mem held (k : Z -> em A) g : (forall p, sim safe (p :: held) (k p) g) -> sim safe held (obtain mem held k) g.
Proof.
  intros H s F O. unfold ends, obtain, ebind, remembered. destruct (alloc_spec mem RTool (e_mem s) F) as (r & m1 & X & _ & M).
  rewrite X. destruct r as [p|].
  - destruct (H p {| e_host := e_host s; e_log := e_log s; e_mem := m1 |}) as (r & s' & q & l & E & Q & L & G & D & S);
      [exact (proj1 M)|cbn [e_mem]; own|]. cbn [e_host e_log e_mem] in *.
    exists r, s', ((RTool, true) :: q), l. split; [exact E|]. split; [rewrite Q, (proj1 (proj2 M)), <- app_assoc; reflexivity|].
    split; [exact L|]. split; [intros G'; apply G; exact (proj2 (granted_split [_] q G'))|]. split; [|exact S].
    intros Dr. destruct (D Dr) as [M' T]. split.
    + apply (moved_trans _ _ _ _ _ _ _ _ _ _ _ M M'). intros x. rewrite (cnt_cons p held). cnts. lia.
    + intros Ho. apply T. destruct (other_app [_] q Ho) as [Ho'|Ho']; [destruct (not_other_one _ Ho')|exact Ho'].
  - destruct (@on_error_run A held {| e_host := e_host s; e_log := e_log s; e_mem := m1 |}) as (m' & E & M');
      [exact (proj1 M)|cbn [e_mem]; own|]. cbn [e_host e_log e_mem] in *.
    eexists _, _, [(RTool, false)], []. split; [exact E|].
    assert (MM : moved (e_mem s) ([(RTool, false)] ++ []) held [] m').
    { apply (moved_trans _ _ _ _ _ _ _ _ _ _ _ M M'). intros x. cnts. lia. }
    rewrite app_nil_r in MM. split; [apply MM|]. split; [cbn; now rewrite app_nil_r|].
    split; [intros G; destruct (granted_not _ G (refused_one _))|]. split; [|intros _; exact I].
    intros _. split; [exact MM|]. now left.
Qed.

Lemma sim_drop {A} p held held' (k : em A) g : (forall x, cnt held x = (cnt [p] x + cnt held' x)%nat) ->
  sim safe held' k g -> sim safe held (drop p k) g.
Proof.
  intros C H s F O. unfold ends, drop, ebind, remembered.
  destruct (release_spec p (e_mem s) F) as (m1 & X & _ & M); [intros x; specialize (C x); specialize (O x); lia|].
  rewrite X.
  destruct (H {| e_host := e_host s; e_log := e_log s; e_mem := m1 |}) as (r & s' & q & l & E & Q & L & G & D & S);
    [exact (proj1 M)| |]. { cbn [e_mem]. intros x. pose proof (proj2 (proj2 M) x). specialize (C x). specialize (O x). cnts. lia. }
  cbn [e_host e_log e_mem] in *.
  exists r, s', q, l. split; [exact E|]. split; [rewrite Q, (proj1 (proj2 M)), app_nil_r; reflexivity|]. split; [exact L|].
  split; [exact G|]. split; [|exact S]. intros Dr. destruct (D Dr) as [M' T]. split; [|exact T].
  change q with ([] ++ q). apply (moved_trans _ _ _ _ _ _ _ _ _ _ _ M M'). intros x. specialize (C x). cnts. lia.
Qed.

Lemma sim_attempt {A B} held (m : em A) (k : A -> em B) g gk :
  sim safe [] m g -> (forall a, sim safe held (k a) (gk a)) -> sim safe held (attempt held m k) (lbind g gk).
Proof.
  intros H HK s F O. unfold ends, attempt, lbind.
  destruct (H s F) as (r & s1 & q1 & l1 & E & Q & L & G & D & S); [intros x; rewrite cnt_nil; lia|]. rewrite E.
  destruct r as [a| | |].
  - destruct (D I) as [M T].
    destruct (HK a s1) as (r & s2 & q2 & l2 & E2 & Q2 & L2 & G2 & D2 & S2); [exact (proj1 M)|own|].
    exists r, s2, (q1 ++ q2), (l1 ++ l2). split; [exact E2|]. split; [rewrite Q2, Q, app_assoc; reflexivity|].
    split; [rewrite L2, L, app_assoc; reflexivity|]. split.
    + intros GG. apply granted_split in GG as [GA GB]. rewrite (G GA), (G2 GB). reflexivity.
    + split; [|exact S2]. intros Dr. destruct (D2 Dr) as [M2 T2]. split.
      * apply (moved_trans _ _ _ _ _ _ _ _ _ _ _ M M2). intros x. cnts. lia.
      * intros Ho. apply other_app in Ho as [Ho|Ho].
        { destruct (T Ho) as [T'|(n & Hn)]; [discriminate|]. right. exists n. apply in_or_app. now left. }
        { destruct (T2 Ho) as [T'|(n & Hn)]; [now left|]. right. exists n. apply in_or_app. now right. }
  - destruct (D I) as [M T]. destruct (@on_error_run B held s1) as (m' & E2 & M2); [exact (proj1 M)|own|].
    assert (MM : moved (e_mem s) (q1 ++ []) held [] m').
    { apply (moved_trans _ _ _ _ _ _ _ _ _ _ _ M M2). intros x. cnts. lia. }
    rewrite app_nil_r in MM.
    eexists _, _, q1, l1. split; [exact E2|]. cbn [e_mem e_log e_host]. split; [apply MM|]. split; [exact L|].
    split; [intros GG; rewrite (G GG); reflexivity|]. split; [|intros _; exact I].
    intros _. split; [exact MM|]. now left.
  - exists Undef, s1, q1, l1. split; [reflexivity|]. split; [exact Q|]. split; [exact L|].
    split; [intros GG; rewrite (G GG); reflexivity|]. split; [intros []|exact S].
  - exists NoFuel, s1, q1, l1. split; [reflexivity|]. split; [exact Q|]. split; [exact L|].
    split; [intros GG; rewrite (G GG); reflexivity|]. split; [intros []|exact S].
Qed.

(** A result that is known. *)
Lemma attempt_pure {A B} held (r : res A) (k : A -> em B) gk :
  (safe -> defined r) -> (forall a, r = Ok a -> sim safe held (k a) (gk a)) ->
  sim safe held (attempt held (hosted (xlift r)) k) (lbind (quiet (xlift r)) gk).
Proof.
  intros D H.
  assert (D' : safe -> forall w : xstate, defined (fst (xlift r w))) by (intros S w; exact (D S)).
  destruct r as [a| | |].
  - intros s F O. destruct (H a eq_refl s F O) as (r & s' & q & l & E & Q & L & G & Dr & S).
    exists r, s', q, l. split; [|split; [exact Q|split; [exact L|split; [|auto]]]].
    + unfold attempt, hosted, xlift. rewrite <- E. f_equal. destruct s; reflexivity.
    + intros GG. unfold lbind, quiet, xlift. rewrite (G GG). reflexivity.
  - intros s F O. destruct (sim_fail (A := B) held s F O) as (r & s' & q & l & E & Q & L & G & Dr & S).
    exists r, s', q, l. split; [|split; [exact Q|split; [exact L|split; [|auto]]]].
    + unfold attempt, hosted, xlift. rewrite <- E. f_equal. destruct s; reflexivity.
    + intros GG. unfold lbind, quiet, xlift. rewrite <- (G GG). reflexivity.
  - intros s F O. exists Undef, s, [], []. split; [unfold attempt, hosted, xlift; destruct s; reflexivity|].
    split; [now rewrite app_nil_r|]. split; [now rewrite app_nil_r|]. split; [reflexivity|]. split; [intros []|exact D].
  - intros s F O. exists NoFuel, s, [], []. split; [unfold attempt, hosted, xlift; destruct s; reflexivity|].
    split; [now rewrite app_nil_r|]. split; [now rewrite app_nil_r|]. split; [reflexivity|]. split; [intros []|exact D].
Qed.

End Sim.
