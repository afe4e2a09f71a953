(** Lemmas on opening and closing a file when requests for memory can fail. *)
From Coq Require Import ZArith List Bool Lia Permutation.
From Verif Require Import Base Spec_IO Spec_Stream Spec_Load Spec_Tree Spec_Open L_Base M_Table M_Header M_Load M_Stream M_Tree
  M_Open M_Mem L_Tree L_Tree2 L_Tree3 L_Header L_Load L_Open L_Open2 L_Free.
Import ListNotations.
Open Scope Z_scope.

(** * Blocks in use, as a multiset *)
Definition cnt (l : list Z) (x : Z) : nat := count_occ Z.eq_dec l x.

Lemma cnt_app a b x : cnt (a ++ b) x = (cnt a x + cnt b x)%nat.
Proof. apply count_occ_app. Qed.
Lemma cnt_cons a b x : cnt (a :: b) x = (cnt [a] x + cnt b x)%nat.
Proof. change (a :: b) with ([a] ++ b). apply cnt_app. Qed.
Lemma cnt_nil x : cnt [] x = 0%nat.
Proof. reflexivity. Qed.
Lemma cnt_one p x : cnt [p] x = if Z.eq_dec p x then 1%nat else 0%nat.
Proof. reflexivity. Qed.

Definition fit (s : mst) : Prop :=
  forall x, (cnt (m_live s) x <= 1)%nat /\ ((0 < cnt (m_live s) x)%nat -> 0 <= x < zlen (m_requests s)).

(** From [s] to [s'] the blocks [a] are released and the blocks [b] allocated;
    [q] are the requests. *)
Definition moved (s : mst) (q : list (kind * bool)) (a b : list Z) (s' : mst) : Prop :=
  fit s' /\ m_requests s' = m_requests s ++ q /\
  forall x, (cnt (m_live s') x + cnt a x = cnt (m_live s) x + cnt b x)%nat.

Definition owns (s : mst) (a : list Z) : Prop := forall x, (cnt a x <= cnt (m_live s) x)%nat.

Definition granted (q : list (kind * bool)) : Prop := forall k b, In (k, b) q -> b = true.
Definition refused (q : list (kind * bool)) : Prop := exists k, In (k, false) q.

Lemma granted_nil : granted [].
Proof. intros k b []. Qed.
Lemma granted_app q q' : granted q -> granted q' -> granted (q ++ q').
Proof. intros A B k b H. apply in_app_or in H as [H|H]; eauto. Qed.
Lemma granted_one k : granted [(k, true)].
Proof. intros k' b [[= _ <-]|[]]. reflexivity. Qed.
Lemma refused_l q q' : refused q -> refused (q ++ q').
Proof. intros [k H]. exists k. apply in_or_app. now left. Qed.
Lemma refused_r q q' : refused q' -> refused (q ++ q').
Proof. intros [k H]. exists k. apply in_or_app. now right. Qed.
Lemma refused_one k : refused [(k, false)].
Proof. exists k. now left. Qed.
Lemma granted_not q : granted q -> ~ refused q.
Proof. intros G [k H]. specialize (G _ _ H). discriminate. Qed.

Ltac cnts := repeat (rewrite ?cnt_app, ?cnt_nil in *;
                     match goal with
                     | H : context [cnt (?a :: ?b) ?x] |- _ => lazymatch b with [] => fail | _ => rewrite (cnt_cons a b) in H end
                     | |- context [cnt (?a :: ?b) ?x] => lazymatch b with [] => fail | _ => rewrite (cnt_cons a b) end
                     end); rewrite ?cnt_app, ?cnt_nil in *.

Lemma moved_refl s : fit s -> moved s [] [] [] s.
Proof. intros F. split; [exact F|]. split; [now rewrite app_nil_r|]. intros x. lia. Qed.

(** Sequence, where what is released and allocated on the way is weighed up. *)
Lemma moved_trans s1 s2 s3 q1 q2 a1 b1 a2 b2 a b :
  moved s1 q1 a1 b1 s2 -> moved s2 q2 a2 b2 s3 ->
  (forall x, (cnt a1 x + cnt a2 x + cnt b x = cnt b1 x + cnt b2 x + cnt a x)%nat) ->
  moved s1 (q1 ++ q2) a b s3.
Proof.
  intros (F1 & R1 & C1) (F2 & R2 & C2) H. split; [exact F2|]. split; [rewrite R2, R1, app_assoc; reflexivity|].
  intros x. specialize (C1 x). specialize (C2 x). specialize (H x). lia.
Qed.

Lemma moved_owns s q a b s' c : moved s q a b s' -> owns s a -> (forall x, (cnt c x <= cnt b x)%nat) -> owns s' c.
Proof. intros (_ & _ & C) O H x. specialize (C x). specialize (O x). specialize (H x). lia. Qed.

(** More generally. *)
Lemma moved_keeps s q a b s' c : moved s q a b s' -> (forall x, (cnt c x + cnt a x <= cnt (m_live s) x + cnt b x)%nat) -> owns s' c.
Proof. intros (_ & _ & C) H x. specialize (C x). specialize (H x). lia. Qed.

Lemma alloc_spec mem k s : fit s ->
  exists r s', alloc mem k s = (Ok r, s') /\ m_trace s' = m_trace s /\
    match r with
    | Some p => moved s [(k, true)] [] [p] s'
    | None => moved s [(k, false)] [] [] s'
    end.
Proof.
  intros F. unfold alloc. destruct (mem (length (m_requests s))); (eexists; eexists; split; [reflexivity|]; split; [reflexivity|]).
  - split; [|split; [reflexivity|]].
    + intros x. cbn [m_live m_requests]. rewrite zlen_app. change (zlen [(k, true)]) with 1. destruct (F x) as [F1 F2].
      assert (Hz : cnt (m_live s) (zlen (m_requests s)) = 0%nat). { destruct (F (zlen (m_requests s))) as [_ F3]. destruct (cnt _ _); lia. }
      rewrite cnt_cons, cnt_one. destruct (Z.eq_dec _ _) as [<-|Hn]; [rewrite Hz; pose proof (zlen_nonneg (m_requests s)); lia|].
      split; [lia|]. intros. lia.
    + intros x. cbn [m_live]. rewrite (cnt_cons _ (m_live s)). cnts. lia.
  - split; [|split; [reflexivity|]].
    + intros x. cbn [m_live m_requests]. rewrite zlen_app. change (zlen [(k, false)]) with 1. destruct (F x) as [F1 F2]. lia.
    + intros x. cbn [m_live]. lia.
Qed.

Lemma grant_spec mem k s : fit s ->
  exists r s', grant mem k s = (Ok r, s') /\ m_trace s' = m_trace s /\ moved s [(k, r)] [] [] s'.
Proof.
  intros F. unfold grant. eexists; eexists. split; [reflexivity|]. split; [reflexivity|].
  split; [|split; [reflexivity|]].
  - intros x. cbn [m_live m_requests]. rewrite zlen_app. destruct (F x) as [F1 F2].
    match goal with |- context [zlen [?y]] => change (zlen [y]) with 1 end. lia.
  - intros x. cbn [m_live]. lia.
Qed.

Lemma remove_cnt p l x : cnt (remove Z.eq_dec p l) x = if Z.eq_dec p x then 0%nat else cnt l x.
Proof.
  induction l as [|y l IH]; cbn [remove]; [destruct (Z.eq_dec p x); reflexivity|].
  destruct (Z.eq_dec p y) as [<-|Hn].
  - rewrite IH, (cnt_cons p l), cnt_one. destruct (Z.eq_dec p x); lia.
  - rewrite (cnt_cons y (remove _ _ _)), IH, (cnt_cons y l), cnt_one. destruct (Z.eq_dec p x), (Z.eq_dec y x); subst; lia.
Qed.

Lemma release_spec p s : fit s -> owns s [p] ->
  exists s', release p s = (Ok tt, s') /\ m_trace s' = m_trace s /\ moved s [] [p] [] s'.
Proof.
  intros F O. unfold release. assert (Hin : In p (m_live s)).
  { apply (count_occ_In Z.eq_dec). specialize (O p). rewrite cnt_one in O. destruct (Z.eq_dec p p); [|congruence]. unfold cnt in O. lia. }
  apply existsb_In in Hin. rewrite Hin. eexists. split; [reflexivity|]. split; [reflexivity|].
  assert (C : forall x, (cnt (remove Z.eq_dec p (m_live s)) x + cnt [p] x = cnt (m_live s) x)%nat).
  { intros x. rewrite remove_cnt, cnt_one. specialize (O x). rewrite cnt_one in O. destruct (F x) as [F1 _].
    destruct (Z.eq_dec p x); lia. }
  split; [|split; [now rewrite app_nil_r|]].
  - intros x. cbn [m_live m_requests]. specialize (C x). destruct (F x) as [F1 F2]. split; [lia|]. intros. apply F2. lia.
  - intros x. cbn [m_live]. specialize (C x). cnts. lia.
Qed.

Lemma release_all_spec ps : forall s, fit s -> owns s ps ->
  exists s', release_all ps s = (Ok tt, s') /\ m_trace s' = m_trace s /\ moved s [] ps [] s'.
Proof.
  induction ps as [|p ps IH]; intros s F O; cbn [release_all].
  - exists s. split; [reflexivity|]. split; [reflexivity|]. now apply moved_refl.
  - destruct (release_spec p s F) as (s1 & E1 & T1 & M1). { intros x. specialize (O x). rewrite cnt_cons in O. lia. }
    unfold mbind at 1. rewrite E1. destruct (IH s1) as (s2 & E2 & T2 & M2).
    + apply M1.
    + eapply moved_keeps; [exact M1|]. intros x. specialize (O x). rewrite cnt_cons in O. lia.
    + exists s2. split; [exact E2|]. split; [congruence|]. eapply (moved_trans _ _ _ _ _ _ _ _ _ _ _ M1 M2).
      intros x. rewrite (cnt_cons p ps). cnts. lia.
Qed.

Lemma mio_spec {A} (m : io A) s r t : fit s -> m (m_trace s) = (r, t) -> defined r ->
  exists o s', mio m s = (Ok o, s') /\ m_trace s' = t /\ moved s [] [] [] s' /\
    match o with Some a => r = Ok a | None => r = Err end.
Proof.
  intros F E D. unfold mio. rewrite E. destruct r as [a| | |]; try contradiction; eexists; eexists; (split; [reflexivity|]);
    (split; [reflexivity|]); (split; [|reflexivity]); (split; [exact F|]); (split; [now rewrite app_nil_r|]); intros x; cbn [m_live]; lia.
Qed.

Lemma mbind_ok {A B} (m : mm A) (k : A -> mm B) s a s' : m s = (Ok a, s') -> mbind m k s = k a s'.
Proof. intros E. unfold mbind. now rewrite E. Qed.

(** Chains of steps. *)
Ltac weigh :=
  split; [match goal with H : moved _ _ _ _ ?s |- fit ?s => exact (proj1 H) end|];
  split; [repeat match goal with H : moved _ _ _ _ ?s |- context [m_requests ?s] => rewrite (proj1 (proj2 H)) end;
          repeat (rewrite ?app_nil_r, <- ?app_assoc; cbn [app]); reflexivity|];
  let x := fresh "x" in
  intros x; repeat match goal with H : moved _ _ _ _ _ |- _ => pose proof (proj2 (proj2 H) x); clear H end; cnts; lia.

Ltac own :=
  let x := fresh "x" in
  intros x; repeat match goal with H : moved _ _ _ _ _ |- _ => pose proof (proj2 (proj2 H) x); clear H end;
  repeat match goal with H : owns _ _ |- _ => pose proof (H x); clear H end; cnts; lia.
