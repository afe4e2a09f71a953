(** Lemmas about the reference counts of Python objects. *)
From Coq Require Import List Bool Arith Lia.
From Verif Require Import Base M_Refs Spec_Refs.
Import ListNotations.

(** ** Lists *)
Lemma update_length {A} (l : list A) : forall i x, length (update l i x) = length l.
Proof. induction l as [|y l IH]; intros [|i] x; cbn; auto. Qed.

Lemma update_eq {A} (l : list A) : forall i x, i < length l -> nth_error (update l i x) i = Some x.
Proof. induction l as [|y l IH]; intros [|i] x H; cbn in *; auto; try lia. apply IH. lia. Qed.

Lemma update_neq {A} (l : list A) : forall i j x, i <> j -> nth_error (update l i x) j = nth_error l j.
Proof. induction l as [|y l IH]; intros [|i] [|j] x H; cbn; auto; try lia. Qed.

Lemma nth_lt {A} (l : list A) i x : nth_error l i = Some x -> i < length l.
Proof. intros H. apply nth_error_Some. congruence. Qed.

Lemma nth_app_last {A} (l : list A) x : nth_error (l ++ [x]) (length l) = Some x.
Proof. rewrite nth_error_app2, Nat.sub_diag by lia. reflexivity. Qed.

Lemma nth_app_cases {A} (l : list A) x i y : nth_error (l ++ [x]) i = Some y ->
  i = length l /\ y = x \/ nth_error l i = Some y.
Proof.
  intros H. destruct (lt_dec i (length l)) as [Hi|Hi]; [right; rewrite nth_error_app1 in H by lia; exact H|].
  rewrite nth_error_app2 in H by lia. destruct (i - length l) as [|k] eqn:E; cbn in H.
  - injection H as ->. left. split; [lia|reflexivity].
  - destruct k; discriminate.
Qed.

(** ** Counting the objects that refer to another *)
Definition refers (x : option pobj) (i : nat) : bool :=
  match x with
  | Some o => match parent (o_body o) with Some p => Nat.eqb p i | None => false end
  | None => false
  end.
Definition one (b : bool) : nat := if b then 1 else 0.
Fixpoint holders (l : list (option pobj)) (i : nat) : nat :=
  match l with [] => 0 | x :: l' => one (refers x i) + holders l' i end.

Lemma holders_app l x i : holders (l ++ [x]) i = holders l i + one (refers x i).
Proof. induction l as [|y l IH]; cbn; [lia|]. rewrite IH. lia. Qed.

Lemma holders_update l : forall j x y i, nth_error l j = Some y ->
  holders (update l j x) i + one (refers y i) = holders l i + one (refers x i).
Proof.
  induction l as [|z l IH]; intros [|j] x y i H; cbn in *; try discriminate.
  - injection H as ->. lia.
  - specialize (IH j x y i H). lia.
Qed.

Lemma holders_pos l : forall j y i, nth_error l j = Some y -> refers y i = true -> 1 <= holders l i.
Proof.
  induction l as [|z l IH]; intros [|j] y i H Hr; cbn in *; try discriminate.
  - injection H as ->. rewrite Hr. cbn. lia.
  - specialize (IH j y i H Hr). lia.
Qed.

Lemma holders_some l i : 1 <= holders l i -> exists j o, nth_error l j = Some (Some o) /\ parent (o_body o) = Some i.
Proof.
  induction l as [|z l IH]; cbn; intros H; [lia|].
  destruct (refers z i) eqn:E.
  - destruct z as [o|]; [|discriminate]. cbn in E. destruct (parent (o_body o)) as [p|] eqn:Ep; [|discriminate].
    apply Nat.eqb_eq in E as ->. exists 0, o. auto.
  - cbn in H. destruct (IH H) as (j & o & Hj & Hp). exists (S j), o. auto.
Qed.

(** ** The invariant *)
Definition child_of (b pb : body) : Prop :=
  match b, pb with
  | BFile _ _, BSource => True
  | BItem _ _ _, BFile _ _ => True
  | BItems _, BItem _ _ _ => True
  | BSet _ _, BItem _ _ _ => True
  | BSections _, BSet _ _ => True
  | BSection s _, BSet s' _ => s = s'
  | BValues _, BSection _ _ => True
  | BValue s _, BSection s' _ => s = s'
  | _, _ => False
  end.

Definition rank (b : body) : nat :=
  match b with
  | BSource => 0 | BFile _ _ => 1 | BItem _ _ _ => 2 | BItems _ | BSet _ _ => 3
  | BSections _ | BSection _ _ => 4 | BValues _ | BValue _ _ => 5
  end.

Lemma child_rank b pb : child_of b pb -> rank pb < rank b.
Proof. destruct b, pb; cbn; intros H; try contradiction; lia. Qed.

Lemma rank_max b : rank b <= 5.
Proof. destruct b; cbn; lia. Qed.

Definition obj_at (h : heap) (i : nat) (o : pobj) : Prop := nth_error (objects h) i = Some (Some o).

Definition typed (h : heap) (b : body) : Prop :=
  match parent b with
  | None => True
  | Some p => exists o, obj_at h p o /\ child_of b (o_body o)
  end.

Notation count := (count_occ Nat.eq_dec).

(** [ext]: the references from outside; [fl]: a block without an owner. *)
Record inv (h : heap) (ext : list nat) (fl : option nat) : Prop := {
  i_refs : forall i o, obj_at h i o -> o_refs o = count ext i + holders (objects h) i /\ 1 <= o_refs o;
  i_ext : forall i, In i ext -> exists o, obj_at h i o;
  i_typed : forall i o, obj_at h i o -> typed h (o_body o);
  i_owned : forall i o n, obj_at h i o -> In n (owned (o_body o)) -> in_memory h n /\ fl <> Some n;
  i_dup : forall i o, obj_at h i o -> NoDup (owned (o_body o));
  i_owner : forall n, in_memory h n -> fl = Some n \/ exists i o, obj_at h i o /\ In n (owned (o_body o));
  i_once : forall i j o o' n, obj_at h i o -> obj_at h j o' ->
    In n (owned (o_body o)) -> In n (owned (o_body o')) -> i = j;
  i_free : forall n, fl = Some n -> in_memory h n;
  i_tree : forall i o n t p, obj_at h i o -> o_body o = BItem n t p -> t < length (blocks h)
}.

Lemma get_obj_at h i o : get_obj h i = Ok o <-> obj_at h i o.
Proof.
  unfold get_obj, obj_at. destruct (nth_error (objects h) i) as [[x|]|]; split; intros H;
    try discriminate; try congruence. Qed.

Lemma obj_fun h i o o' : obj_at h i o -> obj_at h i o' -> o = o'.
Proof. unfold obj_at. congruence. Qed.

Lemma set_obj_same h i x o : obj_at h i o -> nth_error (objects (set_obj h i x)) i = Some x.
Proof. intros H. apply update_eq. eapply nth_lt. exact H. Qed.

Lemma set_obj_other h i j x : i <> j -> nth_error (objects (set_obj h i x)) j = nth_error (objects h) j.
Proof. intros H. now apply update_neq. Qed.

(** An object in the new heap. *)
Lemma set_obj_at h i o x j o' : obj_at h i o -> obj_at (set_obj h i x) j o' ->
  i = j /\ x = Some o' \/ i <> j /\ obj_at h j o'.
Proof.
  intros H Hj. destruct (Nat.eq_dec i j) as [->|Hn].
  - left. split; [reflexivity|]. unfold obj_at in Hj. rewrite (set_obj_same h j x o H) in Hj. congruence.
  - right. split; [exact Hn|]. unfold obj_at in *. now rewrite set_obj_other in Hj.
Qed.

(** Changing the number of references only. *)
Lemma set_refs h ext ext' fl i o n :
  inv h ext fl -> obj_at h i o -> 1 <= n ->
  n = count ext' i + holders (objects h) i ->
  (forall j, j <> i -> count ext' j = count ext j) ->
  (forall j, In j ext' -> j = i \/ In j ext) ->
  inv (set_obj h i (Some {| o_refs := n; o_body := o_body o |})) ext' fl.
Proof.
  intros I Hi Hn Hc Hj He. set (h' := set_obj h i _).
  assert (Hold : forall j o', obj_at h' j o' -> exists o'', obj_at h j o'' /\ o_body o'' = o_body o').
  { intros j o' H. apply (set_obj_at h i o) in H as [[<- E]|[Hne E]]; [injection E as <-; exists o; auto|exists o'; auto|exact Hi]. }
  assert (Hnew : forall j o', obj_at h j o' -> exists o'', obj_at h' j o'' /\ o_body o'' = o_body o').
  { intros j o' H. destruct (Nat.eq_dec i j) as [<-|Hne].
    - eexists. split; [apply (set_obj_same h i _ o Hi)|]. cbn. now rewrite (obj_fun h i _ _ H Hi).
    - exists o'. split; [|reflexivity]. unfold obj_at, h'. now rewrite set_obj_other. }
  assert (Hh : forall j, holders (objects h') j = holders (objects h) j).
  { intros j. pose proof (holders_update (objects h) i (Some {| o_refs := n; o_body := o_body o |}) _ j Hi) as H.
    unfold refers in H. cbn [o_body] in H. cbn [h' set_obj objects]. lia. }
  constructor.
  - intros j o' H. rewrite Hh. apply (set_obj_at h i o) in H as [[<- E]|[Hne E]]; [| |exact Hi].
    + injection E as <-. cbn. lia.
    + rewrite Hj by auto. apply (i_refs _ _ _ I _ _ E).
  - intros j H. destruct (He j H) as [->|H']; [eexists; apply (set_obj_same h i _ o Hi)|].
    destruct (i_ext _ _ _ I j H') as (o' & Ho). destruct (Hnew j o' Ho) as (o'' & H1 & _). eauto.
  - intros j o' H. destruct (Hold j o' H) as (o'' & H1 & <-). pose proof (i_typed _ _ _ I _ _ H1) as Ht. unfold typed in *.
    destruct (parent (o_body o'')) as [p|]; [|exact Ht]. destruct Ht as (q & Hq & Hc'). destruct (Hnew p q Hq) as (q' & Hq' & Eq).
    exists q'. rewrite Eq. auto.
  - intros j o' m H Hm. destruct (Hold j o' H) as (o'' & H1 & E). rewrite <- E in Hm. apply (i_owned _ _ _ I _ _ _ H1 Hm).
  - intros j o' H. destruct (Hold j o' H) as (o'' & H1 & <-). apply (i_dup _ _ _ I _ _ H1).
  - intros m Hm. destruct (i_owner _ _ _ I m Hm) as [H|(j & o' & H & Ho)]; [now left|right].
    destruct (Hnew j o' H) as (o'' & H1 & E). exists j, o''. rewrite E. auto.
  - intros j k o1 o2 m H1 H2 M1 M2. destruct (Hold _ _ H1) as (p1 & P1 & E1). destruct (Hold _ _ H2) as (p2 & P2 & E2).
    rewrite <- E1 in M1. rewrite <- E2 in M2. apply (i_once _ _ _ I _ _ _ _ _ P1 P2 M1 M2).
  - intros m Hm. apply (i_free _ _ _ I m Hm).
  - intros j o' m t p H E. destruct (Hold _ _ H) as (o'' & H1 & E1). rewrite <- E1 in E. apply (i_tree _ _ _ I _ _ _ _ _ H1 E).
Qed.

Lemma incref_inv h ext fl i o : inv h ext fl -> obj_at h i o ->
  exists h', incref h i = Ok h' /\ inv h' (i :: ext) fl /\ held h' = held h /\ blocks h' = blocks h /\
    length (objects h') = length (objects h) /\
    (forall j o', obj_at h j o' -> exists o'', obj_at h' j o'' /\ o_body o'' = o_body o') /\
    (forall j o', obj_at h' j o' -> exists o'', obj_at h j o'' /\ o_body o'' = o_body o').
Proof.
  intros I Hi. unfold incref. rewrite (proj2 (get_obj_at h i o) Hi). cbn [rbind]. eexists. split; [reflexivity|].
  split; [|split; [reflexivity|split; [reflexivity|split; [cbn; apply update_length|split]]]].
  - apply (set_refs h ext (i :: ext) fl i o); auto; try lia.
    + destruct (i_refs _ _ _ I i o Hi) as [-> _]. rewrite count_occ_cons_eq by reflexivity. lia.
    + intros j Hj. now rewrite count_occ_cons_neq by auto.
    + intros j [<-|H]; auto.
  - intros j o' H. destruct (Nat.eq_dec i j) as [<-|Hne].
    + eexists. split; [apply (set_obj_same h i _ o Hi)|]. cbn. now rewrite (obj_fun h i _ _ H Hi).
    + exists o'. split; [|reflexivity]. unfold obj_at. now rewrite set_obj_other.
  - intros j o' H. apply (set_obj_at h i o) in H as [[<- E]|[Hne E]]; [injection E as <-; exists o; auto|exists o'; auto|exact Hi].
Qed.

(** ** Blocks *)
Lemma release_all_ok h : forall l, NoDup l -> (forall n, In n l -> in_memory h n) ->
  exists bl, release_all h l = Ok {| objects := objects h; blocks := bl; held := held h |} /\
    length bl = length (blocks h) /\
    forall n, nth_error bl n = Some true <-> in_memory h n /\ ~ In n l.
Proof.
  intros l. revert h. induction l as [|m l IH]; intros h Hd Hl.
  - exists (blocks h). destruct h. cbn. split; [reflexivity|]. split; [reflexivity|]. intros n. unfold in_memory. cbn. tauto.
  - inversion Hd as [|? ? Hm Hd']; subst. cbn [release_all]. unfold release at 1.
    pose proof (Hl m (or_introl eq_refl)) as Hlm. unfold in_memory in Hlm. rewrite Hlm. cbn [rbind].
    set (h1 := {| objects := objects h; blocks := update (blocks h) m false; held := held h |}).
    assert (Hin : forall n, in_memory h1 n <-> in_memory h n /\ m <> n).
    { intros n. unfold in_memory, h1. cbn [blocks]. destruct (Nat.eq_dec m n) as [<-|Hne].
      - rewrite update_eq by (eapply nth_lt; exact Hlm). split; [discriminate|tauto].
      - rewrite update_neq by exact Hne. tauto. }
    destruct (IH h1 Hd') as (bl & E & Hlen & Hbl).
    { intros n Hn. apply Hin. split; [apply Hl; now right|]. intros ->. contradiction. }
    exists bl. split; [exact E|]. split; [rewrite Hlen; cbn; apply update_length|].
    intros n. rewrite Hbl, Hin. cbn [In]. tauto.
Qed.

(** ** The end of an object *)
Lemma dealloc_inv h ext i o :
  inv h (i :: ext) None -> obj_at h i o -> o_refs o = 1 ->
  exists h1, release_all h (owned (o_body o)) = Ok h1 /\ held h1 = held h /\
    inv (set_obj h1 i None) (match parent (o_body o) with Some p => p :: ext | None => ext end) None /\
    (forall j o', obj_at (set_obj h1 i None) j o' <-> i <> j /\ obj_at h j o') /\
    length (blocks h1) = length (blocks h) /\
    (forall n, in_memory h1 n -> in_memory h n).
Proof.
  intros I Hi H1.
  destruct (release_all_ok h (owned (o_body o)) (i_dup _ _ _ I _ _ Hi)) as (bl & E & Hlen & Hbl).
  { intros n Hn. apply (i_owned _ _ _ I _ _ _ Hi Hn). }
  eexists. split; [exact E|]. split; [reflexivity|].
  set (h1 := {| objects := objects h; blocks := bl; held := held h |}). set (h2 := set_obj h1 i None).
  destruct (i_refs _ _ _ I i o Hi) as [Hr _]. rewrite count_occ_cons_eq in Hr by reflexivity.
  assert (Hc0 : count ext i = 0) by lia. assert (Hh0 : holders (objects h) i = 0) by lia.
  assert (Hat : forall j o', obj_at h2 j o' <-> i <> j /\ obj_at h j o').
  { intros j o'. split.
    - intros H. apply (set_obj_at h1 i o) in H as [[_ H]|H]; [discriminate|exact H|exact Hi].
    - intros [Hne H]. unfold obj_at, h2. rewrite set_obj_other by exact Hne. exact H. }
  assert (Hpar : forall j o', obj_at h j o' -> parent (o_body o') <> Some i).
  { intros j o' H Hp. assert (1 <= holders (objects h) i); [|lia].
    apply (holders_pos _ j (Some o')); [exact H|]. cbn. rewrite Hp. apply Nat.eqb_refl. }
  assert (Hh : forall j, holders (objects h2) j + one (refers (Some o) j) = holders (objects h) j).
  { intros j. pose proof (holders_update (objects h1) i None _ j Hi) as H. cbn [h2 set_obj objects]. cbn [refers one] in H.
    unfold h1 in H at 2. cbn [objects] in H. rewrite Nat.add_0_r in H. exact H. }
  split; [|split; [exact Hat|split; [exact Hlen|intros n Hn; now apply Hbl in Hn as [Hn _]]]].
  set (ext' := match parent (o_body o) with Some p => p :: ext | None => ext end).
  assert (Hce : forall j, j <> i -> count ext' j + holders (objects h2) j = count (i :: ext) j + holders (objects h) j).
  { intros j Hj. specialize (Hh j). rewrite count_occ_cons_neq by auto. unfold ext'. cbn [refers] in Hh.
    destruct (parent (o_body o)) as [p|]; cbn [one] in Hh; [|lia].
    destruct (Nat.eqb_spec p j) as [Epj|Hp]; cbn [one] in Hh.
    - subst j. rewrite count_occ_cons_eq by reflexivity. lia.
    - rewrite count_occ_cons_neq by auto. lia. }
  constructor.
  - intros j o' H. apply Hat in H as [Hne H]. rewrite Hce by auto. apply (i_refs _ _ _ I _ _ H).
  - intros j H. assert (Hj : j <> i /\ exists o', obj_at h j o').
    { assert (Hext : In j ext -> j <> i /\ exists o', obj_at h j o').
      { intros Hj. split; [|apply (i_ext _ _ _ I); now right]. intros ->. apply (count_occ_not_In Nat.eq_dec ext i) in Hc0. contradiction. }
      unfold ext' in H. pose proof (i_typed _ _ _ I _ _ Hi) as Ht. unfold typed in Ht. destruct (parent (o_body o)) as [p|] eqn:Ep; [|now apply Hext].
      destruct H as [<-|H]; [|now apply Hext]. destruct Ht as (q & Hq & Hc). split; [|eauto].
      intros ->. rewrite (obj_fun _ _ _ _ Hq Hi) in Hc. apply child_rank in Hc. lia. }
    destruct Hj as [Hne (o' & Ho)]. exists o'. apply Hat. auto.
  - intros j o' H. apply Hat in H as [Hne H]. pose proof (i_typed _ _ _ I _ _ H) as Ht. pose proof (Hpar _ _ H) as Hp. unfold typed in *.
    destruct (parent (o_body o')) as [p|]; [|exact Ht]. destruct Ht as (q & Hq & Hc). exists q. split; [|exact Hc].
    apply Hat. split; [congruence|exact Hq].
  - intros j o' n H Hn. apply Hat in H as [Hne H]. split; [|discriminate]. apply Hbl. split; [apply (i_owned _ _ _ I _ _ _ H Hn)|].
    intros Hn'. apply Hne. apply (i_once _ _ _ I _ _ _ _ _ Hi H Hn' Hn).
  - intros j o' H. apply Hat in H as [_ H]. apply (i_dup _ _ _ I _ _ H).
  - intros n Hn. apply Hbl in Hn as [Hn Hno]. destruct (i_owner _ _ _ I n Hn) as [H|(j & o' & H & Ho)]; [discriminate|right].
    exists j, o'. split; [|exact Ho]. apply Hat. split; [|exact H]. intros ->. rewrite (obj_fun _ _ _ _ H Hi) in Ho. contradiction.
  - intros j k o1 o2 n A1 A2. apply Hat in A1 as [_ A1]. apply Hat in A2 as [_ A2]. apply (i_once _ _ _ I _ _ _ _ _ A1 A2).
  - intros n Hn. discriminate.
  - intros j o' n t p H Eb. apply Hat in H as [_ H]. cbn [h2 set_obj blocks h1]. rewrite Hlen. apply (i_tree _ _ _ I _ _ _ _ _ H Eb).
Qed.

Lemma decref_inv : forall fuel h ext i o,
  inv h (i :: ext) None -> obj_at h i o -> rank (o_body o) < fuel ->
  exists h', decref fuel h i = Ok h' /\ inv h' ext None /\ held h' = held h /\
    length (blocks h') = length (blocks h) /\
    (forall j o', obj_at h' j o' -> exists o'', obj_at h j o'' /\ o_body o'' = o_body o').
Proof.
  induction fuel as [|fuel IH]; intros h ext i o I Hi Hr; [lia|].
  cbn [decref]. rewrite (proj2 (get_obj_at h i o) Hi). cbn [rbind].
  destruct (i_refs _ _ _ I i o Hi) as [Hc Hp]. destruct (o_refs o) as [|[|n]] eqn:En; [lia| |].
  - destruct (dealloc_inv h ext i o I Hi En) as (h1 & -> & Hh & I1 & Hat & Hl & _). cbn [rbind].
    pose proof (i_typed _ _ _ I _ _ Hi) as Ht. unfold typed in Ht.
    destruct (parent (o_body o)) as [p|].
    + destruct Ht as (q & Hq & Hcq). pose proof (child_rank _ _ Hcq) as Hrk.
      assert (Hqn : obj_at (set_obj h1 i None) p q).
      { apply Hat. split; [|exact Hq]. intros ->. rewrite (obj_fun _ _ _ _ Hq Hi) in Hrk. lia. }
      destruct (IH (set_obj h1 i None) ext p q I1 Hqn ltac:(lia)) as (h' & E & I' & Hh' & Hl' & Hat').
      exists h'. split; [exact E|]. split; [exact I'|]. split; [rewrite Hh'; exact Hh|]. split; [rewrite Hl'; exact Hl|].
      intros j o' H. destruct (Hat' j o' H) as (o'' & H' & Eb). exists o''. split; [|exact Eb]. now apply Hat in H' as [_ H'].
    + eexists. split; [reflexivity|]. split; [exact I1|]. split; [exact Hh|]. split; [exact Hl|].
      intros j o' H. apply Hat in H as [_ H]. eauto.
  - eexists. split; [reflexivity|]. split; [|split; [reflexivity|split; [reflexivity|]]].
    + apply (set_refs h (i :: ext) ext None i o); auto; try lia.
      * rewrite count_occ_cons_eq in Hc by reflexivity. lia.
      * intros j Hj. now rewrite count_occ_cons_neq by auto.
      * intros j H. right. now right.
    + intros j o' H. apply (set_obj_at h i o) in H as [[<- E]|[Hne E]]; [injection E as <-; exists o; auto|exists o'; auto|exact Hi].
Qed.

(** ** New blocks and objects *)
Lemma new_block_inv h ext n h' : inv h ext None -> new_block h = (n, h') ->
  inv h' ext (Some n) /\ objects h' = objects h /\ held h' = held h /\ length (blocks h') = S (length (blocks h)).
Proof.
  intros I E. unfold new_block in E. injection E as <- <-.
  assert (Hm : forall m, in_memory h m -> m <> length (blocks h) /\ nth_error (blocks h ++ [true]) m = Some true).
  { intros m Hm. pose proof (nth_lt _ _ _ Hm). split; [lia|]. now rewrite nth_error_app1 by lia. }
  split; [|cbn; rewrite app_length; cbn; repeat split; auto; lia].
  constructor; try (apply I).
  - intros i o m H Hn. destruct (i_owned _ _ _ I _ _ _ H Hn) as [Hin _]. destruct (Hm m Hin) as [Hne Hin']. split; [exact Hin'|]. intros Ee. congruence.
  - intros m H. apply nth_app_cases in H as [[-> _]|H]; [now left|]. destruct (i_owner _ _ _ I m H) as [Hf|Ho]; [discriminate|now right].
  - intros m Ee. injection Ee as <-. apply nth_app_last.
  - intros i o m t p H Eb. pose proof (i_tree _ _ _ I _ _ _ _ _ H Eb). cbn. rewrite app_length. cbn. lia.
Qed.

Lemma new_object_inv h ext fl b :
  inv h (match parent b with Some p => p :: ext | None => ext end) fl ->
  typed h b ->
  owned b = match fl with Some n => [n] | None => [] end ->
  (forall n t p, b = BItem n t p -> t < length (blocks h)) ->
  inv (new_object h b) (length (objects h) :: ext) None.
Proof.
  intros I Ht Ho Hb. set (k := length (objects h)). set (x := {| o_refs := 1; o_body := b |}).
  set (e0 := match parent b with Some p => p :: ext | None => ext end) in *.
  assert (Hlt : forall i o, obj_at h i o -> i < k) by (intros i o H; eapply nth_lt; exact H).
  assert (Hat : forall i o, obj_at (new_object h b) i o <-> i = k /\ o = x \/ obj_at h i o).
  { intros i o. split.
    - intros H. apply nth_app_cases in H as [[-> H]|H]; [left; split; [reflexivity|now injection H]|now right].
    - intros [[-> ->]|H]; [apply nth_app_last|]. unfold obj_at, new_object. cbn [objects]. rewrite nth_error_app1; [exact H|eapply nth_lt; exact H]. }
  assert (Hke : ~ In k e0).
  { intros H. destruct (i_ext _ _ _ I k H) as (o & H'). apply Hlt in H'. lia. }
  assert (Hk0 : ~ In k ext) by (intros H; apply Hke; unfold e0; destruct (parent b); [now right|exact H]).
  assert (Hhk : holders (objects h) k = 0).
  { destruct (holders (objects h) k) as [|m] eqn:Em; [reflexivity|exfalso].
    destruct (holders_some (objects h) k ltac:(lia)) as (j & o & Hj & Hp). pose proof (i_typed _ _ _ I _ _ Hj) as Htj. unfold typed in Htj.
    rewrite Hp in Htj. destruct Htj as (q & Hq & _). apply Hlt in Hq. lia. }
  assert (Hxk : refers (Some x) k = false).
  { cbn. destruct (parent b) as [p|] eqn:Ep; [|reflexivity]. apply Nat.eqb_neq. intros ->. apply Hke. unfold e0. now left. }
  constructor.
  - intros i o H. cbn [new_object objects]. rewrite holders_app. fold x. apply Hat in H as [[-> ->]|H].
    + cbn [o_refs x]. rewrite count_occ_cons_eq by reflexivity. rewrite Hhk, Hxk. cbn [one].
      apply (count_occ_not_In Nat.eq_dec) in Hk0. lia.
    + pose proof (Hlt _ _ H). rewrite count_occ_cons_neq by lia. destruct (i_refs _ _ _ I _ _ H) as [Hr Hp]. split; [|exact Hp].
      rewrite Hr. unfold e0. cbn [refers o_body x]. destruct (parent b) as [p|]; cbn [one]; [|lia].
      destruct (Nat.eqb_spec p i) as [Epi|Hne]; cbn [one].
      * subst i. rewrite count_occ_cons_eq by reflexivity. lia.
      * rewrite count_occ_cons_neq by auto. lia.
  - intros i [<-|H]; [exists x; apply Hat; now left|]. destruct (i_ext _ _ _ I i) as (o & Hi); [unfold e0; destruct (parent b); [now right|exact H]|].
    exists o. apply Hat. now right.
  - intros i o H. assert (Hty : typed h (o_body o)) by (apply Hat in H as [[-> ->]|H]; [exact Ht|apply (i_typed _ _ _ I _ _ H)]).
    unfold typed in *. destruct (parent (o_body o)) as [p|]; [|exact Logic.I]. destruct Hty as (q & Hq & Hc). exists q. split; [|exact Hc]. apply Hat. now right.
  - intros i o n H Hn. split; [|discriminate]. apply Hat in H as [[-> ->]|H].
    + cbn [x o_body] in Hn. rewrite Ho in Hn. destruct fl as [m|]; [|destruct Hn]. destruct Hn as [<-|[]]. apply (i_free _ _ _ I m eq_refl).
    + apply (i_owned _ _ _ I _ _ _ H Hn).
  - intros i o H. apply Hat in H as [[-> ->]|H]; [|apply (i_dup _ _ _ I _ _ H)]. cbn [x o_body]. rewrite Ho.
    destruct fl; repeat constructor. intros [].
  - intros n Hn. right. destruct (i_owner _ _ _ I n Hn) as [Hf|(j & o & Hj & Hno)].
    + exists k, x. split; [apply Hat; now left|]. cbn [x o_body]. rewrite Ho, Hf. now left.
    + exists j, o. split; [apply Hat; now right|exact Hno].
  - intros i j o o' n H1 H2 N1 N2. apply Hat in H1 as [[-> ->]|H1]; apply Hat in H2 as [[-> ->]|H2]; auto.
    + exfalso. cbn [x o_body] in N1. rewrite Ho in N1. destruct fl as [m|]; [|destruct N1]. destruct N1 as [<-|[]].
      destruct (i_owned _ _ _ I _ _ _ H2 N2) as [_ Hx]. congruence.
    + exfalso. cbn [x o_body] in N2. rewrite Ho in N2. destruct fl as [m|]; [|destruct N2]. destruct N2 as [<-|[]].
      destruct (i_owned _ _ _ I _ _ _ H1 N1) as [_ Hx]. congruence.
    + apply (i_once _ _ _ I _ _ _ _ _ H1 H2 N1 N2).
  - intros n Hn. discriminate.
  - intros i o n t p H Eb. apply Hat in H as [[-> ->]|H]; [apply (Hb _ _ _ Eb)|apply (i_tree _ _ _ I _ _ _ _ _ H Eb)].
Qed.

Lemma new_child_inv h ext fl b :
  inv h ext fl -> typed h b -> owned b = match fl with Some n => [n] | None => [] end ->
  (forall n t p, b = BItem n t p -> t < length (blocks h)) ->
  exists h', new_child h b = Ok h' /\ inv h' (length (objects h) :: ext) None /\
    held h' = length (objects h) :: held h /\ length (objects h') = S (length (objects h)) /\
    blocks h' = blocks h /\
    (forall j o', obj_at h' j o' -> j = length (objects h) /\ o_body o' = b \/ exists o'', obj_at h j o'' /\ o_body o'' = o_body o') /\
    (forall j o', obj_at h j o' -> exists o'', obj_at h' j o'' /\ o_body o'' = o_body o').
Proof.
  intros I Ht Ho Hb. unfold new_child. pose proof Ht as Ht0. unfold typed in Ht0.
  destruct (parent b) as [p|] eqn:Ep.
  - destruct Ht0 as (q & Hq & Hc). destruct (incref_inv h ext fl p q I Hq) as (h1 & E & I1 & Hh & Hbl & Hlen & Hnew & Hold).
    rewrite E. cbn [rbind]. eexists. split; [reflexivity|]. rewrite <- Hlen. split; [|split; [|split; [|split; [|split]]]].
    + apply (new_object_inv h1 ext fl b).
      * rewrite Ep. exact I1.
      * unfold typed. rewrite Ep. destruct (Hnew p q Hq) as (q' & Hq' & Eb). exists q'. rewrite Eb. auto.
      * exact Ho.
      * rewrite Hbl. exact Hb.
    + cbn. now rewrite Hh.
    + cbn. rewrite app_length. cbn. lia.
    + cbn. exact Hbl.
    + intros j o' H. apply nth_app_cases in H as [[-> H]|H]; [left; split; [reflexivity|]; injection H as ->; reflexivity|right; apply (Hold j o' H)].
    + intros j o' H. destruct (Hnew j o' H) as (o'' & H' & Eb). exists o''. split; [|exact Eb]. unfold obj_at, new_object. cbn [objects].
      rewrite nth_error_app1; [exact H'|eapply nth_lt; exact H'].
  - eexists. split; [reflexivity|]. split; [|split; [|split; [|split; [|split]]]].
    + apply (new_object_inv h ext fl b); auto. now rewrite Ep.
    + reflexivity.
    + cbn. rewrite app_length. cbn. lia.
    + reflexivity.
    + intros j o' H. apply nth_app_cases in H as [[-> H]|H]; [left; split; [reflexivity|]; injection H as ->; reflexivity|right; exists o'; auto].
    + intros j o' H. exists o'. split; [|reflexivity]. unfold obj_at, new_object. cbn [objects]. rewrite nth_error_app1; [exact H|eapply nth_lt; exact H].
Qed.

(** ** Opening and closing a file *)
Lemma open_inv h ext src t i o f :
  inv h (match src with Some j => j :: ext | None => ext end) (Some t) ->
  obj_at h i o -> o_body o = BFile f None ->
  (forall j, src = Some j -> exists q, obj_at h j q /\ o_body q = BSource) ->
  inv (set_obj h i (Some {| o_refs := o_refs o; o_body := BFile f (Some (t, src)) |})) ext None.
Proof.
  intros I Hi Eb Hs. set (x := {| o_refs := o_refs o; o_body := BFile f (Some (t, src)) |}). set (h' := set_obj h i (Some x)).
  set (e0 := match src with Some j => j :: ext | None => ext end) in *.
  assert (Hat : forall j o', obj_at h' j o' -> i = j /\ o' = x \/ i <> j /\ obj_at h j o').
  { intros j o' H. apply (set_obj_at h i o) in H as [[<- E]|H]; [left; split; [reflexivity|now injection E]|now right|exact Hi]. }
  assert (Hnew : forall j o', i <> j -> obj_at h j o' -> obj_at h' j o').
  { intros j o' Hne H. unfold obj_at, h'. now rewrite set_obj_other. }
  assert (Hx : obj_at h' i x) by (apply (set_obj_same h i _ o Hi)).
  assert (Hh : forall j, holders (objects h') j = holders (objects h) j + one (refers (Some x) j)).
  { intros j. pose proof (holders_update (objects h) i (Some x) _ j Hi) as H. unfold refers in H at 1. rewrite Eb in H. cbn [parent one] in H.
    cbn [h' set_obj objects]. lia. }
  assert (Hc : forall j, count e0 j = count ext j + one (refers (Some x) j)).
  { intros j. unfold e0. cbn [refers x o_body parent]. destruct src as [k|]; cbn [one]; [|lia].
    destruct (Nat.eqb_spec k j) as [E|E]; cbn [one]; [subst j; rewrite count_occ_cons_eq by reflexivity; lia|].
    rewrite count_occ_cons_neq by auto. lia. }
  assert (Htf : forall j o', obj_at h j o' -> ~ In t (owned (o_body o'))).
  { intros j o' H Hn. destruct (i_owned _ _ _ I _ _ _ H Hn) as [_ Hf]. congruence. }
  constructor.
  - intros j o' H. rewrite Hh. assert (Hr : exists o'', obj_at h j o'' /\ o_refs o' = o_refs o'').
    { apply Hat in H as [[<- ->]|[_ H]]; [exists o; auto|eauto]. }
    destruct Hr as (o'' & H1 & ->). destruct (i_refs _ _ _ I _ _ H1) as [Hr Hp]. rewrite Hc in Hr. lia.
  - intros j H. assert (Hj : In j e0) by (unfold e0; destruct src; [now right|exact H]).
    destruct (i_ext _ _ _ I j Hj) as (o' & Ho). destruct (Nat.eq_dec i j) as [<-|Hne]; eauto.
  - intros j o' H. unfold typed. apply Hat in H as [[<- ->]|[Hne H]].
    + cbn [x o_body parent]. destruct src as [k|]; [|exact Logic.I]. destruct (Hs k eq_refl) as (q & Hq & Eq). exists q. split.
      * apply Hnew; [|exact Hq]. intros ->. rewrite (obj_fun _ _ _ _ Hq Hi), Eb in Eq. discriminate.
      * cbn. now rewrite Eq.
    + pose proof (i_typed _ _ _ I _ _ H) as Ht. unfold typed in Ht. destruct (parent (o_body o')) as [p|]; [|exact Logic.I].
      destruct Ht as (q & Hq & Hcq). destruct (Nat.eq_dec i p) as [<-|Hn]; [|exists q; auto].
      exists x. split; [exact Hx|]. rewrite (obj_fun _ _ _ _ Hq Hi), Eb in Hcq. cbn [x o_body]. destruct (o_body o'); exact Hcq.
  - intros j o' n H Hn. split; [|discriminate]. apply Hat in H as [[<- ->]|[Hne H]]; [|apply (i_owned _ _ _ I _ _ _ H Hn)].
    cbn [x o_body owned] in Hn. destruct Hn as [<-|[<-|[]]]; [apply (i_free _ _ _ I _ eq_refl)|].
    apply (i_owned _ _ _ I _ _ f Hi). rewrite Eb. now left.
  - intros j o' H. apply Hat in H as [[<- ->]|[Hne H]]; [|apply (i_dup _ _ _ I _ _ H)].
    cbn [x o_body owned]. pose proof (Htf i o Hi) as Hf. rewrite Eb in Hf. cbn in Hf. repeat constructor; cbn; tauto.
  - intros n Hn. right. destruct (i_owner _ _ _ I n Hn) as [E|(j & o' & H & Ho)].
    + injection E as <-. exists i, x. split; [exact Hx|]. now left.
    + destruct (Nat.eq_dec i j) as [<-|Hne]; [|exists j, o'; auto].
      exists i, x. split; [exact Hx|]. rewrite (obj_fun _ _ _ _ H Hi), Eb in Ho. cbn in Ho |- *. tauto.
  - intros j k o1 o2 n H1 H2 N1 N2.
    assert (Hw : forall m o', obj_at h' m o' -> In n (owned (o_body o')) -> n = t /\ m = i \/ exists o'', obj_at h m o'' /\ In n (owned (o_body o''))).
    { intros m o' H Hn. apply Hat in H as [[<- ->]|[Hne H]]; [|right; eauto]. cbn in Hn. destruct Hn as [<-|[<-|[]]]; [now left|right].
      exists o. split; [exact Hi|]. rewrite Eb. now left. }
    destruct (Hw _ _ H1 N1) as [[-> ->]|(p1 & P1 & M1)]; destruct (Hw _ _ H2 N2) as [[E ->]|(p2 & P2 & M2)]; auto.
    + exfalso. apply (Htf _ _ P2 M2).
    + exfalso. rewrite E in M1. apply (Htf _ _ P1 M1).
    + apply (i_once _ _ _ I _ _ _ _ _ P1 P2 M1 M2).
  - intros n Hn. discriminate.
  - intros j o' n t' p H E. apply Hat in H as [[<- ->]|[Hne H]]; [discriminate|apply (i_tree _ _ _ I _ _ _ _ _ H E)].
Qed.

Lemma close_inv h ext src t i o f :
  inv h ext None -> obj_at h i o -> o_body o = BFile f (Some (t, src)) ->
  exists h1, release h t = Ok h1 /\ held h1 = held h /\ objects h1 = objects h /\ length (blocks h1) = length (blocks h) /\
  inv (set_obj h1 i (Some {| o_refs := o_refs o; o_body := BFile f None |}))
    (match src with Some j => j :: ext | None => ext end) None.
Proof.
  intros I Hi Eb.
  assert (Ht : in_memory h t) by (apply (i_owned _ _ _ I _ _ t Hi); rewrite Eb; now left).
  destruct (release_all_ok h [t]) as (bl & E & Hlen & Hbl).
  { repeat constructor. intros []. }
  { intros n [<-|[]]. exact Ht. }
  cbn [release_all] in E. destruct (release h t) as [h1| | |] eqn:Er; cbn [rbind] in E; try discriminate. injection E as ->.
  eexists. split; [reflexivity|]. cbn [held objects blocks]. split; [reflexivity|]. split; [reflexivity|]. split; [exact Hlen|].
  set (h1 := {| objects := objects h; blocks := bl; held := held h |}).
  set (x := {| o_refs := o_refs o; o_body := BFile f None |}). set (h' := set_obj h1 i (Some x)).
  set (e0 := match src with Some j => j :: ext | None => ext end).
  assert (Hbl' : forall n, nth_error bl n = Some true <-> in_memory h n /\ n <> t).
  { intros n. rewrite Hbl. cbn. intuition. }
  assert (Hat : forall j o', obj_at h' j o' -> i = j /\ o' = x \/ i <> j /\ obj_at h j o').
  { intros j o' H. apply (set_obj_at h1 i o) in H as [[<- Ee]|H]; [left; split; [reflexivity|now injection Ee]|now right|exact Hi]. }
  assert (Hnew : forall j o', i <> j -> obj_at h j o' -> obj_at h' j o').
  { intros j o' Hne H. unfold obj_at, h'. now rewrite set_obj_other. }
  assert (Hx : obj_at h' i x) by (apply (set_obj_same h1 i _ o Hi)).
  assert (Hh : forall j, holders (objects h') j + one (refers (Some o) j) = holders (objects h) j).
  { intros j. pose proof (holders_update (objects h1) i (Some x) _ j Hi) as H. cbn [h' set_obj objects]. unfold refers in H at 2.
    cbn [x o_body parent one] in H. unfold h1 in H at 2. cbn [objects] in H. fold x in H. lia. }
  assert (Hc : forall j, count e0 j = count ext j + one (refers (Some o) j)).
  { intros j. unfold e0. cbn [refers]. rewrite Eb. cbn [parent]. destruct src as [k|]; cbn [one]; [|lia].
    destruct (Nat.eqb_spec k j) as [E|E]; cbn [one]; [subst j; rewrite count_occ_cons_eq by reflexivity; lia|].
    rewrite count_occ_cons_neq by auto. lia. }
  assert (Htyp : forall j o', obj_at h j o' -> typed h (o_body o')) by apply I.
  constructor.
  - intros j o' H. assert (Hr : exists o'', obj_at h j o'' /\ o_refs o' = o_refs o'').
    { apply Hat in H as [[<- ->]|[_ H]]; [exists o; auto|eauto]. }
    destruct Hr as (o'' & H1 & ->). destruct (i_refs _ _ _ I _ _ H1) as [Hr Hp]. rewrite Hc. specialize (Hh j). lia.
  - intros j H. destruct (Nat.eq_dec i j) as [<-|Hne]; [eauto|].
    assert (Hj : exists o', obj_at h j o').
    { unfold e0 in H. destruct src as [k|]; [|apply (i_ext _ _ _ I j H)]. destruct H as [<-|H]; [|apply (i_ext _ _ _ I j H)].
      pose proof (Htyp _ _ Hi) as Hq. rewrite Eb in Hq. unfold typed in Hq. cbn in Hq. destruct Hq as (q & Hq & _). eauto. }
    destruct Hj as (o' & Ho). eauto.
  - intros j o' H. unfold typed. apply Hat in H as [[<- ->]|[Hne H]]; [exact Logic.I|].
    pose proof (Htyp _ _ H) as Hty. unfold typed in Hty. destruct (parent (o_body o')) as [p|]; [|exact Logic.I].
    destruct Hty as (q & Hq & Hcq). destruct (Nat.eq_dec i p) as [<-|Hn]; [|exists q; auto].
    exists x. split; [exact Hx|]. rewrite (obj_fun _ _ _ _ Hq Hi), Eb in Hcq. cbn [x o_body]. destruct (o_body o'); exact Hcq.
  - intros j o' n H Hn. split; [|discriminate]. apply Hbl'. apply Hat in H as [[<- ->]|[Hne H]].
    + cbn in Hn. destruct Hn as [<-|[]]. split.
      * apply (i_owned _ _ _ I _ _ f Hi). rewrite Eb. cbn. auto.
      * pose proof (i_dup _ _ _ I _ _ Hi) as Hd. rewrite Eb in Hd. inversion Hd as [|? ? Hno _]; subst. cbn in Hno. intros ->. tauto.
    + split; [apply (i_owned _ _ _ I _ _ _ H Hn)|]. intros ->. apply Hne. apply (i_once _ _ _ I _ _ _ _ t Hi H); [|exact Hn].
      rewrite Eb. now left.
  - intros j o' H. apply Hat in H as [[<- ->]|[Hne H]]; [|apply (i_dup _ _ _ I _ _ H)]. repeat constructor. intros [].
  - intros n Hn. apply Hbl' in Hn as [Hn Hnt]. right. destruct (i_owner _ _ _ I n Hn) as [E|(j & o' & H & Ho)]; [discriminate|].
    destruct (Nat.eq_dec i j) as [<-|Hne]; [|exists j, o'; auto].
    exists i, x. split; [exact Hx|]. rewrite (obj_fun _ _ _ _ H Hi), Eb in Ho. cbn in Ho |- *. destruct Ho as [E|Ho]; [congruence|exact Ho].
  - intros j k o1 o2 n H1 H2 N1 N2.
    assert (Hw : forall m o', obj_at h' m o' -> In n (owned (o_body o')) -> exists o'', obj_at h m o'' /\ In n (owned (o_body o''))).
    { intros m o' H Hn. apply Hat in H as [[<- ->]|[Hne H]]; [|eauto]. exists o. split; [exact Hi|]. rewrite Eb. cbn in Hn |- *. tauto. }
    destruct (Hw _ _ H1 N1) as (p1 & P1 & M1). destruct (Hw _ _ H2 N2) as (p2 & P2 & M2).
    apply (i_once _ _ _ I _ _ _ _ _ P1 P2 M1 M2).
  - intros n Hn. discriminate.
  - intros j o' n t' p H E. apply Hat in H as [[<- ->]|[Hne H]]; [discriminate|].
    cbn [h' set_obj blocks h1]. rewrite Hlen. apply (i_tree _ _ _ I _ _ _ _ _ H E).
Qed.

(** ** The trees of the items *)
Definition fresh (h : heap) : Prop :=
  forall i o n t p, obj_at h i o -> o_body o = BItem n t p ->
    exists o' f src, obj_at h p o' /\ o_body o' = BFile f (Some (t, src)).

Lemma fresh_keep h h' ext fl : inv h' ext fl -> fresh h ->
  (forall j o' n t p, obj_at h' j o' -> o_body o' = BItem n t p ->
     (exists o, obj_at h j o /\ o_body o = o_body o') \/
     exists o f src, obj_at h p o /\ o_body o = BFile f (Some (t, src))) ->
  (forall j o o', obj_at h j o -> obj_at h' j o' -> o_body o = o_body o' \/ exists f, o_body o = BFile f None) ->
  fresh h'.
Proof.
  intros I Hf H1 H2 i o' n t p Hi Eb.
  assert (Hp : exists o f src, obj_at h p o /\ o_body o = BFile f (Some (t, src))).
  { destruct (H1 _ _ _ _ _ Hi Eb) as [(o & Ho & E)|H]; [|exact H]. apply (Hf i o n t p Ho). congruence. }
  destruct Hp as (o & f & src & Hp & E). pose proof (i_typed _ _ _ I _ _ Hi) as Ht. rewrite Eb in Ht. unfold typed in Ht. cbn in Ht.
  destruct Ht as (q & Hq & _). exists q, f, src. split; [exact Hq|].
  destruct (H2 p o q Hp Hq) as [E'|(f' & E')]; congruence.
Qed.

Lemma fresh_back h h' ext fl : inv h' ext fl -> fresh h ->
  (forall j o', obj_at h' j o' -> exists o, obj_at h j o /\ o_body o = o_body o') -> fresh h'.
Proof.
  intros I Hf H. apply (fresh_keep h h' ext fl I Hf).
  - intros j o' n t p Hj _. left. apply (H j o' Hj).
  - intros j o o' Ho Hj. left. destruct (H j o' Hj) as (q & Hq & <-). now rewrite (obj_fun _ _ _ _ Hq Ho).
Qed.

(** ** Steps *)
Definition good (h : heap) : Prop := inv h (held h) None.

Lemma has_in h i : has h i = true <-> In i (held h).
Proof.
  unfold has. rewrite existsb_exists. split.
  - intros (x & Hx & E). apply Nat.eqb_eq in E. now subst.
  - intros H. exists i. split; [exact H|apply Nat.eqb_refl].
Qed.

Lemma count_without i : forall l j, In i l -> count (i :: without l i) j = count l j.
Proof.
  induction l as [|k l IH]; intros j H; [destruct H|]. cbn [without]. destruct (Nat.eqb_spec k i) as [->|Hne]; [reflexivity|].
  destruct H as [->|H]; [congruence|]. specialize (IH j H). cbn [count_occ] in *.
  destruct (Nat.eq_dec k j), (Nat.eq_dec i j); lia.
Qed.

Lemma in_without i l j : In j (without l i) -> In j l.
Proof. induction l as [|k l IH]; cbn; [auto|]. destruct (Nat.eqb k i); cbn; intuition. Qed.

Lemma inv_set_held h ext ext' fl l : inv h ext fl -> (forall j, count ext' j = count ext j) ->
  inv (set_held h l) ext' fl.
Proof.
  intros I Hc. constructor; try (apply I).
  - intros i o H. rewrite Hc. apply (i_refs _ _ _ I _ _ H).
  - intros i H. apply (i_ext _ _ _ I). apply (count_occ_In Nat.eq_dec). rewrite <- Hc. now apply (count_occ_In Nat.eq_dec).
Qed.

Lemma touch_ok h n : in_memory h n -> touch h n = Ok tt.
Proof. unfold in_memory, touch. now intros ->. Qed.

Lemma touch_own h i o n : good h -> obj_at h i o -> In n (owned (o_body o)) -> touch h n = Ok tt.
Proof. intros I H Hn. apply touch_ok. apply (i_owned _ _ _ I _ _ _ H Hn). Qed.

(** What a step can lead to. *)
Definition step_result (h : heap) (s : rstep) (r : res heap) : Prop :=
  match r with
  | Ok h' => good h' /\ ((forall i, s <> Close i) -> fresh h -> fresh h')
  | Undef => (exists i w ok, s = Method i w ok /\ closed_item h i) /\ ~ fresh h
  | _ => False
  end.

Lemma result_same h s : good h -> step_result h s (Ok h).
Proof. cbn. auto. Qed.

(** A new object without a block. *)
Lemma result_child h s b : good h -> typed h b -> owned b = [] -> step_result h s (new_child h b).
Proof.
  intros I Ht Ho. destruct (new_child_inv h (held h) None b I Ht Ho) as (h' & -> & I' & Hh & Hl & _ & Hold & Hnew).
  { intros n t p ->. discriminate. }
  cbn. unfold good. rewrite Hh. split; [exact I'|]. intros _ Hf. apply (fresh_keep h h' _ _ I' Hf).
  - intros j o' n t p H E. destruct (Hold j o' H) as [[-> E']|H']; [|now left]. rewrite <- E', E in Ho. discriminate.
  - intros j o o' H H'. left. destruct (Hold j o' H') as [[-> _]|(q & Hq & <-)]; [apply nth_lt in H; lia|].
    now rewrite (obj_fun _ _ _ _ Hq H).
Qed.

(** A new object with a new block. *)
Lemma result_new h s (b : nat -> body) : good h -> (forall n, typed h (b n)) -> (forall n, owned (b n) = [n]) ->
  (forall n m t p, b n = BItem m t p -> (exists o f src, obj_at h p o /\ o_body o = BFile f (Some (t, src))) \/
     exists o i m', obj_at h i o /\ o_body o = BItem m' t p) ->
  step_result h s (let (n, h1) := new_block h in new_child h1 (b n)).
Proof.
  intros I Ht Ho Hb. destruct (new_block h) as [n h1] eqn:En.
  destruct (new_block_inv h (held h) n h1 I En) as (I1 & Hob & Hh & Hlb).
  assert (Hty : typed h1 (b n)). { specialize (Ht n). unfold typed, obj_at in *. now rewrite Hob. }
  destruct (new_child_inv h1 (held h) (Some n) (b n) I1 Hty (Ho n)) as (h' & -> & I' & Hh' & Hl & _ & Hold & Hnew).
  { intros m t p E. destruct (Hb n m t p E) as [(o & f & src & Hp & Ep)|(o' & i & m' & Hi & Ei)].
    - assert (in_memory h t) by (apply (i_owned _ _ _ I _ _ t Hp); rewrite Ep; now left). apply nth_lt in H. lia.
    - pose proof (i_tree _ _ _ I _ _ _ _ _ Hi Ei). lia. }
  assert (Eat : forall j o, obj_at h1 j o <-> obj_at h j o) by (intros j o; unfold obj_at; now rewrite Hob).
  cbn. unfold good. rewrite Hh', Hh. split; [exact I'|]. intros _ Hf. apply (fresh_keep h h' _ _ I' Hf).
  - intros j o' m t p H E. destruct (Hold j o' H) as [[-> E']|(q & Hq & Eq)]; [right|left; exists q; split; [now apply Eat|exact Eq]].
    rewrite E in E'. destruct (Hb n m t p) as [(o & f & src & Hp & Ep)|(o2 & i & m' & Hi & Ei)]; [congruence|eauto 6|].
    apply (Hf i o2 m' t p Hi Ei).
  - intros j o o' H H'. left. destruct (Hold j o' H') as [[-> _]|(q & Hq & <-)]; [rewrite Hob in *; apply nth_lt in H; lia|].
    apply Eat in Hq. now rewrite (obj_fun _ _ _ _ Hq H).
Qed.

(** Touching the tree of an item. *)
Lemma touch_tree h i o n t p : good h -> obj_at h i o -> o_body o = BItem n t p ->
  touch h t = Ok tt \/ touch h t = Undef /\ ~ fresh h /\ not_tree h p t.
Proof.
  intros I Hi Eb. assert (Hnt : touch h t = Ok tt \/ touch h t = Undef /\ not_tree h p t).
  { unfold touch. destruct (nth_error (blocks h) t) as [[|]|] eqn:E; auto; right; split; auto; intros q f src Hq Eq;
    assert (in_memory h t) by (apply (i_owned _ _ _ I _ _ t Hq); rewrite Eq; now left); unfold in_memory in *; congruence. }
  destruct Hnt as [H|[H Hn]]; [now left|right]. split; [exact H|]. split; [|exact Hn]. intros Hf.
  destruct (Hf i o n t p Hi Eb) as (q & f & src & Hq & Eq). now apply (Hn q f src Hq).
Qed.

Lemma typed_parent h i o p : good h -> obj_at h i o -> parent (o_body o) = Some p ->
  exists q, obj_at h p q /\ child_of (o_body o) (o_body q).
Proof. intros I Hi Ep. pose proof (i_typed _ _ _ I _ _ Hi) as Ht. unfold typed in Ht. now rewrite Ep in Ht. Qed.

Lemma touch_set h i o s p : good h -> obj_at h i o -> o_body o = BSection s p -> touch h s = Ok tt.
Proof.
  intros I Hi Eb. destruct (typed_parent h i o p I Hi) as (q & Hq & Hc); [now rewrite Eb|]. rewrite Eb in Hc. cbn in Hc.
  destruct (o_body q) eqn:Eq; try contradiction. subst. apply (touch_own h p q _ I Hq). rewrite Eq. now left.
Qed.

Lemma touch_value h i o s p : good h -> obj_at h i o -> o_body o = BValue s p -> touch h s = Ok tt.
Proof.
  intros I Hi Eb. destruct (typed_parent h i o p I Hi) as (q & Hq & Hc); [now rewrite Eb|]. rewrite Eb in Hc. cbn in Hc.
  destruct (o_body q) eqn:Eq; try contradiction. subst. apply (touch_set h p q _ _ I Hq Eq).
Qed.

Lemma sub_item_result h i w ok k q n t p : good h -> (not_tree h p t -> closed_item h i) -> obj_at h k q -> o_body q = BItem n t p ->
  step_result h (Method i w ok) (sub_item h (o_body q) ok).
Proof.
  intros I Hii Hk Eb. rewrite Eb. cbn [sub_item].
  rewrite (touch_own h k q n I Hk) by (rewrite Eb; now left). cbn [rbind].
  destruct (touch_tree h k q n t p I Hk Eb) as [->|(-> & Hf & Hn)]; cbn [rbind]; [|split; [exists i, w, ok; auto|exact Hf]].
  destruct ok; [|apply result_same; exact I].
  apply (result_new h _ (fun n => BItem n t p) I); auto.
  - intros m. unfold typed. cbn. destruct (typed_parent h k q p I Hk) as (r & Hr & Hc); [now rewrite Eb|].
    exists r. split; [exact Hr|]. rewrite Eb in Hc. exact Hc.
  - intros a m t' p' E. injection E as -> -> ->. right. exists q, k, n. auto.
Qed.

Lemma section_result h s p q st r ok : good h -> obj_at h p q -> o_body q = BSet st r ->
  step_result h s (section_of h p (o_body q) ok).
Proof.
  intros I Hp Eb. rewrite Eb. cbn [section_of]. rewrite (touch_own h p q st I Hp) by (rewrite Eb; now left). cbn [rbind].
  destruct ok; [|apply result_same; exact I]. apply result_child; auto. unfold typed. cbn. exists q. rewrite Eb. auto.
Qed.

Lemma value_result h s p q st r ok : good h -> obj_at h p q -> o_body q = BSection st r ->
  step_result h s (value_of h p (o_body q) ok).
Proof.
  intros I Hp Eb. rewrite Eb. cbn [value_of]. rewrite (touch_set h p q st r I Hp Eb). cbn [rbind].
  destruct ok; [|apply result_same; exact I]. apply result_child; auto. unfold typed. cbn. exists q. rewrite Eb. auto.
Qed.

Lemma method_result h i w ok : good h -> In i (held h) -> step_result h (Method i w ok) (method h i w ok).
Proof.
  intros I Hin. destruct (i_ext _ _ _ I i Hin) as (o & Hi). unfold method. rewrite (proj2 (get_obj_at h i o) Hi). cbn [rbind].
  destruct (o_body o) as [|f op|n t p|p|s p|p|s p|p|s p] eqn:Eb.
  - apply result_same, I.
  - assert (Hf : touch h f = Ok tt) by (apply (touch_own h i o f I Hi); rewrite Eb; destruct op as [[? ?]|]; cbn; auto).
    assert (Ht : forall t src, op = Some (t, src) -> touch h t = Ok tt)
      by (intros t src ->; apply (touch_own h i o t I Hi); rewrite Eb; now left).
    rewrite Hf. cbn [rbind].
    destruct op as [[t src]|]; [rewrite (Ht t src eq_refl); cbn [rbind]|destruct w; apply result_same, I].
    destruct w; try apply result_same, I. destruct ok; [|apply result_same, I].
    apply (result_new h _ (fun n => BItem n t i) I); auto.
    + intros m. unfold typed. cbn. exists o. rewrite Eb. auto.
    + intros a m t' p' E. injection E as -> -> ->. left. exists o, f, src. auto.
  - assert (Hii : not_tree h p t -> closed_item h i) by (intros Hx; exists o; rewrite Eb; split; [exact Hi|exact Hx]).
    assert (Hn : touch h n = Ok tt) by (apply (touch_own h i o n I Hi); rewrite Eb; now left).
    rewrite Hn. cbn [rbind].
    destruct (touch_tree h i o n t p I Hi Eb) as [Et|(Et & Hf & Hnt)].
    + rewrite Et. cbn [rbind]. destruct w; try (apply result_same, I); try (rewrite <- Eb; apply (sub_item_result h i _ ok i o n t p I Hii Hi Eb)).
      * destruct ok; [|apply result_same, I]. apply result_child; auto. unfold typed. cbn. exists o. rewrite Eb. auto.
      * destruct ok; [|apply result_same, I]. apply (result_new h _ (fun n => BSet n i) I); auto.
        -- intros m. unfold typed. cbn. exists o. rewrite Eb. auto.
        -- intros a m t' p' E. discriminate.
    + rewrite Et. cbn [rbind]. destruct w; try (rewrite <- Eb; apply (sub_item_result h i _ ok i o n t p I Hii Hi Eb)); (split; [eexists _, _, _; split; [reflexivity|auto]|exact Hf]).
  - destruct (typed_parent h i o p I Hi) as (q & Hq & Hc); [now rewrite Eb|]. rewrite Eb in Hc. cbn in Hc.
    destruct w; try apply result_same, I. rewrite (proj2 (get_obj_at h p q) Hq). cbn [rbind].
    destruct (o_body q) as [| |n t r| | | | | |] eqn:Eq; try contradiction. rewrite <- Eq.
    apply (sub_item_result h i _ ok p q n t r I); auto. intros Hx. exists o. rewrite Eb. split; [exact Hi|]. exists q, n, t, r. auto.
  - assert (Hs : touch h s = Ok tt) by (apply (touch_own h i o s I Hi); rewrite Eb; now left).
    rewrite Hs. cbn [rbind]. destruct w; try apply result_same, I.
    + destruct ok; [|apply result_same, I]. apply result_child; auto. unfold typed. cbn. exists o. rewrite Eb. auto.
    + rewrite <- Eb. apply (section_result h _ i o s p ok I Hi Eb).
  - destruct (typed_parent h i o p I Hi) as (q & Hq & Hc); [now rewrite Eb|]. rewrite Eb in Hc. cbn in Hc.
    destruct w; try apply result_same, I. rewrite (proj2 (get_obj_at h p q) Hq). cbn [rbind].
    destruct (o_body q) as [| | | |s r| | | |] eqn:Eq; try contradiction. rewrite <- Eq. apply (section_result h _ p q s r ok I Hq Eq).
  - rewrite (touch_set h i o s p I Hi Eb). cbn [rbind]. destruct w; try apply result_same, I.
    + destruct ok; [|apply result_same, I]. apply result_child; auto. unfold typed. cbn. exists o. rewrite Eb. auto.
    + rewrite <- Eb. apply (value_result h _ i o s p ok I Hi Eb).
  - destruct (typed_parent h i o p I Hi) as (q & Hq & Hc); [now rewrite Eb|]. rewrite Eb in Hc. cbn in Hc.
    destruct w; try apply result_same, I. rewrite (proj2 (get_obj_at h p q) Hq). cbn [rbind].
    destruct (o_body q) as [| | | | | |s r| |] eqn:Eq; try contradiction. rewrite <- Eq. apply (value_result h _ p q s r ok I Hq Eq).
  - rewrite (touch_value h i o s p I Hi Eb). cbn [rbind]. destruct w; apply result_same, I.
Qed.

(** A reference that is given back. *)
Lemma decref_result h s i l : inv h (i :: l) None -> held h = l ->
  exists h', decref CHAIN h i = Ok h' /\ good h' /\ (fresh h -> fresh h') /\ step_result h s (Ok h').
Proof.
  intros I Hl. destruct (i_ext _ _ _ I i (or_introl eq_refl)) as (o & Hi).
  destruct (decref_inv CHAIN h l i o I Hi) as (h' & E & I' & Hh & _ & Hat).
  { pose proof (rank_max (o_body o)). unfold CHAIN. lia. }
  exists h'. assert (G : good h') by (unfold good; rewrite Hh, Hl; exact I'). split; [exact E|]. split; [exact G|].
  assert (F : fresh h -> fresh h').
  { intros Hf. apply (fresh_back h h' _ _ I' Hf). intros j o' H. destruct (Hat j o' H) as (q & Hq & Eq). eauto. }
  split; [exact F|]. cbn. auto.
Qed.

Lemma open_result h i src ok : good h -> In i (held h) ->
  (forall j, src = Some j -> In j (held h) /\ is_source h j = true) ->
  step_result h (Open i src ok) (open_object h i src ok).
Proof.
  intros I Hin Hs. destruct (i_ext _ _ _ I i Hin) as (o & Hi). unfold open_object. rewrite (proj2 (get_obj_at h i o) Hi). cbn [rbind].
  destruct (o_body o) as [|f op| | | | | | |] eqn:Eb; try (apply result_same, I).
  assert (Hf : touch h f = Ok tt) by (apply (touch_own h i o f I Hi); rewrite Eb; destruct op as [[? ?]|]; cbn; auto).
  rewrite Hf. cbn [rbind].
  assert (Hrest : step_result h (Open i src ok)
    (do h1 <- match src with Some j => incref h j | None => Ok h end;
     match op, ok with
     | None, true =>
         let (t, h2) := new_block h1 in
         do o <- get_obj h2 i;
         Ok (set_obj h2 i (Some {| o_refs := o_refs o; o_body := BFile f (Some (t, src)) |}))
     | _, _ => match src with Some j => decref CHAIN h1 j | None => Ok h1 end
     end)).
  { set (e1 := match src with Some j => j :: held h | None => held h end).
    assert (H1 : exists h1, match src with Some j => incref h j | None => Ok h end = Ok h1 /\ inv h1 e1 None /\ held h1 = held h /\
      (forall j o', obj_at h j o' -> exists o'', obj_at h1 j o'' /\ o_body o'' = o_body o') /\
      (forall j o', obj_at h1 j o' -> exists o'', obj_at h j o'' /\ o_body o'' = o_body o')).
    { unfold e1. destruct src as [j|].
      - destruct (Hs j eq_refl) as [Hj _]. destruct (i_ext _ _ _ I j Hj) as (q & Hq).
        destruct (incref_inv h (held h) None j q I Hq) as (h1 & E & I1 & Hh & _ & _ & Hn & Ho). exists h1. auto.
      - exists h. split; [reflexivity|]. split; [exact I|]. split; [reflexivity|]. split; intros j o' H; exists o'; auto. }
    destruct H1 as (h1 & -> & I1 & Hh1 & Hn1 & Ho1). cbn [rbind].
    assert (Hback : step_result h (Open i src ok) match src with Some j => decref CHAIN h1 j | None => Ok h1 end).
    { assert (F1 : fresh h -> fresh h1).
      { intros Hfr. apply (fresh_back h h1 _ _ I1 Hfr). intros j o' H. destruct (Ho1 j o' H) as (q & Hq & Eq). eauto. }
      unfold e1 in I1. destruct src as [j|].
      - destruct (decref_result h1 (Forget j) j (held h) I1 Hh1) as (h' & -> & G & F & _). cbn. split; [exact G|auto].
      - cbn. unfold good. rewrite Hh1. split; [exact I1|auto]. }
    destruct op as [[t src0]|]; [exact Hback|]. destruct ok; [|exact Hback].
    destruct (new_block h1) as [t h2] eqn:En. destruct (new_block_inv h1 e1 t h2 I1 En) as (I2 & Hob & Hh2 & _).
    destruct (Hn1 i o Hi) as (o1 & Hi1 & Eb1). assert (Hi2 : obj_at h2 i o1) by (unfold obj_at; rewrite Hob; exact Hi1).
    rewrite (proj2 (get_obj_at h2 i o1) Hi2). cbn [rbind step_result].
    assert (I3 : inv (set_obj h2 i (Some {| o_refs := o_refs o1; o_body := BFile f (Some (t, src)) |})) (held h) None).
    { apply (open_inv h2 (held h) src t i o1 f I2 Hi2); [congruence|]. intros j ->. destruct (Hs j eq_refl) as [Hj Hsj].
      unfold is_source in Hsj. destruct (get_obj h j) as [q| | |] eqn:Eq; try discriminate. apply get_obj_at in Eq.
      destruct (o_body q) eqn:Ebq; try discriminate. destruct (Hn1 j q Eq) as (q1 & Hq1 & Eq1). exists q1. split; [|congruence].
      unfold obj_at. rewrite Hob. exact Hq1. }
    split; [unfold good; cbn [set_obj held]; rewrite Hh2, Hh1; exact I3|]. intros _ Hfr.
    assert (Hat : forall j o', obj_at (set_obj h2 i (Some {| o_refs := o_refs o1; o_body := BFile f (Some (t, src)) |})) j o' ->
      i = j /\ o_body o' = BFile f (Some (t, src)) \/ exists o'', obj_at h j o'' /\ o_body o'' = o_body o').
    { intros j o' H. apply (set_obj_at h2 i o1) in H as [[<- E]|[_ H]]; [injection E as <-; now left| |exact Hi2].
      right. apply Ho1. unfold obj_at in *. now rewrite <- Hob. }
    apply (fresh_keep h _ _ _ I3 Hfr).
    - intros j o' n t' p H E. left. destruct (Hat j o' H) as [[<- E']|H']; [congruence|exact H'].
    - intros j q o' Hq H. destruct (Hat j o' H) as [[<- _]|(q' & Hq' & <-)].
      + right. rewrite (obj_fun _ _ _ _ Hq Hi), Eb. eauto.
      + left. now rewrite (obj_fun _ _ _ _ Hq Hq'). }
  destruct op as [[t [s0|]]|]; [|exact Hrest|exact Hrest].
  destruct src as [j|]; [apply result_same, I|exact Hrest].
Qed.

Lemma close_result h i : good h -> In i (held h) -> step_result h (Close i) (close_object h i).
Proof.
  intros I Hin. destruct (i_ext _ _ _ I i Hin) as (o & Hi). unfold close_object. rewrite (proj2 (get_obj_at h i o) Hi). cbn [rbind].
  destruct (o_body o) as [|f op| | | | | | |] eqn:Eb; try (apply result_same, I).
  assert (Hf : touch h f = Ok tt) by (apply (touch_own h i o f I Hi); rewrite Eb; destruct op as [[? ?]|]; cbn; auto).
  destruct op as [[t src]|]; rewrite Hf; cbn [rbind]; [|apply result_same, I].
  destruct (close_inv h (held h) src t i o f I Hi Eb) as (h1 & -> & Hh & _ & _ & I1). cbn [rbind].
  destruct src as [j|].
  - destruct (decref_result _ (Forget j) j (held h) I1 Hh) as (h' & -> & G & _). cbn. split; [exact G|]. intros H. now destruct (H i).
  - cbn. unfold good. cbn [set_obj held]. rewrite Hh. split; [exact I1|]. intros H. now destruct (H i).
Qed.

Lemma heap_step_result h s : good h -> step_result h s (heap_step h s).
Proof.
  intros I. destruct s as [| |i src ok|i|i w ok|i|i]; cbn [heap_step].
  - change (Ok (new_object h BSource)) with (new_child h BSource). apply result_child; auto. exact Logic.I.
  - change (step_result h NewFile (let (n, h1) := new_block h in new_child h1 ((fun n => BFile n None) n))).
    apply result_new; auto; try discriminate. intros n. exact Logic.I.
  - destruct (has h i) eqn:Hi; cbn [andb]; [|apply result_same, I]. apply has_in in Hi.
    destruct src as [j|].
    + destruct (has h j && is_source h j) eqn:Hj; [|apply result_same, I]. apply andb_true_iff in Hj as [Hj Hs]. apply has_in in Hj.
      apply open_result; auto. intros k E. injection E as <-. auto.
    + apply open_result; auto. discriminate.
  - destruct (has h i) eqn:Hi; [|apply result_same, I]. apply has_in in Hi. now apply close_result.
  - destruct (has h i) eqn:Hi; [|apply result_same, I]. apply has_in in Hi. now apply method_result.
  - destruct (has h i) eqn:Hi; [|apply result_same, I]. apply has_in in Hi. destruct (i_ext _ _ _ I i Hi) as (o & Ho).
    destruct (incref_inv h (held h) None i o I Ho) as (h1 & -> & I1 & Hh & _ & _ & _ & Hb). cbn [rbind step_result].
    split; [|intros _ Hf; apply (fresh_back h h1 _ _ I1) in Hf; [exact Hf|]; intros j o' H; destruct (Hb j o' H) as (q & Hq & Eq); eauto].
    unfold good. cbn [set_held held]. rewrite Hh. apply (inv_set_held h1 _ _ None _ I1). reflexivity.
  - destruct (has h i) eqn:Hi; [|apply result_same, I]. apply has_in in Hi.
    set (h1 := set_held h (without (held h) i)).
    assert (I1 : inv h1 (i :: without (held h) i) None) by (apply (inv_set_held h (held h) _ None _ I); intros j; apply count_without; exact Hi).
    destruct (decref_result h1 (Forget i) i _ I1 eq_refl) as (h' & -> & G & F & _). cbn. split; [exact G|]. intros _ Hf. apply F. exact Hf.
Qed.

Lemma good_empty : good empty_heap.
Proof.
  constructor; unfold obj_at, in_memory; cbn; intros; try discriminate; try contradiction;
    repeat match goal with H : nth_error [] ?i = _ |- _ => destruct i; discriminate end.
Qed.

Lemma fresh_empty : fresh empty_heap.
Proof. intros i o n t p H. destruct i; discriminate. Qed.

Lemma heap_run_good : forall l h, good h ->
  match heap_run h l with
  | Ok h' => good h' /\ ((forall i, ~ In (Close i) l) -> fresh h -> fresh h')
  | Undef => ~ fresh h \/ exists i, In (Close i) l
  | _ => False
  end.
Proof.
  induction l as [|s l IH]; intros h I; cbn [heap_run]; [auto|].
  pose proof (heap_step_result h s I) as Hs. destruct (heap_step h s) as [h1| | |]; cbn [rbind step_result] in *; auto.
  - destruct Hs as [G F]. specialize (IH h1 G). destruct (heap_run h1 l) as [h'| | |]; auto.
    + destruct IH as [G' F']. split; [exact G'|]. intros Hn Hf. apply F'; [intros i Hi; apply (Hn i); now right|].
      apply F; [|exact Hf]. intros i E. apply (Hn i). subst. now left.
    + destruct IH as [Hf|(i & Hi)]; [|right; exists i; now right].
      destruct s as [| |a b c|a|a b c|a|a]; try (left; intros Hfr; apply Hf, F; [discriminate|exact Hfr]).
      right. exists a. now left.
  - left. apply Hs.
Qed.

(** ** The theorems *)
Lemma run_safe l h s : heap_run empty_heap l = Ok h ->
  match heap_step h s with
  | Ok _ => True
  | Undef => (exists i w ok, s = Method i w ok /\ closed_item h i) /\ exists f, In (Close f) l
  | _ => False
  end.
Proof.
  intros E. pose proof (heap_run_good l empty_heap good_empty) as H. rewrite E in H. destruct H as [G F].
  pose proof (heap_step_result h s G) as Hs. destruct (heap_step h s) as [h'| | |]; cbn in Hs; auto.
  destruct Hs as [Hi Hf]. split; [exact Hi|].
  destruct (existsb (fun x => match x with Close _ => true | _ => false end) l) eqn:Ex.
  - apply existsb_exists in Ex as (x & Hx & Ec). destruct x; try discriminate. eauto.
  - exfalso. apply Hf, F; [|apply fresh_empty]. intros i Hi'. assert (existsb (fun x => match x with Close _ => true | _ => false end) l = true); [|congruence].
    apply existsb_exists. exists (Close i). auto.
Qed.

Lemma live_reached h : good h -> forall k i o, 5 - rank (o_body o) <= k -> obj_at h i o -> exists j, In j (held h) /\ ancestor h j i.
Proof.
  intros I. induction k as [|k IH]; intros i o Hk Hi.
  all: destruct (i_refs _ _ _ I i o Hi) as [Hr Hp];
    destruct (count (held h) i) as [|c] eqn:Ec;
    [|exists i; split; [apply (count_occ_In Nat.eq_dec); lia|constructor]].
  all: destruct (holders_some (objects h) i ltac:(lia)) as (j & q & Hj & Ep);
    destruct (typed_parent h j q i I Hj Ep) as (o' & Ho' & Hc);
    rewrite (obj_fun _ _ _ _ Ho' Hi) in Hc; apply child_rank in Hc; pose proof (rank_max (o_body q)).
  - lia.
  - destruct (IH j q ltac:(lia) Hj) as (a & Ha & Hanc). exists a. split; [exact Ha|].
    clear -Hanc Hj Ep. induction Hanc as [j|b ob p j Hb Eb Hanc' IHa].
    + apply (anc_parent h j q i i Hj Ep). constructor.
    + apply (anc_parent h b ob p i Hb Eb). auto.
Qed.

Lemma run_no_leak l h : heap_run empty_heap l = Ok h ->
  (forall i, alive h i -> exists j, In j (held h) /\ ancestor h j i) /\
  (forall n, in_memory h n -> exists i o, nth_error (objects h) i = Some (Some o) /\ In n (owned (o_body o))).
Proof.
  intros E. pose proof (heap_run_good l empty_heap good_empty) as H. rewrite E in H. destruct H as [G _]. split.
  - intros i (o & Hi). apply (live_reached h G 5 i o); [lia|exact Hi].
  - intros n Hn. destruct (i_owner _ _ _ G n Hn) as [Hf|H]; [discriminate|exact H].
Qed.

Lemma run_held l h : heap_run empty_heap l = Ok h -> forall j i, In j (held h) -> ancestor h j i -> alive h i.
Proof.
  intros E. pose proof (heap_run_good l empty_heap good_empty) as H. rewrite E in H. destruct H as [G _].
  intros j i Hj Ha. apply (i_ext _ _ _ G) in Hj. induction Ha as [k|k o p i Hk Ep Ha IH]; [exact Hj|].
  apply IH. destruct (typed_parent h k o p G Hk Ep) as (q & Hq & _). exists q. exact Hq.
Qed.

Lemma run_released l h : heap_run empty_heap l = Ok h -> held h = [] ->
  (forall i, ~ alive h i) /\ (forall n, ~ in_memory h n).
Proof.
  intros E Hh. destruct (run_no_leak l h E) as [H1 H2].
  assert (H : forall i, ~ alive h i) by (intros i Hi; destruct (H1 i Hi) as (j & Hj & _); rewrite Hh in Hj; destruct Hj).
  split; [exact H|]. intros n Hn. destruct (H2 n Hn) as (i & o & Hi & _). apply (H i). exists o. exact Hi.
Qed.
