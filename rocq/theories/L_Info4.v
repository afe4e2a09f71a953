(** Lemmas on what olecfinfo prints: what the listing tells. *)
From Coq Require Import String ZArith List Bool Lia Arith.
From Verif Require Import Base M_Tree M_Item M_Load M_Prop M_PyProp M_Info Spec_Tree Spec_Prop Spec_PyProp Spec_Info
  L_Base L_Info2 L_Info3.
Import ListNotations.
Open Scope Z_scope.

(** * Splitting *)
Lemma first_split (x : Z) : forall a b r s, ~ In x a -> ~ In x b -> a ++ x :: r = b ++ x :: s -> a = b /\ r = s.
Proof.
  induction a as [|c a IH]; intros [|c' b] r s Ha Hb H; cbn [app] in H.
  - injection H as H. auto.
  - injection H as H1 H2. exfalso. apply Hb. now left.
  - injection H as H1 H2. exfalso. apply Ha. now left.
  - injection H as <- H. destruct (IH b r s) as [-> ->]; auto; intros Hin; [apply Ha|apply Hb]; now right.
Qed.

Lemma last_split (x : Z) a b r s : ~ In x r -> ~ In x s -> a ++ x :: r = b ++ x :: s -> a = b /\ r = s.
Proof.
  intros Hr Hs H. apply (f_equal (@rev Z)) in H. rewrite !rev_app_distr in H. cbn [rev] in H.
  rewrite <- !app_assoc in H. cbn [app] in H.
  apply first_split in H as [H1 H2]; [|rewrite <- in_rev; assumption..].
  split; [rewrite <- (rev_involutive a), <- (rev_involutive b)|rewrite <- (rev_involutive r), <- (rev_involutive s)];
    now f_equal.
Qed.

Lemma spaces_split : forall n m a b, (forall r, a <> 32 :: r) -> (forall r, b <> 32 :: r) ->
  repeat 32 n ++ a = repeat 32 m ++ b -> n = m /\ a = b.
Proof.
  induction n as [|n IH]; intros [|m] a b Ha Hb H; cbn [repeat app] in H.
  - auto.
  - exfalso. eapply Ha; eauto.
  - exfalso. eapply Hb; eauto.
  - injection H as H. destruct (IH m a b Ha Hb H) as [-> ->]. auto.
Qed.

(** * Names *)
Lemma hex_digit_inj x y : 0 <= x < 16 -> 0 <= y < 16 -> Spec_PyProp.hex_digit x = Spec_PyProp.hex_digit y -> x = y.
Proof.
  unfold Spec_PyProp.hex_digit. destruct (Z.ltb_spec x 10), (Z.ltb_spec y 10); lia.
Qed.

Lemma hex_byte_inj x y : is_byte x -> is_byte y -> hex_byte x = hex_byte y -> x = y.
Proof.
  unfold is_byte, hex_byte. intros Hx Hy H. injection H as H1 H2.
  apply hex_digit_inj in H1; [|split; [apply Z.div_pos; lia|apply Z.div_lt_upper_bound; lia]..].
  apply hex_digit_inj in H2; [|apply Z.mod_pos_bound; lia..].
  rewrite (Z.div_mod x 16), (Z.div_mod y 16) by lia. congruence.
Qed.

Lemma shown_name_inj signed : forall a b,
  Forall (fun c => is_byte c /\ c <> 92) a -> Forall (fun c => is_byte c /\ c <> 92) b ->
  shown_name signed a = shown_name signed b -> a = b.
Proof.
  induction a as [|x a IH]; intros [|y b] Ha Hb H; unfold shown_name in H; cbn [map concat] in H.
  - reflexivity.
  - exfalso. unfold shown_char in H. destruct (_ || _); discriminate.
  - exfalso. unfold shown_char in H. destruct (_ || _); discriminate.
  - inversion Ha as [|? ? [Hx Hx'] Ha']; subst. inversion Hb as [|? ? [Hy Hy'] Hb']; subst.
    fold (shown_name signed a) (shown_name signed b) in H.
    unfold shown_char in H.
    destruct ((x <? 32) || (x =? 127) || signed && (127 <? x)),
             ((y <? 32) || (y =? 127) || signed && (127 <? y)); cbn [app] in H.
    + injection H as H1 H2 H3.
      assert (x = y) by (apply hex_byte_inj; auto; unfold hex_byte; congruence). subst y.
      f_equal. apply IH; auto.
    + injection H as H1 H2. congruence.
    + injection H as H1 H2. congruence.
    + injection H as -> H2. f_equal. apply IH; auto.
Qed.

Lemma shown_name_space signed a : (forall r, a <> 32 :: r) -> forall r, shown_name signed a <> 32 :: r.
Proof.
  intros Ha r H. destruct a as [|c a]; [discriminate|]. unfold shown_name in H. cbn [map concat] in H.
  unfold shown_char in H. destruct (_ || _); [discriminate|]. injection H as -> H. now apply (Ha a).
Qed.

(** All characters of a line but the last. *)
Lemma hex_byte_printable signed c : is_byte c -> Forall (printable signed) (hex_byte c).
Proof.
  unfold is_byte, hex_byte. intros H.
  assert (0 <= c / 16 < 16) by (split; [apply Z.div_pos; lia|apply Z.div_lt_upper_bound; lia]).
  assert (0 <= c mod 16 < 16) by (apply Z.mod_pos_bound; lia).
  repeat constructor; unfold Spec_PyProp.hex_digit; destruct (_ <? 10) eqn:E; lia.
Qed.

Lemma shown_name_printable signed a : Forall is_byte a -> Forall (printable signed) (shown_name signed a).
Proof.
  induction 1 as [|c a Hc _ IH]; [constructor|]. unfold shown_name. cbn [map concat].
  apply Forall_app. split; [|exact IH]. unfold shown_char.
  destruct ((c <? 32) || (c =? 127) || signed && (127 <? c)) eqn:E.
  - constructor; [left; lia|]. constructor; [left; lia|]. now apply hex_byte_printable.
  - constructor; [|constructor]. unfold is_byte in Hc. unfold printable. destruct signed; cbn [andb] in E; lia.
Qed.

Lemma integer_chars z : - 10 ^ 20 < z < 10 ^ 20 -> Forall (fun c => c = 45 \/ 48 <= c <= 57) (integer z).
Proof.
  intros Hz. unfold integer. destruct (Z.ltb_spec z 0).
  - destruct (digits_read 20 (- z)) as (_ & H2 & _); [change (Z.of_nat 20) with 20; lia|lia|].
    constructor; [auto|]. eapply Forall_impl; [|exact H2]. auto.
  - destruct (digits_read 20 z) as (_ & H2 & _); [change (Z.of_nat 20) with 20; lia|lia|].
    eapply Forall_impl; [|exact H2]. auto.
Qed.

Definition item_body (signed : bool) (level : nat) (name : list Z) (size : Z) : list Z :=
  repeat 32 (2 * level) ++ shown_name signed name ++ [32] ++ 40 :: (integer size ++ text_of " bytes)").

Lemma item_line_body signed level name size : item_line signed level name size = item_body signed level name size ++ [10].
Proof. unfold item_line, item_body. change (text_of " (") with [32; 40]. flat. reflexivity. Qed.

Lemma body_printable signed level name size : Forall is_byte name -> - 10 ^ 20 < size < 10 ^ 20 ->
  Forall (printable signed) (item_body signed level name size).
Proof.
  intros HB Hs. unfold item_body. apply Forall_app. split.
  { apply Forall_forall. intros c Hc. apply repeat_spec in Hc. subst c. left. lia. }
  apply Forall_app. split; [now apply shown_name_printable|]. cbn [app].
  constructor; [left; lia|]. constructor; [left; lia|]. apply Forall_app. split.
  - eapply Forall_impl; [|apply integer_chars; exact Hs]. intros c [->|H]; left; lia.
  - change (text_of " bytes)") with [32; 98; 121; 116; 101; 115; 41].
    repeat (constructor; [left; lia|]). constructor.
Qed.

Lemma no_newline signed l : Forall (printable signed) l -> ~ In 10 l.
Proof. rewrite Forall_forall. intros H Hin. destruct (H _ Hin) as [|[]]; lia. Qed.

Lemma body_inj signed l n s l' n' s' : clear_name n -> clear_name n' ->
  0 <= s < 4294967296 -> 0 <= s' < 4294967296 ->
  item_body signed l n s = item_body signed l' n' s' -> l = l' /\ n = n' /\ s = s'.
Proof.
  intros [Hn Hn1] [Hn' Hn1'] Hs Hs' H. unfold item_body in H. rewrite !app_assoc in H.
  assert (H40 : forall z, 0 <= z < 4294967296 -> ~ In 40 (integer z ++ text_of " bytes)")).
  { intros z Hz. rewrite in_app_iff. intros [Hin|Hin].
    - pose proof (integer_chars z ltac:(lia)) as HF. rewrite Forall_forall in HF. destruct (HF _ Hin); lia.
    - cbn in Hin. intuition lia. }
  apply last_split in H as [H1 H2]; [|now apply H40..].
  apply app_inv_tail in H2. apply app_inj_tail in H1 as [H1 _].
  apply spaces_split in H1 as [H1 H3]; [|apply shown_name_space; assumption..].
  split; [lia|]. split; [eapply shown_name_inj; eauto|].
  apply (reads_fun (integer s)); [apply integer_reads; lia|]. rewrite H2. apply integer_reads. lia.
Qed.

(** * Trees *)
Fixpoint flatten (level : nat) (x : picture) : list (nat * list Z * Z) :=
  match x with
  | Picture name size below => (level, name, size) :: concat (map (flatten (S level)) below)
  end.

Definition line_text (signed : bool) (x : nat * list Z * Z) : list Z :=
  item_line signed (fst (fst x)) (snd (fst x)) (snd x).

Section PictureInd.
  Variable P : picture -> Prop.
  Hypothesis step : forall name size below, Forall P below -> P (Picture name size below).
  Fixpoint picture_induction (x : picture) : P x :=
    match x with
    | Picture name size below =>
        step name size below
          ((fix go (l : list picture) : Forall P l :=
              match l with
              | [] => Forall_nil P
              | y :: r => Forall_cons y (picture_induction y) (go r)
              end) below)
    end.
End PictureInd.

Lemma concat_map_app {A B} (f : A -> list B) a b : concat (map f (a ++ b)) = concat (map f a) ++ concat (map f b).
Proof. rewrite map_app, concat_app. reflexivity. Qed.

Lemma picture_lines signed : forall x level,
  picture_text signed level x = concat (map (line_text signed) (flatten level x)).
Proof.
  induction x as [name size below IH] using picture_induction. intros level.
  cbn [picture_text flatten map concat]. f_equal.
  induction IH as [|y r Hy _ IHr]; [reflexivity|]. cbn [map concat]. rewrite concat_map_app, <- Hy, <- IHr. reflexivity.
Qed.

Definition line_clear (x : nat * list Z * Z) : Prop := clear_name (snd (fst x)) /\ 0 <= snd x < 4294967296.

Lemma clear_lines : forall x level, clear x -> Forall line_clear (flatten level x).
Proof.
  induction x as [name size below IH] using picture_induction. intros level (H1 & H2 & H3).
  cbn [flatten]. constructor; [split; assumption|].
  induction IH as [|y r Hy _ IHr]; [constructor|]. cbn [map fold_right] in H3. destruct H3 as [H3 H4].
  cbn [map concat]. apply Forall_app. split; auto.
Qed.

Lemma lines_inj signed : forall a b, Forall line_clear a -> Forall line_clear b ->
  concat (map (line_text signed) a) = concat (map (line_text signed) b) -> a = b.
Proof.
  induction a as [|[[l n] s] a IH]; intros [|[[l' n'] s'] b] Ha Hb H; cbn [map concat] in H.
  - reflexivity.
  - exfalso. unfold line_text in H. rewrite item_line_body in H.
    apply (f_equal (@length Z)) in H. rewrite !app_length in H. cbn in H. lia.
  - exfalso. unfold line_text in H. rewrite item_line_body in H.
    apply (f_equal (@length Z)) in H. rewrite !app_length in H. cbn in H. lia.
  - inversion Ha as [|? ? [H1 H2] Ha']; subst. inversion Hb as [|? ? [H3 H4] Hb']; subst.
    cbn [fst snd] in *. unfold line_text in H at 1 3. cbn [fst snd] in H. rewrite !item_line_body, <- !app_assoc in H.
    cbn [app] in H.
    assert (HB : forall m, clear_name m -> Forall is_byte m).
    { intros m [Hm _]. eapply Forall_impl; [|exact Hm]. cbn. tauto. }
    apply first_split in H as [H5 H6].
    + apply body_inj in H5 as (-> & -> & ->); auto. f_equal. apply IH; auto.
    + apply (no_newline signed). apply body_printable; [auto|lia].
    + apply (no_newline signed). apply body_printable; [auto|lia].
Qed.

(** The lines below an item are the next ones that are deeper. *)
Definition ends (level : nat) (l : list (nat * list Z * Z)) : Prop :=
  match l with [] => True | x :: _ => (fst (fst x) <= level)%nat end.

Lemma flatten_head level x : exists n s r, flatten level x = (level, n, s) :: r.
Proof. destruct x. cbn. eauto. Qed.

Lemma flatten_inj : forall x y level r s, ends level r -> ends level s ->
  flatten level x ++ r = flatten level y ++ s -> x = y /\ r = s.
Proof.
  induction x as [name size below IH] using picture_induction. intros [name' size' below'] level r s Hr Hs H.
  cbn [flatten app] in H. injection H as <- <- H.
  assert (G : forall b b' , Forall (fun x => forall y level r s, ends level r -> ends level s ->
      flatten level x ++ r = flatten level y ++ s -> x = y /\ r = s) b ->
    concat (map (flatten (S level)) b) ++ r = concat (map (flatten (S level)) b') ++ s -> b = b' /\ r = s).
  { assert (E : forall b q, ends level q -> ends (S level) (concat (map (flatten (S level)) b) ++ q)).
    { intros b q Hq. destruct b as [|y b].
      - cbn. destruct q as [|z q]; cbn in *; [trivial|lia].
      - cbn [map concat]. destruct (flatten_head (S level) y) as (n & m & q' & ->). cbn. lia. }
    assert (No : forall y b q q', ends level q -> q = concat (map (flatten (S level)) (y :: b)) ++ q' -> False).
    { intros y b q q' Hq Eq. cbn [map concat] in Eq. destruct (flatten_head (S level) y) as (n & m & q'' & Ey).
      rewrite Ey in Eq. subst q. cbn in Hq. lia. }
    induction b as [|x b IHb]; intros [|y b'] HF Heq.
    - auto.
    - exfalso. eapply (No y b' r s Hr). exact Heq.
    - exfalso. eapply (No x b s r Hs). symmetry. exact Heq.
    - inversion HF as [|? ? Hx HF']; subst. cbn [map concat] in Heq. rewrite <- !app_assoc in Heq.
      destruct (Hx y (S level) _ _ (E b r Hr) (E b' s Hs) Heq) as [-> Heq'].
      destruct (IHb b' HF' Heq') as [-> ->]. auto. }
  destruct (G below below' IH H) as [-> ->]. auto.
Qed.

Theorem picture_tells signed x y : clear x -> clear y ->
  picture_text signed 0 x = picture_text signed 0 y -> x = y.
Proof.
  intros Hx Hy H. rewrite !picture_lines in H.
  apply lines_inj in H; [|now apply clear_lines..].
  destruct (flatten_inj x y 0%nat [] []) as [-> _]; cbn; auto. now rewrite !app_nil_r.
Qed.

(** The listing is that of the picture. *)
Lemma pictured_text signed names e t : forall k x, pictured names e t k x -> forall level L,
  listed t level k L ->
  printed (map (item_piece signed names e t) L) = (picture_text signed level x, true).
Proof.
  intros k x H.
  induction H as [k n name l Hn Hname Hl IH| |k ks x xs H1 IH1 H2 IH2]
    using pictured_mut with (P0 := fun ks xs _ => forall level L, listed_all t level ks L ->
      printed (map (item_piece signed names e t) L) = (concat (map (picture_text signed level) xs), true)).
  - intros level L HL. inversion HL as [? ? n' l' Hn' Hl']; subst. assert (n' = n) by congruence. subst n'.
    cbn [map printed]. unfold item_piece at 1. cbn [snd fst]. rewrite Hn, Hname. cbn [option_map].
    rewrite (IH _ _ Hl'). reflexivity.
  - intros level L HL. inversion HL; subst. reflexivity.
  - intros level L HL. inversion HL; subst. rewrite map_app, printed_app.
    rewrite (IH1 _ _ ltac:(eassumption)), (IH2 _ _ ltac:(eassumption)). reflexivity.
Qed.
