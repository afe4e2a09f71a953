(** Lemmas on the common ground of the model. *)
From Coq Require Import ZArith List Bool Lia ZifyBool ZifyNat.
From Verif Require Import Base Spec_IO.
Import ListNotations.
Open Scope Z_scope.
#[local] Ltac Zify.zify_post_hook ::= Z.div_mod_to_equations.

Lemma Ok_inj {A} (a b : A) : Ok a = Ok b -> a = b.
Proof. congruence. Qed.

(** * Lists *)
Lemma zlen_nonneg {A} (l : list A) : 0 <= zlen l.
Proof. unfold zlen. lia. Qed.

Lemma zlen_nil {A} : zlen (@nil A) = 0.
Proof. reflexivity. Qed.

Lemma zlen_cons {A} (a : A) l : zlen (a :: l) = 1 + zlen l.
Proof. unfold zlen. cbn [length]. lia. Qed.

Lemma zlen_app {A} (a b : list A) : zlen (a ++ b) = zlen a + zlen b.
Proof. unfold zlen. rewrite app_length. lia. Qed.

Lemma zlen_zeros n : 0 <= n -> zlen (zeros n) = n.
Proof. unfold zlen, zeros. rewrite repeat_length. lia. Qed.

Lemma set_nth_length {A} (l : list A) i v : length (set_nth l i v) = length l.
Proof. revert i; induction l; destruct i; simpl; congruence. Qed.

Lemma zlen_set_nth {A} (l : list A) i v : zlen (set_nth l i v) = zlen l.
Proof. unfold zlen. now rewrite set_nth_length. Qed.

Lemma nth_error_set_nth_eq {A} (l : list A) i v :
  (i < length l)%nat -> nth_error (set_nth l i v) i = Some v.
Proof.
  revert i; induction l; destruct i; simpl; intros; try lia; auto.
  apply IHl; lia.
Qed.

Lemma nth_error_set_nth_neq {A} (l : list A) i j v :
  i <> j -> nth_error (set_nth l i v) j = nth_error l j.
Proof.
  revert i j; induction l; destruct i, j; simpl; intros; try congruence; auto.
Qed.

Lemma znth_range {A} (l : list A) i x : znth l i = Some x -> 0 <= i < zlen l.
Proof.
  unfold znth, zlen. destruct (i <? 0) eqn:E; intros H; [discriminate|].
  assert (Z.to_nat i < length l)%nat by (apply nth_error_Some; congruence). lia.
Qed.

Lemma znth_some {A} (l : list A) i : 0 <= i < zlen l -> exists x, znth l i = Some x.
Proof.
  unfold znth, zlen. intros. destruct (i <? 0) eqn:E; [lia|].
  destruct (nth_error l (Z.to_nat i)) eqn:E2; eauto.
  apply nth_error_None in E2. lia.
Qed.

Lemma znth_none {A} (l : list A) i : ~ (0 <= i < zlen l) -> znth l i = None.
Proof.
  intros. destruct (znth l i) eqn:E; auto. apply znth_range in E. lia.
Qed.

Lemma znth_In {A} (l : list A) i x : znth l i = Some x -> In x l.
Proof.
  unfold znth. destruct (i <? 0); [discriminate|]. apply nth_error_In.
Qed.

Lemma In_znth {A} (l : list A) x : In x l -> exists i, znth l i = Some x.
Proof.
  intros H. apply In_nth_error in H. destruct H as [n H].
  exists (Z.of_nat n). unfold znth.
  destruct (Z.of_nat n <? 0) eqn:E; [lia|]. now rewrite Nat2Z.id.
Qed.

Lemma znth_app_l {A} (a b : list A) i : i < zlen a -> znth (a ++ b) i = znth a i.
Proof.
  unfold znth, zlen. intros. destruct (i <? 0) eqn:E; auto.
  apply nth_error_app1. lia.
Qed.

Lemma znth_app_r {A} (a b : list A) i :
  zlen a <= i -> znth (a ++ b) i = znth b (i - zlen a).
Proof.
  unfold znth, zlen. intros.
  destruct (i <? 0) eqn:E, (i - Z.of_nat (length a) <? 0) eqn:E2; try lia.
  rewrite nth_error_app2 by lia. f_equal. lia.
Qed.

Lemma znth_set_nth_eq {A} (l : list A) i v :
  0 <= i < zlen l -> znth (set_nth l (Z.to_nat i) v) i = Some v.
Proof.
  unfold znth, zlen. intros. destruct (i <? 0) eqn:E; [lia|].
  apply nth_error_set_nth_eq. lia.
Qed.

Lemma znth_set_nth_neq {A} (l : list A) i j v :
  0 <= i -> i <> j -> znth (set_nth l (Z.to_nat i) v) j = znth l j.
Proof.
  unfold znth. intros. destruct (j <? 0) eqn:E; [auto|].
  apply nth_error_set_nth_neq. lia.
Qed.

Lemma nth_error_repeat {A} (x : A) n i :
  (i < n)%nat -> nth_error (repeat x n) i = Some x.
Proof. revert i; induction n; destruct i; simpl; intros; try lia; auto. apply IHn; lia. Qed.

Lemma znth_zeros n i : 0 <= i < n -> znth (zeros n) i = Some 0.
Proof.
  intros. unfold znth, zeros. destruct (i <? 0) eqn:E; [lia|].
  apply nth_error_repeat. lia.
Qed.

Lemma znth_ext {A} (a b : list A) :
  zlen a = zlen b -> (forall i, 0 <= i < zlen a -> znth a i = znth b i) -> a = b.
Proof.
  revert b. induction a as [|x a IH]; intros [|y b] HL HI; auto.
  - rewrite zlen_nil, zlen_cons in HL. pose proof (zlen_nonneg b). lia.
  - rewrite zlen_nil, zlen_cons in HL. pose proof (zlen_nonneg a). lia.
  - rewrite !zlen_cons in HL.
    assert (H0 := HI 0). rewrite zlen_cons in H0. pose proof (zlen_nonneg a).
    assert (Some x = Some y) by (apply H0; lia).
    f_equal; [congruence|]. apply IH; [lia|]. intros i Hi.
    specialize (HI (i + 1)). rewrite zlen_cons in HI.
    unfold znth in *. destruct (i <? 0) eqn:E1; [lia|].
    destruct (i + 1 <? 0) eqn:E2; [lia|].
    replace (Z.to_nat (i + 1)) with (S (Z.to_nat i)) in HI by lia.
    apply HI. lia.
Qed.

(** * Slices *)
Lemma nth_error_firstn {A} (l : list A) n i :
  (i < n)%nat -> nth_error (firstn n l) i = nth_error l i.
Proof.
  revert n i; induction l; destruct n, i; simpl; intros; try lia; auto.
  apply IHl; lia.
Qed.

Lemma nth_error_skipn {A} (l : list A) n i :
  nth_error (skipn n l) i = nth_error l (n + i).
Proof.
  revert i n; induction l; destruct n; simpl; intros; auto.
  destruct i; reflexivity.
Qed.

Lemma znth_slice {A} (l : list A) off n i :
  0 <= off -> 0 <= i < n -> znth (slice l off n) i = znth l (off + i).
Proof.
  intros. unfold znth, slice.
  destruct (i <? 0) eqn:E1; [lia|]. destruct (off + i <? 0) eqn:E2; [lia|].
  rewrite nth_error_firstn by lia. rewrite nth_error_skipn. f_equal. lia.
Qed.

Lemma zlen_slice {A} (l : list A) off n :
  0 <= off -> 0 <= n -> off + n <= zlen l -> zlen (slice l off n) = n.
Proof.
  unfold zlen, slice. intros. rewrite firstn_length, skipn_length. lia.
Qed.

Lemma zlen_slice_le {A} (l : list A) off n : zlen (slice l off n) <= Z.max 0 n.
Proof.
  unfold zlen, slice. rewrite firstn_length. lia.
Qed.

Lemma slice_app_adjacent {A} (l : list A) a n m :
  0 <= a -> 0 <= n -> 0 <= m -> a + n + m <= zlen l ->
  slice l a n ++ slice l (a + n) m = slice l a (n + m).
Proof.
  intros. apply znth_ext.
  - rewrite zlen_app, !zlen_slice by lia. lia.
  - rewrite zlen_app, !zlen_slice by lia. intros i Hi.
    destruct (Z_lt_ge_dec i n).
    + rewrite znth_app_l by (rewrite zlen_slice; lia).
      rewrite !znth_slice by lia. reflexivity.
    + rewrite znth_app_r by (rewrite zlen_slice; lia).
      rewrite zlen_slice by lia. rewrite !znth_slice by lia. f_equal. lia.
Qed.

Lemma Forall_slice {A} (P : A -> Prop) l off n : Forall P l -> Forall P (slice l off n).
Proof.
  intros H. apply Forall_forall. intros x Hx. unfold slice in Hx.
  rewrite Forall_forall in H. apply H.
  assert (In x (skipn (Z.to_nat off) l)).
  { rewrite <- (firstn_skipn (Z.to_nat n)). apply in_or_app. now left. }
  rewrite <- (firstn_skipn (Z.to_nat off)). apply in_or_app. now right.
Qed.

Lemma Forall_znth {A} (P : A -> Prop) l i x : Forall P l -> znth l i = Some x -> P x.
Proof. intros H1 H2. rewrite Forall_forall in H1. eapply H1, znth_In, H2. Qed.

Lemma Forall_set_nth {A} (P : A -> Prop) l i v :
  Forall P l -> P v -> Forall P (set_nth l i v).
Proof.
  intros H Hv. revert i. induction H; destruct i; simpl; constructor; auto.
Qed.

Lemma Forall_zeros (P : Z -> Prop) n : P 0 -> Forall P (zeros n).
Proof. intros. apply Forall_forall. intros x Hx. apply repeat_spec in Hx. now subst. Qed.

(** * Arrays *)
Lemma arr_get_ok {A} (l : list A) i x : arr_get l i = Ok x <-> znth l i = Some x.
Proof. unfold arr_get. destruct (znth l i); split; congruence. Qed.

Lemma arr_get_in {A} (l : list A) i : 0 <= i < zlen l -> exists x, arr_get l i = Ok x.
Proof. intros H. destruct (znth_some l i H) as [x Hx]. exists x. now apply arr_get_ok. Qed.

Lemma arr_set_in {A} (l : list A) i v :
  0 <= i < zlen l -> arr_set l i v = Ok (set_nth l (Z.to_nat i) v).
Proof. unfold arr_set. intros. now replace ((0 <=? i) && (i <? zlen l)) with true by lia. Qed.

Lemma arr_set_ok {A} (l : list A) i v l' :
  arr_set l i v = Ok l' -> 0 <= i < zlen l /\ l' = set_nth l (Z.to_nat i) v.
Proof.
  unfold arr_set. destruct ((0 <=? i) && (i <? zlen l)) eqn:E; [|discriminate].
  intros [= <-]. split; [lia|auto].
Qed.

(** * The outcome and I/O monads *)
Lemma rbind_ok {A B} (m : res A) (k : A -> res B) b :
  rbind m k = Ok b -> exists a, m = Ok a /\ k a = Ok b.
Proof. destruct m; simpl; intros; try discriminate. eauto. Qed.

Lemma ibind_ok {A B} (m : io A) (k : A -> io B) t b t' :
  ibind m k t = (Ok b, t') -> exists a t1, m t = (Ok a, t1) /\ k a t1 = (Ok b, t').
Proof.
  unfold ibind. destruct (m t) as [[]]; intros H; try discriminate H. eauto.
Qed.

Lemma ibind_step {A B} (m : io A) (k : A -> io B) t a t1 :
  m t = (Ok a, t1) -> ibind m k t = k a t1.
Proof. unfold ibind. now intros ->. Qed.

Lemma rbind_step {A B} (m : res A) (k : A -> res B) a :
  m = Ok a -> rbind m k = k a.
Proof. now intros ->. Qed.

Lemma ilift_ok {A} (r : res A) t a t' : ilift r t = (Ok a, t') -> r = Ok a /\ t' = t.
Proof. unfold ilift. intros [= -> ->]. auto. Qed.

Lemma ilift_step {A B} (r : res A) (k : A -> io B) t a :
  r = Ok a -> ibind (ilift r) k t = k a t.
Proof. now intros ->. Qed.

Lemma iret_ok {A} (x : A) t a t' : iret x t = (Ok a, t') -> x = a /\ t' = t.
Proof. unfold iret. intros [= -> ->]. auto. Qed.

Lemma read_at_some rd off n t l t' :
  read_at rd off n t = (Ok (Some l), t') ->
  rd t off n = Some l /\ zlen l = n /\ t' = t ++ [(off, n)].
Proof.
  unfold read_at. destruct (rd t off n) as [x|]; [|intros [= ]].
  destruct (zlen x =? n) eqn:E; intros [= -> <-]. repeat split; auto. lia.
Qed.

Lemma read_at_cases rd off n t :
  (exists l, read_at rd off n t = (Ok (Some l), t ++ [(off, n)]) /\
             rd t off n = Some l /\ zlen l = n) \/
  (read_at rd off n t = (Ok None, t ++ [(off, n)]) /\
   forall l, rd t off n = Some l -> zlen l <> n).
Proof.
  unfold read_at. destruct (rd t off n) as [x|].
  - destruct (zlen x =? n) eqn:E.
    + left. exists x. repeat split; auto. lia.
    + right. split; auto. intros l [= <-]. lia.
  - right. split; auto. congruence.
Qed.

Lemma read_exact_ok rd off n t l t' :
  read_exact rd off n t = (Ok l, t') ->
  rd t off n = Some l /\ zlen l = n /\ t' = t ++ [(off, n)].
Proof.
  unfold read_exact. intros H. apply ibind_ok in H.
  destruct H as (r & t1 & H1 & H2). destruct r as [x|]; [|discriminate H2].
  unfold iret in H2. injection H2 as -> ->. now apply read_at_some.
Qed.

Lemma read_exact_cases rd off n t :
  (exists l, read_exact rd off n t = (Ok l, t ++ [(off, n)]) /\
             rd t off n = Some l /\ zlen l = n) \/
  (read_exact rd off n t = (Err, t ++ [(off, n)]) /\
   forall l, rd t off n = Some l -> zlen l <> n).
Proof.
  unfold read_exact.
  destruct (read_at_cases rd off n t) as [(l & H & H1 & H2)|[H H1]].
  - left. exists l. erewrite ibind_step by exact H. auto.
  - right. erewrite ibind_step by exact H. auto.
Qed.

(** * Integers *)
Lemma u32_id x : 0 <= x < TWO32 -> u32 x = x.
Proof. intros. unfold u32. apply Z.mod_small. lia. Qed.

Lemma u32_range x : 0 <= u32 x < TWO32.
Proof. unfold u32, TWO32. apply Z.mod_pos_bound. lia. Qed.

Lemma u64_id x : 0 <= x < 18446744073709551616 -> u64 x = x.
Proof. intros. unfold u64. apply Z.mod_small. lia. Qed.

Lemma s32_id x : -2147483648 <= x <= INT_MAX -> s32 x = x.
Proof.
  unfold s32, INT_MAX, TWO32. intros.
  destruct (x mod 4294967296 <=? 2147483647) eqn:E; lia.
Qed.

Lemma s32_range x : -2147483648 <= s32 x <= INT_MAX.
Proof.
  unfold s32, INT_MAX, TWO32. intros.
  destruct (x mod 4294967296 <=? 2147483647) eqn:E; lia.
Qed.

Lemma s32_nonneg x : 0 <= x < TWO32 -> 0 <= s32 x -> s32 x = x.
Proof.
  intros H. assert (E : x mod TWO32 = x) by (apply Z.mod_small; lia).
  unfold s32. cbv zeta. rewrite E. destruct (x <=? INT_MAX); lia.
Qed.

Lemma u32_s32 x : u32 (s32 x) = u32 x.
Proof.
  unfold u32, s32, INT_MAX, TWO32.
  destruct (x mod 4294967296 <=? 2147483647) eqn:E; lia.
Qed.

(** * Decoding *)
Lemma dec_u32_range e b0 b1 b2 b3 :
  is_byte b0 -> is_byte b1 -> is_byte b2 -> is_byte b3 ->
  0 <= dec_u32 e b0 b1 b2 b3 < TWO32.
Proof. unfold is_byte, dec_u32, TWO32. destruct e; lia. Qed.

Lemma dec_u16_range e b0 b1 :
  is_byte b0 -> is_byte b1 -> 0 <= dec_u16 e b0 b1 < 65536.
Proof. unfold is_byte, dec_u16. destruct e; lia. Qed.

Lemma get_u16_in e buf p :
  0 <= p -> p + 2 <= zlen buf -> exists v, get_u16 e buf p = Ok v.
Proof.
  intros. unfold get_u16.
  destruct (arr_get_in buf p) as [b0 ->]; [lia|].
  destruct (arr_get_in buf (p + 1)) as [b1 ->]; [lia|]. simpl. eauto.
Qed.

Lemma get_u32_in e buf p :
  0 <= p -> p + 4 <= zlen buf -> exists v, get_u32 e buf p = Ok v.
Proof.
  intros. unfold get_u32.
  destruct (arr_get_in buf p) as [b0 ->]; [lia|].
  destruct (arr_get_in buf (p + 1)) as [b1 ->]; [lia|].
  destruct (arr_get_in buf (p + 2)) as [b2 ->]; [lia|].
  destruct (arr_get_in buf (p + 3)) as [b3 ->]; [lia|]. simpl. eauto.
Qed.

Lemma get_u64_in e buf p :
  0 <= p -> p + 8 <= zlen buf -> exists v, get_u64 e buf p = Ok v.
Proof.
  intros. unfold get_u64.
  destruct (get_u32_in e buf p) as [b0 ->]; [lia|lia|].
  destruct (get_u32_in e buf (p + 4)) as [b1 ->]; [lia|lia|]. simpl. eauto.
Qed.

Lemma get_u32_range e buf p v :
  Forall is_byte buf -> get_u32 e buf p = Ok v -> 0 <= v < TWO32.
Proof.
  intros HF H. unfold get_u32 in H.
  apply rbind_ok in H as (b0 & H0 & H). apply rbind_ok in H as (b1 & H1 & H).
  apply rbind_ok in H as (b2 & H2 & H). apply rbind_ok in H as (b3 & H3 & H).
  injection H as <-. rewrite arr_get_ok in *.
  apply dec_u32_range; eapply Forall_znth; eauto.
Qed.

Lemma get_u16_range e buf p v :
  Forall is_byte buf -> get_u16 e buf p = Ok v -> 0 <= v < 65536.
Proof.
  intros HF H. unfold get_u16 in H.
  apply rbind_ok in H as (b0 & H0 & H). apply rbind_ok in H as (b1 & H1 & H).
  injection H as <-. rewrite arr_get_ok in *.
  apply dec_u16_range; eapply Forall_znth; eauto.
Qed.

Lemma get_u64_range e buf p v :
  Forall is_byte buf -> get_u64 e buf p = Ok v -> 0 <= v < 18446744073709551616.
Proof.
  intros HF H. unfold get_u64 in H.
  apply rbind_ok in H as (a & Ha & H). apply rbind_ok in H as (b & Hb & H).
  apply get_u32_range in Ha, Hb; auto. change TWO32 with 4294967296 in *.
  assert (v = match e with Little => a + 4294967296 * b
                         | Big => b + 4294967296 * a end) by congruence.
  destruct e; lia.
Qed.

(** * Readers *)
Lemma file_reader_sound f : io_sound (file_reader f) f.
Proof.
  intros t off n l H1 H2 H3 H4. unfold file_reader in H3.
  destruct (off <? 0) eqn:E; [lia|]. injection H3 as <-.
  split; auto. revert H4. unfold zlen, slice.
  rewrite firstn_length, skipn_length. lia.
Qed.

Lemma file_reader_total f : io_total (file_reader f) f.
Proof.
  intros t off n H1 H2 H3. unfold file_reader.
  destruct (off <? 0) eqn:E; [lia|]. eexists; split; eauto.
  apply zlen_slice; lia.
Qed.

Lemma file_reader_bytes f : Forall is_byte f -> io_bytes (file_reader f).
Proof.
  intros H t off n l. unfold file_reader. destruct (off <? 0); [discriminate|].
  intros [= <-]. now apply Forall_slice.
Qed.

Lemma failing_reader_sound f bad : io_sound (failing_reader f bad) f.
Proof.
  intros t off n l H1 H2 H3 H4. unfold failing_reader in H3.
  destruct (off <? 0) eqn:E; [lia|].
  destruct ((off <=? bad) && (bad <? off + n)); [discriminate|]. injection H3 as <-.
  split; auto. revert H4. unfold zlen, slice.
  rewrite firstn_length, skipn_length. lia.
Qed.

Lemma failing_reader_bytes f bad : Forall is_byte f -> io_bytes (failing_reader f bad).
Proof.
  intros H t off n l. unfold failing_reader. destruct (off <? 0); [discriminate|].
  destruct ((off <=? bad) && (bad <? off + n)); [discriminate|].
  intros [= <-]. now apply Forall_slice.
Qed.
