(** Lemmas on property sets. *)
From Coq Require Import ZArith List Bool Lia.
From Verif Require Import Base Spec_IO M_Table M_Load M_Stream Spec_Stream M_Prop
  Spec_Content Spec_Prop L_Base L_Stream L_Stream2 L_Stream3.
Import ListNotations.
Open Scope Z_scope.

(** * Bytes and numbers *)
Lemma slice_slice {A} (l : list A) a n p m :
  0 <= a -> 0 <= p -> 0 <= m -> p + m <= n ->
  slice (slice l a n) p m = slice l (a + p) m.
Proof.
  intros Ha Hp Hm Hle. unfold slice.
  rewrite skipn_firstn_comm, firstn_firstn.
  rewrite Nat.min_l by lia. f_equal.
  replace (Z.to_nat (a + p)) with (Z.to_nat a + Z.to_nat p)%nat by lia.
  generalize (Z.to_nat a) as x, (Z.to_nat p) as y. clear. intros x y. revert l.
  induction x as [|x IH]; intros l; [reflexivity|].
  destruct l as [|b l]; [destruct y; reflexivity|]. apply IH.
Qed.

Lemma app_inj_len {A} (a b x y : list A) :
  length a = length b -> a ++ x = b ++ y -> a = b /\ x = y.
Proof.
  revert b. induction a as [|h a IH]; intros [|k b] Hl H; try discriminate.
  - auto.
  - simpl in H. injection H as -> H. simpl in Hl.
    destruct (IH b ltac:(lia) H) as [-> ->]. auto.
Qed.

Lemma slice_full {A} (l : list A) : slice l 0 (zlen l) = l.
Proof. unfold slice, zlen. rewrite Nat2Z.id. simpl. apply firstn_all. Qed.

Lemma slice_cons {A} (l : list A) p n x :
  znth l p = Some x -> 0 < n -> slice l p n = x :: slice l (p + 1) (n - 1).
Proof.
  intros Hx Hn. pose proof (znth_range _ _ _ Hx) as Hr.
  unfold znth in Hx. rewrite (proj2 (Z.ltb_ge p 0)) in Hx by lia.
  unfold slice. replace (Z.to_nat (p + 1)) with (S (Z.to_nat p)) by lia.
  replace (Z.to_nat n) with (S (Z.to_nat (n - 1))) by lia.
  revert Hx. generalize (Z.to_nat p) as i. clear. intros i. revert l.
  induction i as [|i IH]; intros [|a l] Hx; try discriminate.
  - simpl in Hx. injection Hx as ->. reflexivity.
  - simpl in Hx. apply IH in Hx. simpl. exact Hx.
Qed.

Lemma slice_4 {A} (l : list A) p :
  0 <= p -> p + 4 <= zlen l ->
  exists a b c d, znth l p = Some a /\ znth l (p + 1) = Some b /\
    znth l (p + 2) = Some c /\ znth l (p + 3) = Some d /\ slice l p 4 = [a; b; c; d].
Proof.
  intros H0 H4.
  destruct (znth_some l p) as (a & Ha); [lia|].
  destruct (znth_some l (p + 1)) as (b & Hb); [lia|].
  destruct (znth_some l (p + 2)) as (c & Hc); [lia|].
  destruct (znth_some l (p + 3)) as (d & Hd); [lia|].
  exists a, b, c, d. repeat split; auto.
  rewrite (slice_cons _ _ _ _ Ha) by lia. rewrite (slice_cons _ _ _ _ Hb) by lia.
  replace (p + 1 + 1) with (p + 2) by lia. rewrite (slice_cons _ _ _ _ Hc) by lia.
  replace (p + 2 + 1) with (p + 3) by lia. rewrite (slice_cons _ _ _ _ Hd) by lia.
  reflexivity.
Qed.

Lemma slice_2 {A} (l : list A) p :
  0 <= p -> p + 2 <= zlen l ->
  exists a b, znth l p = Some a /\ znth l (p + 1) = Some b /\ slice l p 2 = [a; b].
Proof.
  intros H0 H2.
  destruct (znth_some l p) as (a & Ha); [lia|].
  destruct (znth_some l (p + 1)) as (b & Hb); [lia|].
  exists a, b. repeat split; auto.
  rewrite (slice_cons _ _ _ _ Ha) by lia. rewrite (slice_cons _ _ _ _ Hb) by lia.
  reflexivity.
Qed.

Lemma get_u32_number e l p :
  0 <= p -> p + 4 <= zlen l -> get_u32 e l p = Ok (number_in e (slice l p 4)).
Proof.
  intros H0 H4. destruct (slice_4 l p H0 H4) as (a & b & c & d & Ha & Hb & Hc & Hd & ->).
  apply arr_get_ok in Ha, Hb, Hc, Hd.
  unfold get_u32. rewrite Ha, Hb, Hc, Hd. simpl. unfold number_in, dec_u32.
  destruct e; cbn [number rev app]; f_equal; ring.
Qed.

Lemma get_u16_number e l p :
  0 <= p -> p + 2 <= zlen l -> get_u16 e l p = Ok (number_in e (slice l p 2)).
Proof.
  intros H0 H2. destruct (slice_2 l p H0 H2) as (a & b & Ha & Hb & ->).
  apply arr_get_ok in Ha, Hb.
  unfold get_u16. rewrite Ha, Hb. simpl. unfold number_in, dec_u16.
  destruct e; cbn [number rev app]; f_equal; ring.
Qed.

Lemma number_range l : Forall is_byte l -> 0 <= number l < 256 ^ zlen l.
Proof.
  intros H. induction H as [|b l Hb Hl IH]; [simpl; lia|].
  cbn [number]. rewrite zlen_cons. unfold is_byte in Hb.
  rewrite Z.pow_add_r by (pose proof (zlen_nonneg l); lia). lia.
Qed.

Lemma number_in_range e l : Forall is_byte l -> 0 <= number_in e l < 256 ^ zlen l.
Proof.
  intros H. unfold number_in. destruct e; [apply number_range; auto|].
  assert (E : zlen l = zlen (rev l)) by (unfold zlen; rewrite rev_length; reflexivity).
  rewrite E. apply number_range. apply Forall_rev. exact H.
Qed.

Lemma field_sub s off n l p m :
  field s off n l -> 0 <= p -> 0 <= m -> p + m <= n ->
  field s (off + p) m (slice l p m).
Proof.
  intros (H0 & Hn & Hle & ->) Hp Hm H.
  split; [lia|]. split; [lia|]. split; [lia|]. apply slice_slice; lia.
Qed.

Lemma field_len s off n l : field s off n l -> zlen l = n.
Proof. intros (H0 & Hn & Hle & ->). apply zlen_slice; lia. Qed.

Lemma field_fun s off n l1 l2 : field s off n l1 -> field s off n l2 -> l1 = l2.
Proof. intros (_ & _ & _ & ->) (_ & _ & _ & ->). reflexivity. Qed.

Lemma u32_at_fun s e off x y : u32_at s e off x -> u32_at s e off y -> x = y.
Proof. intros (l & Hl & ->) (m & Hm & ->). now rewrite (field_fun _ _ _ _ _ Hl Hm). Qed.

Lemma u16_at_fun s e off x y : u16_at s e off x -> u16_at s e off y -> x = y.
Proof. intros (l & Hl & ->) (m & Hm & ->). now rewrite (field_fun _ _ _ _ _ Hl Hm). Qed.

Lemma u32_at_range s e off x : Forall is_byte s -> u32_at s e off x -> 0 <= x < 4294967296.
Proof.
  intros HB (l & Hl & ->). pose proof (field_len _ _ _ _ Hl) as E.
  assert (HF : Forall is_byte l) by (destruct Hl as (_ & _ & _ & ->); apply Forall_slice; auto).
  pose proof (number_in_range e l HF) as H. rewrite E in H. exact H.
Qed.

Lemma u16_at_range s e off x : Forall is_byte s -> u16_at s e off x -> 0 <= x < 65536.
Proof.
  intros HB (l & Hl & ->). pose proof (field_len _ _ _ _ Hl) as E.
  assert (HF : Forall is_byte l) by (destruct Hl as (_ & _ & _ & ->); apply Forall_slice; auto).
  pose proof (number_in_range e l HF) as H. rewrite E in H. exact H.
Qed.

(** A number in a buffer that holds a field. *)
Lemma get_u32_at s e off n l p :
  field s off n l -> 0 <= p -> p + 4 <= n ->
  exists x, get_u32 e l p = Ok x /\ u32_at s e (off + p) x.
Proof.
  intros Hf Hp Hn. pose proof (field_len _ _ _ _ Hf) as E.
  exists (number_in e (slice l p 4)). split; [apply get_u32_number; lia|].
  exists (slice l p 4). split; [apply field_sub with n; auto; lia|reflexivity].
Qed.

Lemma get_u16_at s e off n l p :
  field s off n l -> 0 <= p -> p + 2 <= n ->
  exists x, get_u16 e l p = Ok x /\ u16_at s e (off + p) x.
Proof.
  intros Hf Hp Hn. pose proof (field_len _ _ _ _ Hf) as E.
  exists (number_in e (slice l p 2)). split; [apply get_u16_number; lia|].
  exists (slice l p 2). split; [apply field_sub with n; auto; lia|reflexivity].
Qed.

(** * Strings *)
Lemma ascii_cut data :
  0 <= ascii_size data <= zlen data /\ cut_string 1 data (slice data 0 (ascii_size data)).
Proof.
  induction data as [|b r (Hr & IH)]; cbn [ascii_size].
  - split; [pose proof (@zlen_nil Z); lia|].
    exists [], []. repeat split; auto; try (intros k c Hk; destruct k; discriminate).
  - destruct (b =? 0) eqn:E.
    + apply Z.eqb_eq in E. subst b. split; [rewrite zlen_cons; pose proof (zlen_nonneg r); lia|].
      exists [[0]], r. split; [reflexivity|]. split; [reflexivity|].
      split; [repeat constructor|]. split.
      * intros k c Hk _. destruct k as [|k]; [reflexivity|destruct k; discriminate].
      * right. exists []. reflexivity.
    + apply Z.eqb_neq in E. split; [rewrite zlen_cons; lia|].
      destruct IH as (chars & rest & H1 & H2 & H3 & H4 & H5).
      exists ([b] :: chars), rest.
      split; [simpl; f_equal; exact H1|]. split.
      * replace (slice (b :: r) 0 (1 + ascii_size r)) with (b :: slice r 0 (ascii_size r)).
        -- simpl. f_equal. exact H2.
        -- unfold slice. replace (Z.to_nat (1 + ascii_size r)) with (S (Z.to_nat (ascii_size r))) by lia.
           reflexivity.
      * split; [constructor; auto|]. split.
        -- intros k c Hk Hc. destruct k as [|k].
           ++ simpl in Hk. injection Hk as <-. simpl in Hc. congruence.
           ++ simpl in Hk |- *. f_equal. apply (H4 k c); auto.
        -- destruct H5 as [H5|(before & H5)]; [left; exact H5|].
           right. exists ([b] :: before). rewrite H5. reflexivity.
Qed.

Lemma utf16_cut n : forall data, length data = (2 * n)%nat ->
  exists m, utf16_size data = Ok m /\ 0 <= m <= zlen data /\
            cut_string 2 data (slice data 0 m).
Proof.
  induction n as [|n IH]; intros data Hl.
  - destruct data; [|discriminate]. exists 0. split; [reflexivity|].
    split; [pose proof (@zlen_nil Z); lia|].
    exists [], []. repeat split; auto; try (intros k c Hk; destruct k; discriminate).
  - destruct data as [|b0 [|b1 r]]; simpl in Hl; try lia.
    assert (Hl' : length r = (2 * n)%nat) by lia.
    cbn [utf16_size]. rewrite !zlen_cons. pose proof (zlen_nonneg r).
    destruct ((b0 =? 0) && (b1 =? 0)) eqn:E.
    + apply andb_prop in E as [E0 E1]. apply Z.eqb_eq in E0, E1. subst b0 b1.
      exists 2. split; [reflexivity|]. split; [lia|].
      exists [[0; 0]], r. split; [reflexivity|]. split; [reflexivity|].
      split; [repeat constructor|]. split.
      * intros k c Hk _. destruct k as [|k]; [reflexivity|destruct k; discriminate].
      * right. exists []. reflexivity.
    + destruct (IH r Hl') as (m & Hm & Hr & Hc). rewrite Hm.
      exists (2 + m). split; [reflexivity|]. split; [lia|].
      destruct Hc as (chars & rest & H1 & H2 & H3 & H4 & H5).
      exists ([b0; b1] :: chars), rest.
      split; [simpl; do 2 f_equal; exact H1|]. split.
      * replace (slice (b0 :: b1 :: r) 0 (2 + m)) with (b0 :: b1 :: slice r 0 m).
        -- simpl. do 2 f_equal. exact H2.
        -- unfold slice. replace (Z.to_nat (2 + m)) with (S (S (Z.to_nat m))) by lia.
           reflexivity.
      * split; [constructor; auto|]. split.
        -- intros k c Hk Hcc. destruct k as [|k].
           ++ simpl in Hk. injection Hk as <-. simpl in Hcc. injection Hcc as -> ->.
              discriminate E.
           ++ simpl in Hk |- *. f_equal. apply (H4 k c); auto.
        -- destruct H5 as [H5|(before & H5)]; [left; exact H5|].
           right. exists ([b0; b1] :: before). rewrite H5. reflexivity.
Qed.

Lemma cut_string_fun unit : (0 < unit)%nat -> forall raw l1 l2,
  cut_string unit raw l1 -> cut_string unit raw l2 -> l1 = l2.
Proof.
  intros Hu raw l1 l2 (ch1 & r1 & A1 & -> & A3 & A4 & A5) (ch2 & r2 & B1 & -> & B3 & B4 & B5).
  rewrite A1 in B1. clear A1. f_equal.
  revert ch2 r2 B1 B3 B4 B5.
  induction A3 as [|c1 ch1 Hc1 A3 IH]; intros ch2 r2 B1 B3 B4 B5.
  - destruct A5 as [->|(bf & Hb)]; [|destruct bf; discriminate].
    destruct ch2 as [|c2 ch2]; [reflexivity|]. inversion B3; subst.
    simpl in B1. destruct c2; [simpl in Hu; lia|discriminate].
  - destruct ch2 as [|c2 ch2].
    + destruct B5 as [->|(bf & Hb)]; [|destruct bf; discriminate].
      simpl in B1. destruct c1; [simpl in Hc1; lia|discriminate].
    + inversion B3; subst. simpl in B1. rewrite <- !app_assoc in B1.
      assert (E : c1 = c2 /\ concat ch1 ++ r1 = concat ch2 ++ r2).
      { apply app_inj_len; auto. }
      destruct E as [-> E].
      (* the terminator, if it is here, ends both *)
      destruct (list_eq_dec Z.eq_dec c2 (repeat 0 (length c2))) as [Ez|Ez].
      * assert (L1 : (1 = length (c2 :: ch1))%nat) by (apply (A4 0%nat c2); [reflexivity|congruence]).
        assert (L2 : (1 = length (c2 :: ch2))%nat) by (apply (B4 0%nat c2); [reflexivity|congruence]).
        destruct ch1; [|discriminate]. destruct ch2; [|discriminate]. reflexivity.
      * f_equal. apply (IH) with r2; auto.
        -- intros k c Hk Hc. specialize (A4 (S k) c Hk Hc). simpl in A4. lia.
        -- destruct A5 as [A5|(bf & A5)]; [left; auto|].
           destruct bf as [|x bf]; simpl in A5.
           ++ injection A5 as E1 E2. congruence.
           ++ injection A5 as E1 E2. right. exists bf. exact E2.
        -- intros k c Hk Hc. specialize (B4 (S k) c Hk Hc). simpl in B4. lia.
        -- destruct B5 as [B5|(bf & B5)]; [left; auto|].
           destruct bf as [|x bf]; simpl in B5.
           ++ injection B5 as E1 E2. congruence.
           ++ injection B5 as E1 E2. right. exists bf. exact E2.
Qed.
