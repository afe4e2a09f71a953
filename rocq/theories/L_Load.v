(** Lemmas on decoding and on loading the allocation tables. *)
From Coq Require Import ZArith List Bool Lia ZifyBool ZifyNat.
From Verif Require Import Base Spec_IO Spec_Load L_Base M_Table M_Load.
Import ListNotations.
Open Scope Z_scope.

(** * Values *)
Lemma zlen_0 {A} (l : list A) : zlen l = 0 -> l = [].
Proof. destruct l; auto. rewrite zlen_cons. pose proof (zlen_nonneg l). lia. Qed.

Lemma slice_4 (l : list Z) p b0 b1 b2 b3 :
  0 <= p -> znth l p = Some b0 -> znth l (p + 1) = Some b1 ->
  znth l (p + 2) = Some b2 -> znth l (p + 3) = Some b3 ->
  slice l p 4 = [b0; b1; b2; b3].
Proof.
  intros Hp H0 H1 H2 H3. pose proof (znth_range _ _ _ H3).
  apply znth_ext.
  - rewrite zlen_slice by lia. reflexivity.
  - intros i Hi. rewrite zlen_slice in Hi by lia.
    rewrite znth_slice by lia.
    assert (i = 0 \/ i = 1 \/ i = 2 \/ i = 3) as [->|[->|[->| ->]]] by lia;
      rewrite ?Z.add_0_r; auto.
Qed.

Lemma slice_2 (l : list Z) p b0 b1 :
  0 <= p -> znth l p = Some b0 -> znth l (p + 1) = Some b1 -> slice l p 2 = [b0; b1].
Proof.
  intros Hp H0 H1. pose proof (znth_range _ _ _ H1).
  apply znth_ext.
  - rewrite zlen_slice by lia. reflexivity.
  - intros i Hi. rewrite zlen_slice in Hi by lia.
    rewrite znth_slice by lia.
    assert (i = 0 \/ i = 1) as [->| ->] by lia; rewrite ?Z.add_0_r; auto.
Qed.

Lemma arr_get_val (l : list Z) i : 0 <= i < zlen l ->
  exists b, arr_get l i = Ok b /\ znth l i = Some b.
Proof. intros H. destruct (znth_some l i H) as (b & Hb). exists b. split; auto. now apply arr_get_ok. Qed.

Lemma get_u32_value e buf p :
  0 <= p -> p + 4 <= zlen buf -> get_u32 e buf p = Ok (value_at e buf p 4).
Proof.
  intros Hp Hl. unfold get_u32.
  destruct (arr_get_val buf p) as (b0 & -> & H0); [lia|].
  destruct (arr_get_val buf (p + 1)) as (b1 & -> & H1); [lia|].
  destruct (arr_get_val buf (p + 2)) as (b2 & -> & H2); [lia|].
  destruct (arr_get_val buf (p + 3)) as (b3 & -> & H3); [lia|].
  simpl. f_equal. unfold value_at. rewrite (slice_4 buf p b0 b1 b2 b3) by auto.
  destruct e; cbn [value le_value rev app dec_u32 dec_u16]; lia.
Qed.

Lemma get_u16_value e buf p :
  0 <= p -> p + 2 <= zlen buf -> get_u16 e buf p = Ok (value_at e buf p 2).
Proof.
  intros Hp Hl. unfold get_u16.
  destruct (arr_get_val buf p) as (b0 & -> & H0); [lia|].
  destruct (arr_get_val buf (p + 1)) as (b1 & -> & H1); [lia|].
  simpl. f_equal. unfold value_at. rewrite (slice_2 buf p b0 b1) by auto.
  destruct e; cbn [value le_value rev app dec_u32 dec_u16]; lia.
Qed.

Lemma le_value_app a b : le_value (a ++ b) = le_value a + 256 ^ zlen a * le_value b.
Proof.
  induction a as [|x a IH]; [change (le_value (@nil Z)) with 0; change (zlen (@nil Z)) with 0; rewrite Z.pow_0_r; cbn [app]; lia|].
  rewrite zlen_cons, Z.pow_add_r by (pose proof (zlen_nonneg a); lia).
  cbn [app le_value]. rewrite IH. change (256 ^ 1) with 256. lia.
Qed.

Lemma get_u64_value e buf p :
  0 <= p -> p + 8 <= zlen buf -> get_u64 e buf p = Ok (value_at e buf p 8).
Proof.
  intros Hp Hl. unfold get_u64.
  rewrite get_u32_value by lia. cbn [rbind]. rewrite get_u32_value by lia. cbn [rbind].
  f_equal. unfold value_at.
  replace (slice buf p 8) with (slice buf p 4 ++ slice buf (p + 4) 4)
    by (rewrite slice_app_adjacent by lia; reflexivity).
  assert (L : forall q, 0 <= q -> q + 4 <= zlen buf -> zlen (slice buf q 4) = 4)
    by (intros; rewrite zlen_slice by lia; lia).
  destruct e; unfold value.
  - rewrite le_value_app, L by lia. change (256 ^ 4) with TWO32. reflexivity.
  - rewrite rev_app_distr, le_value_app.
    replace (zlen (rev (slice buf (p + 4) 4))) with 4
      by (unfold zlen; rewrite rev_length; fold (zlen (slice buf (p + 4) 4)); rewrite L; lia).
    change (256 ^ 4) with TWO32. reflexivity.
Qed.

Lemma le_value_range l : Forall is_byte l -> 0 <= le_value l < 256 ^ zlen l.
Proof.
  induction 1 as [|b l Hb Hl IH].
  - change (256 ^ zlen (@nil Z)) with 1. cbn [le_value]. lia.
  - rewrite zlen_cons, Z.pow_add_r by (pose proof (zlen_nonneg l); lia).
    change (256 ^ 1) with 256. cbn [le_value]. unfold is_byte in Hb. lia.
Qed.

Lemma value_range e l : Forall is_byte l -> 0 <= value e l < 256 ^ zlen l.
Proof.
  intros H. destruct e; unfold value.
  - now apply le_value_range.
  - replace (zlen l) with (zlen (rev l)) by (unfold zlen; now rewrite rev_length).
    apply le_value_range. apply Forall_rev. exact H.
Qed.

Lemma value_at_range e l p n :
  Forall is_byte l -> 0 <= p -> 0 <= n -> p + n <= zlen l -> 0 <= value_at e l p n < 256 ^ n.
Proof.
  intros H Hp Hn Hl. unfold value_at.
  pose proof (value_range e (slice l p n) (Forall_slice _ _ p n H)) as G.
  rewrite zlen_slice in G by lia. exact G.
Qed.

(** * Words *)
Lemma zlen_map {A B} (f : A -> B) l : zlen (map f l) = zlen l.
Proof. unfold zlen. now rewrite map_length. Qed.

Lemma zlen_seq a n : zlen (seq a n) = Z.of_nat n.
Proof. unfold zlen. now rewrite seq_length. Qed.

Lemma zlen_words e l : zlen (words e l) = zlen l / 4.
Proof.
  unfold words. rewrite zlen_map, zlen_seq. unfold zlen.
  rewrite Nat2Z.inj_div. reflexivity.
Qed.

Lemma nth_error_seq a n k : (k < n)%nat -> nth_error (seq a n) k = Some (a + k)%nat.
Proof.
  intros H. rewrite (nth_error_nth' _ 0%nat) by (rewrite seq_length; lia).
  now rewrite seq_nth by lia.
Qed.

Lemma znth_map {A B} (f : A -> B) l i : znth (map f l) i = option_map f (znth l i).
Proof. unfold znth. destruct (i <? 0); auto. apply nth_error_map. Qed.

Lemma znth_seq a n i : 0 <= i < Z.of_nat n -> znth (seq a n) i = Some (a + Z.to_nat i)%nat.
Proof.
  intros H. unfold znth. destruct (i <? 0) eqn:E; [lia|]. apply nth_error_seq. lia.
Qed.

Lemma znth_words e l j :
  0 <= j < zlen l / 4 -> znth (words e l) j = Some (value_at e l (4 * j) 4).
Proof.
  intros H. unfold words. rewrite znth_map, znth_seq.
  - simpl. now rewrite Z2Nat.id by lia.
  - rewrite Nat2Z.inj_div. exact H.
Qed.

Definition word_u32 (x : Z) : Prop := 0 <= x < 4294967296.

Lemma words_u32 e l : Forall is_byte l -> Forall word_u32 (words e l).
Proof.
  intros H. apply Forall_forall. intros x Hx. unfold words in Hx.
  apply in_map_iff in Hx as (k & <- & Hk). apply in_seq in Hk.
  assert (Z.of_nat k + 1 <= zlen l / 4)
    by (unfold zlen; change 4 with (Z.of_nat 4); rewrite <- Nat2Z.inj_div; lia).
  pose proof (Z.mul_div_le (zlen l) 4).
  apply (value_at_range e l (4 * Z.of_nat k) 4); auto; lia.
Qed.

(** * Storing values in a table *)
Lemma set_nth_app {A} (pre : list A) x post v :
  set_nth (pre ++ x :: post) (length pre) v = pre ++ v :: post.
Proof. induction pre; simpl; congruence. Qed.

Lemma zeros_cons m : 0 < m -> zeros m = 0 :: zeros (m - 1).
Proof.
  intros. unfold zeros. replace (Z.to_nat m) with (S (Z.to_nat (m - 1))) by lia. reflexivity.
Qed.

Lemma arr_set_tail (pre : list Z) m v :
  0 < m -> arr_set (pre ++ zeros m) (zlen pre) v = Ok ((pre ++ [v]) ++ zeros (m - 1)).
Proof.
  intros Hm. pose proof (zlen_nonneg pre).
  rewrite arr_set_in by (rewrite zlen_app, zlen_zeros; lia).
  rewrite zeros_cons by auto. unfold zlen. rewrite Nat2Z.id, set_nth_app.
  rewrite <- app_assoc. reflexivity.
Qed.

(** [n] values from [pos] on. *)
Definition values_from (e : endian) (l : list Z) (pos : Z) (n : nat) : list Z :=
  map (fun k => value_at e l (pos + 4 * Z.of_nat k) 4) (seq 0 n).

Lemma values_from_S e l pos n :
  values_from e l pos (S n) = value_at e l pos 4 :: values_from e l (pos + 4) n.
Proof.
  unfold values_from. cbn [seq map]. rewrite Z.add_0_r. f_equal.
  rewrite <- seq_shift, map_map. apply map_ext. intros k.
  replace (pos + 4 * Z.of_nat (S k)) with (pos + 4 + 4 * Z.of_nat k) by lia. reflexivity.
Qed.

Lemma zlen_values_from e l pos n : zlen (values_from e l pos n) = Z.of_nat n.
Proof. unfold values_from. now rewrite zlen_map, zlen_seq. Qed.

Lemma words_values e l : words e l = values_from e l 0 (length l / 4).
Proof. reflexivity. Qed.

Lemma sat_sector_loop_eq e sector n : forall pos pre m,
  0 <= pos -> pos + 4 * Z.of_nat n <= zlen sector -> Z.of_nat n <= m ->
  sat_sector_loop n e sector pos (pre ++ zeros m) (zlen pre) =
  Ok (pre ++ values_from e sector pos n ++ zeros (m - Z.of_nat n), zlen pre + Z.of_nat n).
Proof.
  induction n; intros pos pre m Hp Hl Hm.
  - simpl. now rewrite Z.sub_0_r, Z.add_0_r.
  - cbn [sat_sector_loop]. rewrite get_u32_value by lia. cbn [rbind].
    rewrite arr_set_tail by lia. cbn [rbind].
    replace (zlen pre + 1) with (zlen (pre ++ [value_at e sector pos 4]))
      by (rewrite zlen_app, zlen_cons, zlen_nil; lia).
    rewrite IHn by lia. rewrite values_from_S, zlen_app, zlen_cons, zlen_nil.
    rewrite <- app_assoc. cbn [app]. f_equal. f_equal; [|lia].
    do 4 f_equal. lia.
Qed.

Lemma ssat_sector_loop_eq e sector n : forall pos pre m,
  0 <= pos -> pos + 4 * Z.of_nat n <= zlen sector -> Z.of_nat n <= m ->
  ssat_sector_loop n e sector pos (pre ++ zeros m) (zlen pre) =
  Ok (pre ++ values_from e sector pos n ++ zeros (m - Z.of_nat n), zlen pre + Z.of_nat n, true).
Proof.
  induction n; intros pos pre m Hp Hl Hm.
  - simpl. now rewrite Z.sub_0_r, Z.add_0_r.
  - cbn [ssat_sector_loop]. pose proof (zlen_nonneg pre).
    destruct ((zlen pre <? 0) || (zlen (pre ++ zeros m) <=? zlen pre)) eqn:E;
      [rewrite zlen_app, zlen_zeros in E; lia|].
    rewrite get_u32_value by lia. cbn [rbind].
    rewrite arr_set_tail by lia. cbn [rbind].
    replace (zlen pre + 1) with (zlen (pre ++ [value_at e sector pos 4]))
      by (rewrite zlen_app, zlen_cons, zlen_nil; lia).
    rewrite IHn by lia. rewrite values_from_S, zlen_app, zlen_cons, zlen_nil.
    rewrite <- app_assoc. cbn [app]. f_equal. f_equal. f_equal; [|lia].
    do 4 f_equal. lia.
Qed.

Lemma msat_sector_loop_eq e sector n : forall pos pre m,
  0 <= pos -> pos + 4 * Z.of_nat n <= zlen sector -> Z.of_nat n <= m ->
  msat_sector_loop n e sector pos (pre ++ zeros m) (zlen pre) =
  Ok (pre ++ values_from e sector pos n ++ zeros (m - Z.of_nat n), zlen pre + Z.of_nat n,
      pos + 4 * Z.of_nat n).
Proof.
  induction n; intros pos pre m Hp Hl Hm.
  - simpl. now rewrite Z.sub_0_r, !Z.add_0_r.
  - cbn [msat_sector_loop]. pose proof (zlen_nonneg pre).
    destruct ((zlen pre <? 0) || (zlen (pre ++ zeros m) <=? zlen pre)) eqn:E;
      [rewrite zlen_app, zlen_zeros in E; lia|].
    rewrite get_u32_value by lia. cbn [rbind].
    rewrite arr_set_tail by lia. cbn [rbind].
    replace (zlen pre + 1) with (zlen (pre ++ [value_at e sector pos 4]))
      by (rewrite zlen_app, zlen_cons, zlen_nil; lia).
    rewrite IHn by lia. rewrite values_from_S, zlen_app, zlen_cons, zlen_nil.
    rewrite <- app_assoc. cbn [app]. f_equal. f_equal; [|lia]. f_equal; [|lia].
    do 4 f_equal. lia.
Qed.

(** When the table is too short for the sector. *)
Lemma msat_sector_loop_short e sector n : forall pos pre m,
  0 <= pos -> pos + 4 * Z.of_nat n <= zlen sector -> 0 <= m < Z.of_nat n ->
  msat_sector_loop n e sector pos (pre ++ zeros m) (zlen pre) = Err.
Proof.
  induction n; intros pos pre m Hp Hl Hm; [lia|].
  cbn [msat_sector_loop]. pose proof (zlen_nonneg pre).
  destruct (Z.eq_dec m 0) as [->|Hm0].
  - destruct ((zlen pre <? 0) || (zlen (pre ++ zeros 0) <=? zlen pre)) eqn:E; auto.
    rewrite zlen_app, zlen_zeros in E; lia.
  - destruct ((zlen pre <? 0) || (zlen (pre ++ zeros m) <=? zlen pre)) eqn:E; auto.
    rewrite get_u32_value by lia. cbn [rbind].
    rewrite arr_set_tail by lia. cbn [rbind].
    replace (zlen pre + 1) with (zlen (pre ++ [value_at e sector pos 4]))
      by (rewrite zlen_app, zlen_cons, zlen_nil; lia).
    apply IHn; lia.
Qed.

(** * Reads of sectors *)
Lemma sector_read_cases rd ss id t :
  (exists s, read_at rd (sector_offset id ss) ss t = (Ok (Some s), t ++ [request ss id]) /\
             delivered rd ss id s) \/
  (read_at rd (sector_offset id ss) ss t = (Ok None, t ++ [request ss id]) /\
   refused rd ss id t).
Proof.
  unfold delivered, refused, request. cbn [fst].
  change (((id + 1) mod 4294967296) * ss) with (sector_offset id ss).
  destruct (read_at_cases rd (sector_offset id ss) ss t) as [(l & H & H1 & H2)|[H H1]].
  - left. exists l. split; auto. exists t. auto.
  - right. split; [exact H|]. exact H1.
Qed.

Lemma delivered_sector rd f ss id s :
  io_sound rd f -> 0 < ss -> delivered rd ss id s -> s = sector_at f ss id.
Proof.
  intros HS Hss (tr & H & Hl). unfold request in H. cbn [fst] in H.
  pose proof (Z.mod_pos_bound (id + 1) 4294967296 ltac:(lia)).
  destruct (HS tr (((id + 1) mod 4294967296) * ss) ss s ltac:(nia) Hss H Hl) as [_ ->]. reflexivity.
Qed.

Lemma delivered_bytes rd ss id s : io_bytes rd -> delivered rd ss id s -> Forall is_byte s.
Proof. intros HB (tr & H & _). eapply HB; eauto. Qed.

Lemma delivered_len rd ss id s : delivered rd ss id s -> zlen s = ss.
Proof. now intros (tr & _ & H). Qed.

(** * The sector allocation table *)

(** Number of table sectors that fit in the table the library makes. *)
Definition table_sectors (ss n : Z) : Z :=
  let entries := ss / 4 in
  let total := s32 (n * entries) in
  if (total <? 0) || (33554432 <? total) then 0 else total / entries.

Definition sector_words (e : endian) (secs : list (list Z)) : list Z :=
  concat (map (words e) secs).

Lemma words_all e s ss : zlen s = ss -> words e s = values_from e s 0 (Z.to_nat (ss / 4)).
Proof.
  intros H. rewrite words_values. f_equal. subst. unfold zlen.
  change 4 with (Z.of_nat 4). rewrite <- Nat2Z.inj_div. lia.
Qed.

Lemma sat_loop_eq rd e ss : 4 <= ss -> forall msat pre K t, 0 <= K ->
  exists (k : nat) secs,
    (Z.of_nat k <= K) /\ (k <= length (used_ids msat))%nat /\
    Forall2 (delivered rd ss) (firstn k (used_ids msat)) secs /\
    ((Z.of_nat k = K \/ k = length (used_ids msat)) /\
     sat_loop rd e ss (ss / 4) msat (pre ++ zeros (K * (ss / 4))) (zlen pre) t =
       (Ok (pre ++ sector_words e secs ++ zeros ((K - Z.of_nat k) * (ss / 4))),
        t ++ map (request ss) (firstn k (used_ids msat)))
     \/
     exists id, Z.of_nat k < K /\ nth_error (used_ids msat) k = Some id /\
       refused rd ss id (t ++ map (request ss) (firstn k (used_ids msat))) /\
       sat_loop rd e ss (ss / 4) msat (pre ++ zeros (K * (ss / 4))) (zlen pre) t =
       (Ok (pre ++ sector_words e secs ++ zeros ((K - Z.of_nat k) * (ss / 4))),
        t ++ map (request ss) (firstn (S k) (used_ids msat)))).
Proof.
  intros Hss. assert (HE : 1 <= ss / 4) by (apply Z.div_le_lower_bound; lia).
  assert (HE4 : 4 * (ss / 4) <= ss) by (apply Z.mul_div_le; lia).
  set (E := ss / 4) in *.
  induction msat as [|id msat IH]; intros pre K t HK.
  - exists 0%nat, []. simpl. repeat split; auto; try lia. left. split; auto.
    now rewrite Z.sub_0_r, app_nil_r.
  - cbn [sat_loop used_ids filter]. change UNUSED with FREE.
    destruct (id =? FREE) eqn:Eid; cbn [negb].
    + fold (used_ids msat). apply IH; auto.
    + fold (used_ids msat). rewrite zlen_app, zlen_zeros by nia.
      destruct (zlen pre + K * E <=? zlen pre) eqn:E0.
      * exists 0%nat, []. assert (K = 0) by nia. subst K. cbn [firstn map].
        repeat split; auto; try lia. left. split; auto.
        unfold sector_words, zeros. simpl. rewrite !app_nil_r. reflexivity.
      * assert (HK1 : 1 <= K) by nia.
        destruct (sector_read_cases rd ss id t) as [(s & Hr & Hd)|[Hr Hd]].
        -- erewrite ibind_step by exact Hr. cbn iota.
           pose proof (delivered_len _ _ _ _ Hd) as Hlen.
           rewrite (ilift_step _ _ _ _
             (sat_sector_loop_eq e s (Z.to_nat E) 0 pre (K * E) ltac:(lia) ltac:(lia) ltac:(nia))).
           cbn beta iota.
           assert (Hw : values_from e s 0 (Z.to_nat E) = words e s)
             by (symmetry; apply words_all; auto).
           rewrite Hw.
           replace (K * E - Z.of_nat (Z.to_nat E)) with ((K - 1) * E) by nia.
           replace (zlen pre + Z.of_nat (Z.to_nat E)) with (zlen (pre ++ words e s))
             by (rewrite zlen_app, zlen_words, Hlen; fold E; lia).
           rewrite app_assoc.
           destruct (IH (pre ++ words e s) (K - 1) (t ++ [request ss id])) as
             (k & secs & Hk1 & Hk2 & Hf & Hres); [lia|].
           exists (S k), (s :: secs). cbn [firstn length map].
           split; [lia|]. split; [lia|]. split; [constructor; auto|].
           replace (K - Z.of_nat (S k)) with (K - 1 - Z.of_nat k) by lia.
           unfold sector_words in *. cbn [map concat].
           rewrite <- !app_assoc in Hres. cbn [app] in Hres. rewrite <- !app_assoc.
           destruct Hres as [[Hend Hres]|(id' & Hlt & Hnth & Href & Hres)].
           ++ left. split; [lia|]. exact Hres.
           ++ right. exists id'. split; [lia|]. auto.
        -- exists 0%nat, []. cbn [firstn map]. split; [lia|]. split; [lia|].
           split; [constructor|]. right. exists id. rewrite app_nil_r.
           split; [lia|]. split; auto. split; auto.
           erewrite ibind_step by exact Hr. cbn iota.
           unfold sector_words. cbn [map concat app]. now rewrite Z.sub_0_r.
Qed.

(** Sizes: the wrapped product is a multiple of the entries per sector. *)
Lemma s32_multiple x a : 0 <= a <= 31 -> exists q, s32 (x * 2 ^ a) = q * 2 ^ a.
Proof.
  intros Ha. unfold s32.
  assert (Hp : TWO32 = 2 ^ (32 - a) * 2 ^ a).
  { rewrite <- Z.pow_add_r by lia. replace (32 - a + a) with 32 by lia. reflexivity. }
  assert (Hm : (x * 2 ^ a) mod TWO32 = (x mod 2 ^ (32 - a)) * 2 ^ a).
  { rewrite Hp. rewrite Z.mul_mod_distr_r; auto; apply Z.pow_nonzero; lia. }
  rewrite Hm. destruct (_ <=? INT_MAX).
  - eauto.
  - exists (x mod 2 ^ (32 - a) - 2 ^ (32 - a)). rewrite Hp. ring.
Qed.

Definition power_of_two (ss : Z) : Prop := exists a, 0 <= a <= 15 /\ ss = 2 ^ a.

Lemma power_small ss : power_of_two ss -> ss < 4 \/ exists a, 2 <= a <= 15 /\ ss = 2 ^ a.
Proof.
  intros (a & Ha & ->). destruct (Z_lt_ge_dec a 2).
  - left. assert (a = 0 \/ a = 1) as [->| ->] by lia; reflexivity.
  - right. exists a. split; auto; lia.
Qed.

Lemma power_range ss : power_of_two ss -> 1 <= ss <= 32768.
Proof.
  intros (a & Ha & ->). split.
  - change 1 with (2 ^ 0). apply Z.pow_le_mono_r; lia.
  - change 32768 with (2 ^ 15). apply Z.pow_le_mono_r; lia.
Qed.

Lemma power_entries a : 2 <= a <= 15 -> 2 ^ a / 4 = 2 ^ (a - 2).
Proof.
  intros. replace a with (a - 2 + 2) at 1 by lia. rewrite Z.pow_add_r by lia.
  change (2 ^ 2) with 4. apply Z.div_mul. lia.
Qed.

(** The table the library makes for [n] sectors. *)
Lemma table_made ss n :
  power_of_two ss -> 4 <= ss ->
  (s32 (n * (ss / 4)) > 33554432 /\ table_sectors ss n = 0) \/
  (s32 (n * (ss / 4)) <= 0 /\ table_sectors ss n = 0) \/
  (0 < s32 (n * (ss / 4)) <= 33554432 /\
   s32 (n * (ss / 4)) = table_sectors ss n * (ss / 4)).
Proof.
  intros Hp Hss. destruct (power_small ss Hp) as [?|(a & Ha & ->)]; [lia|].
  unfold table_sectors. rewrite power_entries in * by auto.
  assert (HE : 0 < 2 ^ (a - 2)) by (apply Z.pow_pos_nonneg; lia).
  destruct (s32_multiple n (a - 2)) as (q & Hq); [lia|].
  set (x := s32 (n * 2 ^ (a - 2))) in *. set (E := 2 ^ (a - 2)) in *. clearbody E x.
  destruct ((x <? 0) || (33554432 <? x)) eqn:E1; [lia|].
  destruct (Z.eq_dec x 0) as [->|Hx]; [right; left; split; [lia|apply Z.div_0_l; lia]|].
  right. right. split; [lia|]. subst x. now rewrite Z.div_mul by lia.
Qed.

Lemma table_sectors_nonneg ss n : 4 <= ss -> 0 <= table_sectors ss n.
Proof.
  intros. unfold table_sectors. assert (1 <= ss / 4) by (apply Z.div_le_lower_bound; lia).
  destruct (_ || _) eqn:E; [lia|]. apply Z.div_pos; lia.
Qed.

(** Everything about the outcome of reading the sector allocation table. *)
Definition sat_outcome (rd : reader) (e : endian) (ss : Z) (ids : list Z) (K : Z)
           (t : trace) (sat : list Z) (t' : trace) : Prop :=
  exists (k : nat) secs,
    Z.of_nat k <= K /\ (k <= length ids)%nat /\
    Forall2 (delivered rd ss) (firstn k ids) secs /\
    sat = sector_words e secs ++ zeros ((K - Z.of_nat k) * (ss / 4)) /\
    (((Z.of_nat k = K \/ k = length ids) /\
      t' = t ++ map (request ss) (firstn k ids)) \/
     exists id, Z.of_nat k < K /\ nth_error ids k = Some id /\
       refused rd ss id (t ++ map (request ss) (firstn k ids)) /\
       t' = t ++ map (request ss) (firstn (S k) ids)).

Lemma sat_loop_empty rd e ss E msat t : sat_loop rd e ss E msat [] 0 t = (Ok [], t).
Proof.
  induction msat; cbn [sat_loop]; auto. destruct (_ =? UNUSED); auto.
Qed.

Lemma read_sat_outcome rd e ss msat n t :
  power_of_two ss -> 4 <= ss ->
  exists sat t', read_sat rd e ss msat [] n t = (Ok sat, t') /\
    sat_outcome rd e ss (used_ids msat) (table_sectors ss n) t sat t'.
Proof.
  intros Hp Hss. pose proof (power_range ss Hp) as Hr.
  assert (Hmin : sat_outcome rd e ss (used_ids msat) 0 t [] t).
  { exists 0%nat, []. simpl. repeat split; auto; try lia. left. split; auto. now rewrite app_nil_r. }
  unfold read_sat.
  destruct ((ss =? 0) || (MEMORY_MAXIMUM_ALLOCATION_SIZE <? ss)) eqn:E0.
  { change MEMORY_MAXIMUM_ALLOCATION_SIZE with 134217728 in E0. lia. }
  rewrite zlen_nil.
  destruct (table_made ss n Hp Hss) as [[H1 H2]|[[H1 H2]|[H1 H2]]].
  - destruct (0 <? s32 (n * (ss / 4))) eqn:E1; [|lia].
    unfold table_resize. change TABLE_MAX with 33554432.
    destruct ((s32 (n * (ss / 4)) <? 0) || (33554432 <? s32 (n * (ss / 4)))) eqn:E2; [|lia].
    exists [], t. split; [reflexivity|]. rewrite H2. exact Hmin.
  - destruct (0 <? s32 (n * (ss / 4))) eqn:E1; [lia|].
    exists [], t. rewrite sat_loop_empty, H2. auto.
  - destruct (0 <? s32 (n * (ss / 4))) eqn:E1; [|lia].
    unfold table_resize. change TABLE_MAX with 33554432.
    destruct ((s32 (n * (ss / 4)) <? 0) || (33554432 <? s32 (n * (ss / 4)))) eqn:E2; [lia|].
    rewrite zlen_nil, E1, Z.sub_0_r, H2. cbn [app].
    destruct (sat_loop_eq rd e ss Hss msat [] (table_sectors ss n) t
                (table_sectors_nonneg ss n Hss)) as (k & secs & Hk1 & Hk2 & Hf & Hres).
    change (zlen (@nil Z)) with 0 in Hres. cbn [app] in Hres.
    destruct Hres as [[Hend Hres]|(id & Hlt & Hnth & Href & Hres)];
      eexists; eexists; (split; [exact Hres|]); exists k, secs.
    + repeat split; auto.
    + split; auto. split; auto. split; auto. split; auto. right. exists id. auto.
Qed.

Lemma read_sat_small rd e ss msat n t :
  1 <= ss < 4 -> read_sat rd e ss msat [] n t = (Ok [], t).
Proof.
  intros Hss. unfold read_sat.
  destruct ((ss =? 0) || (MEMORY_MAXIMUM_ALLOCATION_SIZE <? ss)) eqn:E0.
  { change MEMORY_MAXIMUM_ALLOCATION_SIZE with 134217728 in E0. lia. }
  assert (ss / 4 = 0) by (apply Z.div_small; lia).
  rewrite zlen_nil, H, Z.mul_0_r. change (0 <? s32 0) with false. cbn iota.
  apply sat_loop_empty.
Qed.
