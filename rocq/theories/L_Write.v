(** Lemmas on written files: blocks, regions of sectors, chains and tables. *)
From Coq Require Import ZArith List Bool Lia.
From Verif Require Import Base Spec_IO M_Header M_Table M_Load M_Stream M_Tree M_Open M_Item
  Spec_Stream Spec_Load Spec_Tree Spec_Open Spec_Content Spec_Write L_Base L_Load L_Load2 L_Header L_Stream L_Open2.
Import ListNotations.
Open Scope Z_scope.

(** * Blocks *)
Lemma blocks_spec k n : 0 < k -> 0 <= n ->
  0 <= blocks k n /\ n <= blocks k n * k /\ (blocks k n - 1) * k < n \/ blocks k n = 0 /\ n = 0.
Proof.
  intros Hk Hn. unfold blocks. pose proof (Z.div_mod (n + k - 1) k ltac:(lia)) as H.
  pose proof (Z.mod_pos_bound (n + k - 1) k Hk) as H1.
  assert (0 <= (n + k - 1) / k) by (apply Z.div_pos; lia).
  destruct (Z.eq_dec n 0) as [->|E].
  - right. split; [|reflexivity]. apply Z.div_small. lia.
  - left. split; [assumption|]. split; nia.
Qed.

Lemma blocks_nonneg k n : 0 < k -> 0 <= n -> 0 <= blocks k n.
Proof. intros Hk Hn. destruct (blocks_spec k n Hk Hn) as [H|H]; lia. Qed.

Lemma blocks_enough k n : 0 < k -> 0 <= n -> n <= blocks k n * k.
Proof. intros Hk Hn. destruct (blocks_spec k n Hk Hn) as [H|[H ->]]; lia. Qed.

Lemma blocks_0 k n : 0 < k -> 0 <= n -> (blocks k n = 0 <-> n = 0).
Proof. intros Hk Hn. destruct (blocks_spec k n Hk Hn) as [H|H]; [|tauto]. split; [intros E; rewrite E in H; lia|intros ->]. nia. Qed.

Lemma blocks_last k n i : 0 < k -> 0 <= i < n -> i / k < blocks k n.
Proof.
  intros Hk Hi. pose proof (blocks_enough k n Hk ltac:(lia)). apply Z.div_lt_upper_bound; [lia|]. rewrite Z.mul_comm. lia.
Qed.

Lemma blocks_mul k m : 0 < k -> 0 <= m -> blocks k (m * k) = m.
Proof.
  intros Hk Hm. unfold blocks. replace (m * k + k - 1) with (k - 1 + m * k) by lia.
  rewrite Z.div_add by lia. rewrite Z.div_small by lia. lia.
Qed.

Lemma zlen_repeat (x : Z) n : zlen (repeat x n) = Z.of_nat n.
Proof. unfold zlen. now rewrite repeat_length. Qed.

Lemma zlen_fill x k l : 0 < k -> zlen (fill x k l) = blocks k (zlen l) * k.
Proof.
  intros Hk. unfold fill. pose proof (zlen_nonneg l). pose proof (blocks_enough k (zlen l) Hk H).
  rewrite zlen_app, zlen_repeat. lia.
Qed.

Lemma Forall_repeat {A} (P : A -> Prop) x n : P x -> Forall P (repeat x n).
Proof. intros H. induction n; cbn; auto. Qed.

Lemma Forall_fill (P : Z -> Prop) x k l : P x -> Forall P l -> Forall P (fill x k l).
Proof. intros Hx Hl. apply Forall_app. split; [exact Hl|now apply Forall_repeat]. Qed.

Lemma w_blocks_nonneg k l : 0 < k -> 0 <= w_blocks k l.
Proof.
  intros Hk. induction l as [|s l IH]; cbn [w_blocks fold_right]; [lia|]. fold (w_blocks k l).
  pose proof (blocks_nonneg k (zlen s) Hk (zlen_nonneg s)). lia.
Qed.

Lemma w_blocks_cons k s l : w_blocks k (s :: l) = blocks k (zlen s) + w_blocks k l.
Proof. reflexivity. Qed.

Lemma w_blocks_app k a b : w_blocks k (a ++ b) = w_blocks k a + w_blocks k b.
Proof. induction a as [|s a IH]; [reflexivity|]. cbn [app]. rewrite !w_blocks_cons, IH. lia. Qed.

Lemma zlen_w_data k l : 0 < k -> zlen (w_data k l) = w_blocks k l * k.
Proof.
  intros Hk. induction l as [|s l IH]; [reflexivity|]. unfold w_data in *. cbn [flat_map].
  rewrite zlen_app, IH, zlen_fill, w_blocks_cons by exact Hk. lia.
Qed.

Lemma w_data_app k a b : w_data k (a ++ b) = w_data k a ++ w_data k b.
Proof. unfold w_data. apply flat_map_app. Qed.

(** * Chains *)
Lemma w_chain_length base n : length (w_chain base n) = n.
Proof.
  revert base. induction n as [|[|n] IH]; intros base; auto.
  change (w_chain base (S (S n))) with (base + 1 :: w_chain (base + 1) (S n)). cbn [length]. now rewrite IH.
Qed.

Lemma zlen_w_chain base n : 0 <= n -> zlen (w_chain base (Z.to_nat n)) = n.
Proof. intros H. unfold zlen. rewrite w_chain_length. lia. Qed.

Lemma w_chain_nth n : forall base k, (k < n)%nat ->
  nth_error (w_chain base n) k = Some (if Nat.eqb (S k) n then EOC else base + Z.of_nat k + 1).
Proof.
  induction n as [|[|n] IH]; intros base k Hk; [lia| |].
  - destruct k; [reflexivity|lia].
  - change (w_chain base (S (S n))) with (base + 1 :: w_chain (base + 1) (S n)). destruct k as [|k].
    + cbn. do 2 f_equal. lia.
    + cbn [nth_error]. rewrite IH by lia. cbn [Nat.eqb]. destruct n; [cbn; destruct k; [reflexivity|lia]|].
      destruct (Nat.eqb k (S n)) eqn:E; [reflexivity|]. do 2 f_equal. lia.
Qed.

Lemma w_chain_u32 n : forall base, 0 <= base -> base + Z.of_nat n < 4294967296 -> Forall is_u32 (w_chain base n).
Proof.
  induction n as [|[|n] IH]; intros base H0 H; [constructor| |].
  - constructor; [unfold is_u32, EOC; lia|constructor].
  - change (w_chain base (S (S n))) with (base + 1 :: w_chain (base + 1) (S n)). constructor; [unfold is_u32; lia|]. apply IH; lia.
Qed.

Lemma zlen_w_chains k l : 0 < k -> forall base, zlen (w_chains k base l) = w_blocks k l.
Proof.
  intros Hk. induction l as [|s l IH]; intros base; [reflexivity|]. cbn [w_chains].
  pose proof (blocks_nonneg k (zlen s) Hk (zlen_nonneg s)). rewrite zlen_app, IH, zlen_w_chain, w_blocks_cons by lia. reflexivity.
Qed.

Lemma w_chains_u32 k l : 0 < k -> forall base, 0 <= base -> base + w_blocks k l < 4294967296 -> Forall is_u32 (w_chains k base l).
Proof.
  intros Hk. induction l as [|s l IH]; intros base H0 H; [constructor|]. cbn [w_chains]. rewrite w_blocks_cons in H.
  pose proof (blocks_nonneg k (zlen s) Hk (zlen_nonneg s)). pose proof (w_blocks_nonneg k l Hk).
  apply Forall_app. split; [apply w_chain_u32; lia|apply IH; lia].
Qed.

(** A chain at its place in a table. *)
Definition chain_at (tbl : list Z) (base n : Z) : Prop :=
  exists pre post, tbl = pre ++ w_chain base (Z.to_nat n) ++ post /\ zlen pre = base.

Lemma chain_at_next tbl base n k : chain_at tbl base n -> 0 <= k < n ->
  znth tbl (base + k) = Some (if k =? n - 1 then EOC else base + k + 1).
Proof.
  intros (pre & post & -> & Hp) Hk. pose proof (zlen_nonneg pre).
  rewrite znth_app_r by lia. replace (base + k - zlen pre) with k by lia.
  rewrite znth_app_l by (rewrite zlen_w_chain; lia). unfold znth. replace (k <? 0) with false by lia.
  rewrite w_chain_nth by lia. do 2 f_equal.
  destruct (Nat.eqb (S (Z.to_nat k)) (Z.to_nat n)) eqn:E; destruct (k =? n - 1) eqn:E2; lia.
Qed.

Lemma chain_at_sector tbl base n k : chain_at tbl base n -> (Z.of_nat k < n) -> nth_sector tbl base k (base + Z.of_nat k).
Proof.
  intros HC. induction k as [|k IH]; intros Hk; [rewrite Z.add_0_r; constructor|].
  econstructor; [apply IH; lia|]. rewrite (chain_at_next tbl base n _ HC) by lia.
  destruct (Z.of_nat k =? n - 1) eqn:E; [lia|]. f_equal. lia.
Qed.

Lemma chain_at_end tbl base n : chain_at tbl base n -> 0 < n -> nth_sector tbl base (Z.to_nat n) EOC.
Proof.
  intros HC Hn. replace (Z.to_nat n) with (S (Z.to_nat (n - 1))) by lia.
  econstructor; [apply (chain_at_sector tbl base n _ HC); lia|]. rewrite (chain_at_next tbl base n _ HC) by lia.
  replace (Z.of_nat (Z.to_nat (n - 1)) =? n - 1) with true by lia. reflexivity.
Qed.

Lemma chain_at_inside tbl base n : chain_at tbl base n -> 0 <= n -> 0 <= base /\ base + n <= zlen tbl.
Proof.
  intros (pre & post & -> & Hp) Hn. pose proof (zlen_nonneg pre). pose proof (zlen_nonneg post).
  rewrite !zlen_app, zlen_w_chain by lia. lia.
Qed.

Lemma chain_at_only tbl base n k x : chain_at tbl base n -> 0 < n -> zlen tbl <= EOC -> nth_sector tbl base k x ->
  x = EOC \/ base <= x < base + n.
Proof.
  intros HC Hn Hlen H. pose proof (chain_at_inside _ _ _ HC ltac:(lia)) as Hin. induction H as [|k id id' H IH Hz]; [right; lia|].
  destruct IH as [->|IH].
  - apply znth_range in Hz. lia.
  - replace id with (base + (id - base)) in Hz by lia. rewrite (chain_at_next tbl base n _ HC) in Hz by lia. injection Hz as <-.
    destruct (id - base =? n - 1) eqn:E; [left; reflexivity|right; lia].
Qed.

(** * Pieces of lists *)
Lemma slice_all {A} (l : list A) n : zlen l = n -> slice l 0 n = l.
Proof. intros <-. unfold slice, zlen. cbn [skipn Z.to_nat]. apply firstn_all2. lia. Qed.

Lemma slice_skip {A} (a b : list A) p n : zlen a <= p -> slice (a ++ b) p n = slice b (p - zlen a) n.
Proof.
  intros H. pose proof (zlen_nonneg a). replace p with (zlen a + (p - zlen a)) at 1 by lia. apply slice_app_r. lia.
Qed.

Lemma slice_slice {A} (l : list A) a n p m : 0 <= a -> 0 <= p -> 0 <= m -> p + m <= n -> slice (slice l a n) p m = slice l (a + p) m.
Proof.
  intros Ha Hp Hm H. unfold slice. rewrite skipn_firstn_comm, firstn_firstn.
  rewrite Z2Nat.inj_add by lia.
  replace (Nat.min (Z.to_nat m) (Z.to_nat n - Z.to_nat p)) with (Z.to_nat m) by lia.
  f_equal. clear. generalize (Z.to_nat a) (Z.to_nat p). intros i j. revert l. induction i as [|i IH]; intros l; [reflexivity|].
  destruct l; [now rewrite !skipn_nil|]. cbn [skipn Nat.add]. apply IH.
Qed.

Lemma flat_map_ext_seq {A} (f g : nat -> list A) n : (forall k, (k < n)%nat -> f k = g k) ->
  flat_map f (seq 0 n) = flat_map g (seq 0 n).
Proof. intros H. apply flat_map_ext_in. intros k Hk. apply in_seq in Hk. apply H. lia. Qed.

Lemma pieces {A} (m : Z) n : forall (l : list A), 0 <= m -> zlen l = Z.of_nat n * m ->
  flat_map (fun k => slice l (Z.of_nat k * m) m) (seq 0 n) = l.
Proof.
  induction n as [|n IH]; intros l Hm Hl.
  - cbn. symmetry. apply zlen_0. lia.
  - rewrite seq_S, flat_map_app. cbn [flat_map Nat.add]. rewrite app_nil_r.
    assert (E : slice l 0 (Z.of_nat n * m) ++ slice l (Z.of_nat n * m) m = l).
    { replace (Z.of_nat n * m) with (0 + Z.of_nat n * m) at 2 by lia. rewrite slice_app_adjacent by lia. apply slice_all. lia. }
    rewrite <- E at 2. f_equal. rewrite <- (IH (slice l 0 (Z.of_nat n * m))) by (rewrite ?zlen_slice by lia; lia).
    apply flat_map_ext_seq. intros k Hk. rewrite slice_slice by nia. f_equal.
Qed.

(** * Sectors of a region *)
Section Region.
Variable f pre R post : list Z.
Variable ss base n : Z.
Hypothesis Hf : f = pre ++ R ++ post.
Hypothesis Hpre : zlen pre = (base + 1) * ss.
Hypothesis Hbase : 0 <= base.
Hypothesis Hn : 0 <= n.
Hypothesis Hlast : base + n < 4294967295.
Hypothesis Hss : 0 < ss.
Hypothesis HR : zlen R = n * ss.

Lemma region_sector k : 0 <= k < n -> sector_at f ss (base + k) = slice R (k * ss) ss.
Proof.
  intros Hk. unfold sector_at. rewrite Z.mod_small by lia. rewrite Hf.
  replace ((base + k + 1) * ss) with (zlen pre + k * ss) by nia. rewrite slice_app_r by nia.
  apply slice_app_l; nia.
Qed.

Lemma region_inside k : 0 <= k < n -> sector_inside f ss (base + k).
Proof.
  intros Hk. unfold sector_inside, request. cbn [fst]. rewrite Z.mod_small by lia. rewrite Hf, !zlen_app.
  pose proof (zlen_nonneg post). nia.
Qed.

Definition region_ids : list Z := map (fun k => base + Z.of_nat k) (seq 0 (Z.to_nat n)).

Lemma region_ids_length : length region_ids = Z.to_nat n.
Proof. unfold region_ids. now rewrite map_length, seq_length. Qed.

Lemma zlen_region_ids : zlen region_ids = n.
Proof. unfold zlen. rewrite region_ids_length. apply Z2Nat.id, Hn. Qed.

Lemma region_ids_nth k x : nth_error region_ids k = Some x -> x = base + Z.of_nat k /\ (k < Z.to_nat n)%nat.
Proof.
  intros H. assert (Hk : (k < Z.to_nat n)%nat) by (rewrite <- region_ids_length; apply nth_error_Some; congruence).
  unfold region_ids in H. rewrite nth_error_map, nth_error_seq in H by exact Hk. injection H as <-. auto.
Qed.

Lemma region_ids_NoDup : NoDup region_ids.
Proof. unfold region_ids. apply FinFun.Injective_map_NoDup; [intros a b H; lia|apply seq_NoDup]. Qed.

Lemma region_ids_In x : In x region_ids -> base <= x < base + n.
Proof. unfold region_ids. intros H. apply in_map_iff in H as (k & <- & Hk). apply in_seq in Hk. lia. Qed.

Lemma region_all_inside : Forall (sector_inside f ss) region_ids.
Proof.
  apply Forall_forall. intros x Hx. apply region_ids_In in Hx. replace x with (base + (x - base)) by lia. apply region_inside. lia.
Qed.

Lemma region_bytes : bytes_of_sectors f ss region_ids = R.
Proof.
  unfold bytes_of_sectors, region_ids. rewrite flat_map_map. rewrite <- (pieces ss (Z.to_nat n) R) by lia.
  apply flat_map_ext_seq. intros k Hk. apply region_sector. lia.
Qed.

Lemma region_byte i b : znth R i = Some b -> znth f ((base + 1) * ss + i) = Some b.
Proof.
  intros H. pose proof (znth_range _ _ _ H) as Hr. rewrite Hf, <- Hpre. pose proof (zlen_nonneg pre). rewrite znth_app_r by lia.
  replace (zlen pre + i - zlen pre) with i by lia. rewrite znth_app_l by lia. exact H.
Qed.
End Region.

(** * Tables *)
Lemma zlen_w_table fm l : zlen (w_table fm l) = 4 * zlen l.
Proof.
  unfold w_table. induction l as [|x l IH]; [reflexivity|]. cbn [map concat].
  rewrite zlen_app, IH, zlen_bytes_of, zlen_cons. lia.
Qed.

Lemma w_table_app fm a b : w_table fm (a ++ b) = w_table fm a ++ w_table fm b.
Proof. unfold w_table. now rewrite map_app, concat_app. Qed.

Lemma w_table_bytes fm l : Forall is_byte (w_table fm l).
Proof. unfold w_table. induction l; cbn; [constructor|]. apply Forall_app. split; [apply bytes_of_byte|assumption]. Qed.

Lemma slice_w_table fm l p n : 0 <= p -> 0 <= n -> p + n <= zlen l ->
  slice (w_table fm l) (4 * p) (4 * n) = w_table fm (slice l p n).
Proof.
  intros Hp Hn H.
  assert (E : l = slice l 0 p ++ slice l p n ++ slice l (p + n) (zlen l - (p + n))).
  { assert (E1 : slice l 0 p ++ slice l p n = slice l 0 (p + n)) by (rewrite <- (Z.add_0_l p) at 2; apply slice_app_adjacent; lia).
    rewrite app_assoc, E1. rewrite <- (Z.add_0_l (p + n)) at 2. rewrite slice_app_adjacent by lia. symmetry. apply slice_all. lia. }
  rewrite E at 1. rewrite !w_table_app. apply slice_part; rewrite zlen_w_table, zlen_slice by lia; lia.
Qed.

Lemma words_w_table fm l : Forall is_u32 l -> words (fm_order fm) (w_table fm l) = l.
Proof.
  intros H. rewrite words_values.
  pose proof (values_from_encoded (fm_order fm) l H [] []) as E. 
  assert (Hl : (length (w_table fm l) / 4)%nat = length l).
  { pose proof (zlen_w_table fm l) as Hz. unfold zlen in Hz. replace (length (w_table fm l)) with (length l * 4)%nat by lia.
    apply Nat.div_mul. lia. }
  rewrite Hl. unfold w_table. cbn [app] in E. rewrite app_nil_r in E. exact E.
Qed.
