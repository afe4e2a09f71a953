(** Concrete files: any bytes as the stream of a file whose sectors follow
    each other.  Shows that the hypotheses on contents can always be met. *)
From Coq Require Import ZArith List Bool Lia.
From Verif Require Import Base Spec_IO M_Table M_Load M_Stream Spec_Stream Spec_Content L_Base.
Import ListNotations.
Open Scope Z_scope.

(** Number of sectors of 512 bytes. *)
Definition sectors (s : list Z) : nat := Z.to_nat ((zlen s + 511) / 512).

(** Each sector is followed by the next, the last one ends the chain. *)
Fixpoint line_sat (k n : nat) : list Z :=
  match n with
  | O => []
  | S O => [4294967294]
  | S n => Z.of_nat (S k) :: line_sat (S k) n
  end.

Definition line_volume (s : list Z) : volume :=
  {| v_byte_order := Little; v_sector_size := 512; v_short_sector_size := 64;
     v_minimum_size := 0; v_container_start := 4294967294;
     v_sat := line_sat 0 (sectors s); v_ssat := [] |}.

Definition line_file (s : list Z) : list Z := zeros 512 ++ s.

Definition line_dirent (s : list Z) : dirent :=
  {| de_id := 1; de_type := 2; de_name := []; de_prev := 4294967295;
     de_next := 4294967295; de_sub := 4294967295; de_ctime := 0; de_mtime := 0;
     de_sector := 0; de_size := zlen s |}.

Lemma line_sat_length n : forall k, length (line_sat k n) = n.
Proof.
  induction n as [|[|n] IH]; intros k; auto.
  change (line_sat k (S (S n))) with (Z.of_nat (S k) :: line_sat (S k) (S n)).
  cbn [length]. now rewrite IH.
Qed.

Lemma line_sat_nth n : forall k i, (S i < n)%nat ->
  nth_error (line_sat k n) i = Some (Z.of_nat (S (k + i))).
Proof.
  induction n as [|[|n] IH]; intros k i Hi; try lia.
  change (line_sat k (S (S n))) with (Z.of_nat (S k) :: line_sat (S k) (S n)).
  destruct i as [|i]; [simpl nth_error; do 2 f_equal; lia|].
  cbn [nth_error]. rewrite IH by lia. do 2 f_equal. lia.
Qed.

Lemma line_sat_u32 n : forall k, Z.of_nat k + Z.of_nat n < 4294967296 ->
  Forall is_u32 (line_sat k n).
Proof.
  induction n as [|[|n] IH]; intros k Hk.
  - constructor.
  - constructor; [unfold is_u32; lia|constructor].
  - change (line_sat k (S (S n))) with (Z.of_nat (S k) :: line_sat (S k) (S n)).
    constructor; [unfold is_u32; lia|]. apply IH. lia.
Qed.

Lemma sectors_bound s : 512 * (Z.of_nat (sectors s) - 1) < zlen s \/ sectors s = O.
Proof.
  unfold sectors. pose proof (zlen_nonneg s).
  assert (0 <= (zlen s + 511) / 512) by (apply Z.div_pos; lia).
  pose proof (Z.mul_div_le (zlen s + 511) 512 ltac:(lia)).
  destruct (Z.eq_dec ((zlen s + 511) / 512) 0) as [E|E]; [right; rewrite E; reflexivity|left; lia].
Qed.

Lemma sectors_enough s i : 0 <= i < zlen s -> i / 512 < Z.of_nat (sectors s).
Proof.
  intros Hi. unfold sectors.
  assert (0 <= (zlen s + 511) / 512) by (apply Z.div_pos; lia).
  rewrite Z2Nat.id by lia.
  apply Z.div_lt_upper_bound; [lia|].
  pose proof (Z.mod_pos_bound (zlen s + 511) 512 ltac:(lia)).
  pose proof (Z.div_mod (zlen s + 511) 512 ltac:(lia)). lia.
Qed.

Lemma line_sector s k : (k < sectors s)%nat ->
  nth_sector (line_sat 0 (sectors s)) 0 k (Z.of_nat k).
Proof.
  induction k as [|k IH]; intros Hk; [constructor|].
  econstructor; [apply IH; lia|].
  unfold znth. rewrite (proj2 (Z.ltb_ge (Z.of_nat k) 0)) by lia. rewrite Nat2Z.id.
  rewrite line_sat_nth by lia. reflexivity.
Qed.

Section Line.
Variable s : list Z.
Hypothesis Hs : zlen s <= 4294967295.

Lemma line_volume_ok : volume_ok (line_volume s).
Proof.
  assert (Hn : Z.of_nat (sectors s) <= 8388608).
  { destruct (sectors_bound s) as [H|H]; lia. }
  constructor; cbn [line_volume v_sector_size v_short_sector_size v_minimum_size
    v_container_start v_sat v_ssat]; try (unfold is_u32; lia).
  - exists 9. split; [lia|reflexivity].
  - exists 6. split; [lia|reflexivity].
  - apply line_sat_u32. lia.
  - constructor.
  - unfold zlen. rewrite line_sat_length. lia.
  - unfold zlen. simpl. lia.
Qed.

Lemma line_dirent_ok : dirent_ok (line_dirent s).
Proof.
  pose proof (zlen_nonneg s).
  constructor; unfold is_u32; cbn [line_dirent de_sector de_size]; lia.
Qed.

Lemma line_short : (de_size (line_dirent s) <? v_minimum_size (line_volume s)) = false.
Proof. pose proof (zlen_nonneg s). apply Z.ltb_ge. cbn. lia. Qed.

Lemma line_short_ok : short_ok (line_volume s) (line_dirent s).
Proof. intros H. apply Z.ltb_lt in H. rewrite line_short in H. discriminate. Qed.

Lemma line_intact : intact (line_volume s) (line_dirent s).
Proof.
  unfold intact. rewrite line_short. cbn [line_volume line_dirent v_sector_size v_sat de_size de_sector].
  intros i Hi. pose proof (sectors_enough s i Hi) as Hk.
  assert (H0 : 0 <= i / 512) by (apply Z.div_pos; lia).
  unfold zlen at 1 2. rewrite line_sat_length.
  split; [exact Hk|]. exists (i / 512). split; [|lia].
  pose proof (line_sector s (Z.to_nat (i / 512)) ltac:(lia)) as H.
  rewrite Z2Nat.id in H by lia. exact H.
Qed.

Lemma line_contents : contents (line_file s) (line_volume s) (line_dirent s) s.
Proof.
  split; [reflexivity|]. split; [reflexivity|].
  intros i b Hb. pose proof (znth_range _ _ _ Hb) as Hi.
  exists (512 + i). split.
  - unfold stream_position. rewrite line_short.
    cbn [line_volume line_dirent v_sector_size v_sat de_sector].
    exists (i / 512). split.
    + pose proof (sectors_enough s i Hi).
      assert (H0 : 0 <= i / 512) by (apply Z.div_pos; lia).
      pose proof (line_sector s (Z.to_nat (i / 512)) ltac:(lia)) as H1.
      rewrite Z2Nat.id in H1 by lia. exact H1.
    + pose proof (Z.div_mod i 512 ltac:(lia)). lia.
  - unfold line_file. assert (E : zlen (zeros 512) = 512) by (apply zlen_zeros; lia).
    rewrite znth_app_r by lia. rewrite E. replace (512 + i - 512) with i by lia. exact Hb.
Qed.

Lemma line_bytes : Forall is_byte s -> Forall is_byte (line_file s).
Proof.
  intros H. apply Forall_app. split; [|exact H]. apply Forall_zeros. unfold is_byte. lia.
Qed.
End Line.

Lemma line_readable s : zlen s <= 4294967295 -> Forall is_byte s ->
  is_readable_stream (file_reader (line_file s)) (line_volume s) (line_dirent s) s.
Proof.
  intros Hs HB. split; [apply line_volume_ok, Hs|]. split; [apply line_dirent_ok, Hs|].
  split; [apply line_short_ok|]. split; [exact HB|]. split; [apply line_intact|].
  exists (line_file s). split; [apply file_reader_sound|]. split; [apply file_reader_total|].
  apply line_contents.
Qed.

Lemma readable_is_stream rd v d s : is_readable_stream rd v d s -> is_stream rd v d s.
Proof.
  intros (H1 & H2 & H3 & H4 & _ & f & H5 & _ & H6). unfold is_stream. eauto 10.
Qed.
