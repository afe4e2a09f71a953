(** UTF-8 written out, as an instance of the functions of libuna that the mount
    tool uses. *)
From Coq Require Import ZArith List Bool Lia.
From Verif Require Import Base M_Load M_Tree M_Item M_Mount Spec_Tree Spec_Item Spec_Mount L_Mount.
Import ListNotations.
Open Scope Z_scope.

Definition utf8_encode (c : Z) : res (list Z) :=
  if c <? 0 then Err
  else if c <? 128 then Ok [c]
  else if c <? 2048 then Ok [192 + c / 64; 128 + c mod 64]
  else if c <? 65536 then Ok [224 + c / 4096; 128 + (c / 64) mod 64; 128 + c mod 64]
  else if c <? 1114112 then Ok [240 + c / 262144; 128 + (c / 4096) mod 64; 128 + (c / 64) mod 64; 128 + c mod 64]
  else Err.

Definition tail_byte (s : list Z) (i : Z) : res Z :=
  match znth s i with
  | Some b => if (128 <=? b) && (b <? 192) then Ok (b - 128) else Err
  | None => Err
  end.

Definition utf8_decode (s : list Z) (i : Z) : res (Z * Z) :=
  match znth s i with
  | None => Err
  | Some b =>
      if b <? 0 then Err
      else if b <? 128 then Ok (b, i + 1)
      else if b <? 192 then Err
      else if b <? 224 then do b1 <- tail_byte s (i + 1); Ok ((b - 192) * 64 + b1, i + 2)
      else if b <? 240 then
        do b1 <- tail_byte s (i + 1); do b2 <- tail_byte s (i + 2);
        Ok ((b - 224) * 4096 + b1 * 64 + b2, i + 3)
      else if b <? 248 then
        do b1 <- tail_byte s (i + 1); do b2 <- tail_byte s (i + 2); do b3 <- tail_byte s (i + 3);
        Ok ((b - 240) * 262144 + b1 * 4096 + b2 * 64 + b3, i + 4)
      else Err
  end.

Definition utf8 : codec := {| cd_decode := utf8_decode; cd_encode := utf8_encode |}.

Lemma znth_at {A} (pre l : list A) k : 0 <= k -> znth (pre ++ l) (zlen pre + k) = nth_error l (Z.to_nat k).
Proof.
  intros Hk. unfold znth. pose proof (zlen_pos pre). replace (zlen pre + k <? 0) with false by (symmetry; apply Z.ltb_ge; lia).
  unfold zlen. rewrite nth_error_app2 by lia. f_equal. lia.
Qed.

Lemma tail_at pre l k b : 0 <= k -> nth_error l (Z.to_nat k) = Some (128 + b) -> 0 <= b < 64 ->
  tail_byte (pre ++ l) (zlen pre + k) = Ok b.
Proof.
  intros Hk Hl Hb. unfold tail_byte. rewrite znth_at, Hl by exact Hk.
  replace (128 <=? 128 + b) with true by (symmetry; apply Z.leb_le; lia).
  replace (128 + b <? 192) with true by (symmetry; apply Z.ltb_lt; lia). cbn [andb]. f_equal. lia.
Qed.

Lemma tail_range s i b : tail_byte s i = Ok b -> 0 <= b < 64 /\ i < zlen s.
Proof.
  unfold tail_byte, znth. destruct (i <? 0) eqn:E0; [discriminate|]. apply Z.ltb_ge in E0.
  destruct (nth_error s (Z.to_nat i)) as [x|] eqn:En; [|discriminate].
  destruct ((128 <=? x) && (x <? 192)) eqn:E; [|discriminate]. apply andb_prop in E as [E1 E2].
  apply Z.leb_le in E1. apply Z.ltb_lt in E2. intros [= <-].
  assert (Z.to_nat i < length s)%nat by (apply nth_error_Some; congruence). unfold zlen. lia.
Qed.

Lemma tail_defined s i : tail_byte s i = Err \/ exists b, tail_byte s i = Ok b.
Proof.
  unfold tail_byte. destruct (znth s i) as [b|]; [|auto]. destruct ((128 <=? b) && (b <? 192)); eauto.
Qed.

Ltac ltb := repeat match goal with
  | H : (_ <? _) = true |- _ => apply Z.ltb_lt in H
  | H : (_ <? _) = false |- _ => apply Z.ltb_ge in H end.

Lemma decode_cases s i : 0 <= i -> utf8_decode s i = Err \/
  exists c i', utf8_decode s i = Ok (c, i') /\ i < i' <= zlen s /\ 0 <= c < 2097152.
Proof.
  intros Hi. unfold utf8_decode. destruct (znth s i) as [b|] eqn:En; [|auto].
  assert (i < zlen s).
  { unfold znth in En. destruct (i <? 0) eqn:E0; [discriminate|].
    assert (Z.to_nat i < length s)%nat by (apply nth_error_Some; congruence). unfold zlen. lia. }
  destruct (b <? 0) eqn:E0; [auto|]. destruct (b <? 128) eqn:E1; ltb; [right; do 2 eexists; split; [reflexivity|lia]|].
  destruct (b <? 192) eqn:E2; [auto|]. destruct (b <? 224) eqn:E3; ltb.
  { destruct (tail_defined s (i + 1)) as [->|[b1 H1]]; [auto|]. rewrite H1. apply tail_range in H1. cbn [rbind].
    right; do 2 eexists; split; [reflexivity|lia]. }
  destruct (b <? 240) eqn:E4; ltb.
  { destruct (tail_defined s (i + 1)) as [->|[b1 H1]]; [auto|]. rewrite H1. apply tail_range in H1. cbn [rbind].
    destruct (tail_defined s (i + 2)) as [->|[b2 H2]]; [auto|]. rewrite H2. apply tail_range in H2. cbn [rbind].
    right; do 2 eexists; split; [reflexivity|lia]. }
  destruct (b <? 248) eqn:E5; ltb; [|auto].
  destruct (tail_defined s (i + 1)) as [->|[b1 H1]]; [auto|]. rewrite H1. apply tail_range in H1. cbn [rbind].
  destruct (tail_defined s (i + 2)) as [->|[b2 H2]]; [auto|]. rewrite H2. apply tail_range in H2. cbn [rbind].
  destruct (tail_defined s (i + 3)) as [->|[b3 H3]]; [auto|]. rewrite H3. apply tail_range in H3. cbn [rbind].
  right; do 2 eexists; split; [reflexivity|lia].
Qed.

Lemma first_at (pre : list Z) b post : znth (pre ++ b :: post) (zlen pre) = Some b.
Proof. rewrite <- (Z.add_0_r (zlen pre)). rewrite znth_at by lia. reflexivity. Qed.

Lemma ok_inj {A} (a b : A) : Ok a = Ok b -> b = a.
Proof. congruence. Qed.
Lemma ok_pair (a b a' b' : Z) : a = a' -> b = b' -> Ok (a, b) = Ok (a', b').
Proof. intros -> ->. reflexivity. Qed.

Lemma encode_is_char c units : utf8_encode c = Ok units -> is_char utf8_decode units c.
Proof.
  unfold utf8_encode. intros H. destruct (c <? 0) eqn:E0; [discriminate|]. ltb.
  pose proof (Z.mod_pos_bound c 64 ltac:(lia)). pose proof (Z.mod_pos_bound (c / 64) 64 ltac:(lia)).
  pose proof (Z.mod_pos_bound (c / 4096) 64 ltac:(lia)). pose proof (Z.div_mod c 64 ltac:(lia)).
  pose proof (Z.div_mod (c / 64) 64 ltac:(lia)) as D1. rewrite Z.div_div in D1 by lia. change (64 * 64) with 4096 in D1.
  pose proof (Z.div_mod (c / 4096) 64 ltac:(lia)) as D2. rewrite Z.div_div in D2 by lia. change (4096 * 64) with 262144 in D2.
  destruct (c <? 128) eqn:E1; ltb.
  { apply ok_inj in H; subst units. split; [discriminate|]. intros pre post. unfold utf8_decode. cbn [app]. rewrite first_at. cbv beta iota.
    replace (c <? 0) with false by (symmetry; apply Z.ltb_ge; lia).
    replace (c <? 128) with true by (symmetry; apply Z.ltb_lt; lia). reflexivity. }
  destruct (c <? 2048) eqn:E2; ltb.
  { apply ok_inj in H; subst units. split; [discriminate|]. intros pre post. unfold utf8_decode. cbn [app]. rewrite first_at. cbv beta iota.
    assert (c / 64 < 32) by (apply Z.div_lt_upper_bound; lia). assert (0 <= c / 64) by (apply Z.div_pos; lia).
    replace (192 + c / 64 <? 0) with false by (symmetry; apply Z.ltb_ge; lia).
    replace (192 + c / 64 <? 128) with false by (symmetry; apply Z.ltb_ge; lia).
    replace (192 + c / 64 <? 192) with false by (symmetry; apply Z.ltb_ge; lia).
    replace (192 + c / 64 <? 224) with true by (symmetry; apply Z.ltb_lt; lia).
    rewrite (tail_at _ _ 1 (c mod 64)) by (try lia; reflexivity). cbn [rbind]. apply ok_pair; [lia|reflexivity]. }
  destruct (c <? 65536) eqn:E3; ltb.
  { apply ok_inj in H; subst units. split; [discriminate|]. intros pre post. unfold utf8_decode. cbn [app]. rewrite first_at. cbv beta iota.
    assert (c / 4096 < 16) by (apply Z.div_lt_upper_bound; lia). assert (0 <= c / 4096) by (apply Z.div_pos; lia).
    replace (224 + c / 4096 <? 0) with false by (symmetry; apply Z.ltb_ge; lia).
    replace (224 + c / 4096 <? 128) with false by (symmetry; apply Z.ltb_ge; lia).
    replace (224 + c / 4096 <? 192) with false by (symmetry; apply Z.ltb_ge; lia).
    replace (224 + c / 4096 <? 224) with false by (symmetry; apply Z.ltb_ge; lia).
    replace (224 + c / 4096 <? 240) with true by (symmetry; apply Z.ltb_lt; lia).
    rewrite (tail_at _ _ 1 (c / 64 mod 64)) by (try lia; reflexivity).
    rewrite (tail_at _ _ 2 (c mod 64)) by (try lia; reflexivity). cbn [rbind]. apply ok_pair; [lia|reflexivity]. }
  destruct (c <? 1114112) eqn:E4; ltb; [|discriminate].
  apply ok_inj in H; subst units. split; [discriminate|]. intros pre post. unfold utf8_decode. cbn [app]. rewrite first_at. cbv beta iota.
  assert (c / 262144 < 5) by (apply Z.div_lt_upper_bound; lia). assert (0 <= c / 262144) by (apply Z.div_pos; lia).
  replace (240 + c / 262144 <? 0) with false by (symmetry; apply Z.ltb_ge; lia).
  replace (240 + c / 262144 <? 128) with false by (symmetry; apply Z.ltb_ge; lia).
  replace (240 + c / 262144 <? 192) with false by (symmetry; apply Z.ltb_ge; lia).
  replace (240 + c / 262144 <? 224) with false by (symmetry; apply Z.ltb_ge; lia).
  replace (240 + c / 262144 <? 240) with false by (symmetry; apply Z.ltb_ge; lia).
  replace (240 + c / 262144 <? 248) with true by (symmetry; apply Z.ltb_lt; lia).
  rewrite (tail_at _ _ 1 (c / 4096 mod 64)) by (try lia; reflexivity).
  rewrite (tail_at _ _ 2 (c / 64 mod 64)) by (try lia; reflexivity).
  rewrite (tail_at _ _ 3 (c mod 64)) by (try lia; reflexivity). cbn [rbind]. apply ok_pair; [lia|reflexivity].
Qed.

Lemma utf8_ok : codec_ok utf8.
Proof.
  constructor; cbn [cd_decode cd_encode utf8].
  - intros s i Hi. destruct (decode_cases s i) as [H|(c & i' & H & Hi' & _)]; [lia|auto|right; eauto].
  - intros s i c i' H. destruct (Z_lt_le_dec i 0) as [L|L].
    + unfold utf8_decode, znth in H. replace (i <? 0) with true in H by (symmetry; apply Z.ltb_lt; lia). discriminate.
    + destruct (decode_cases s i L) as [H'|(c' & i'' & H' & _ & Hc)]; rewrite H' in H; [discriminate|]. injection H as <- <-. lia.
  - intros c. unfold utf8_encode.
    destruct (c <? 0); [exact I|]. destruct (c <? 128); [exact I|]. destruct (c <? 2048); [exact I|].
    destruct (c <? 65536); [exact I|]. destruct (c <? 1114112); exact I.
  - exact encode_is_char.
  - intros c Hc. unfold utf8_encode. replace (c <? 0) with false by (symmetry; apply Z.ltb_ge; lia).
    replace (c <? 128) with true by (symmetry; apply Z.ltb_lt; lia). reflexivity.
  - intros c units H Hc. unfold utf8_encode in H.
    pose proof (Z.mod_pos_bound c 64 ltac:(lia)). pose proof (Z.mod_pos_bound (c / 64) 64 ltac:(lia)).
    pose proof (Z.mod_pos_bound (c / 4096) 64 ltac:(lia)).
    destruct (c <? 0) eqn:E0; [discriminate|]. destruct (c <? 128) eqn:E1; [ltb; lia|].
    destruct (c <? 2048) eqn:E2; ltb.
    { apply ok_inj in H; subst units. assert (c / 64 < 32) by (apply Z.div_lt_upper_bound; lia). assert (0 <= c / 64) by (apply Z.div_pos; lia).
      repeat (apply Forall_cons; [lia|]); apply Forall_nil. }
    destruct (c <? 65536) eqn:E3; ltb.
    { apply ok_inj in H; subst units. assert (c / 4096 < 16) by (apply Z.div_lt_upper_bound; lia). assert (0 <= c / 4096) by (apply Z.div_pos; lia).
      repeat (apply Forall_cons; [lia|]); apply Forall_nil. }
    destruct (c <? 1114112) eqn:E4; ltb; [|discriminate].
    apply ok_inj in H; subst units. assert (c / 262144 < 5) by (apply Z.div_lt_upper_bound; lia). assert (0 <= c / 262144) by (apply Z.div_pos; lia).
    repeat (apply Forall_cons; [lia|]); apply Forall_nil.
  - intros c units H. unfold utf8_encode in H. destruct (c <? 0); [discriminate|].
    destruct (c <? 128) eqn:E1; [injection H as <-; cbn; lia|].
    destruct (c <? 2048) eqn:E2; [injection H as <-; cbn; lia|]. ltb.
    destruct (c <? 65536) eqn:E3; [injection H as <-; cbn; lia|].
    destruct (c <? 1114112) eqn:E4; [injection H as <-; cbn; lia|discriminate].
Qed.
