(** Lemmas on the Python objects for property sets. *)
From Coq Require Import ZArith List Bool Lia.
From Verif Require Import Base Spec_IO M_Table M_Load M_Stream Spec_Stream Spec_Content
  M_Prop Spec_Prop L_Base L_Prop L_Prop2 L_Prop3 M_Time Spec_Time L_Time P_Time M_Python M_PyProp
  Spec_PyProp.
From Verif Require M_Items.
Import ListNotations.
Open Scope Z_scope.

Lemma field_bytes s off n l : Forall is_byte s -> field s off n l -> Forall is_byte l.
Proof.
  intros HB (_ & _ & _ & ->). now apply Forall_slice.
Qed.

(** * GUIDs *)
Lemma hex_digit_ascii x : 0 <= x < 16 -> 0 < hex_digit x < 128.
Proof. unfold hex_digit. destruct (x <? 10) eqn:E; lia. Qed.

Lemma hex_bytes_ascii l order : Forall is_byte l ->
  Forall (fun c => 0 < c < 128) (hex_bytes l order).
Proof.
  intros HB. unfold hex_bytes. induction order as [|i order IH]; cbn [map concat]; [constructor|].
  assert (Hb : 0 <= nth i l 0 < 256).
  { destruct (Nat.lt_ge_cases i (length l)) as [H|H].
    - rewrite Forall_forall in HB. apply HB. now apply nth_In.
    - rewrite nth_overflow by lia. lia. }
  apply Forall_app. split; [|exact IH]. unfold hex_byte.
  assert (0 <= nth i l 0 / 16 < 16) by (split; [apply Z.div_pos; lia|apply Z.div_lt_upper_bound; lia]).
  assert (0 <= nth i l 0 mod 16 < 16) by (apply Z.mod_pos_bound; lia).
  repeat constructor; now apply hex_digit_ascii.
Qed.

Lemma guid_text_ascii l : Forall is_byte l -> Forall (fun c => 0 < c < 128) (guid_text l).
Proof.
  intros HB. unfold guid_text.
  assert (Hd : Forall (fun c => 0 < c < 128) [45]) by (constructor; [lia|constructor]).
  repeat (apply Forall_app; split; [first [now apply hex_bytes_ascii|exact Hd]|]).
  now apply hex_bytes_ascii.
Qed.

Lemma guid_text_len l : zlen (guid_text l) = 36.
Proof. reflexivity. Qed.

Lemma slice_prefix {A} (a b : list A) : slice (a ++ b) 0 (zlen a) = a.
Proof.
  unfold slice, zlen. rewrite Nat2Z.id. cbn [Z.to_nat skipn].
  rewrite firstn_app, Nat.sub_diag, firstn_all. cbn [firstn]. apply app_nil_r.
Qed.

Lemma guid_answer_ok lib text l : proplib_ok lib text -> zlen l = 16 -> Forall is_byte l ->
  guid_answer lib l = QText (guid_text l).
Proof.
  intros HP Hl HB. unfold guid_answer.
  destruct (pk_guid _ _ HP l Hl HB) as (rest & ->).
  rewrite (proj2 (Z.ltb_ge (zlen (guid_text l ++ rest)) 36))
    by (rewrite zlen_app, guid_text_len; unfold zlen; lia).
  rewrite <- (guid_text_len l), slice_prefix.
  rewrite (pk_ascii _ _ HP) by now apply guid_text_ascii. reflexivity.
Qed.

(** * Numbers *)
Lemma signed_16 e l : zlen l = 2 -> Forall is_byte l -> s16 (number_in e l) = signed_in e l.
Proof.
  intros Hl HB. pose proof (number_in_range e l HB) as Hr. rewrite Hl in Hr.
  change (256 ^ 2) with 65536 in Hr.
  unfold s16, signed_in. rewrite Hl. change (2 ^ (8 * 2 - 1)) with 32768. change (2 ^ (8 * 2)) with 65536.
  destruct (Z.ltb_spec (number_in e l) 32768).
  - rewrite Z.mod_small by lia. lia.
  - rewrite <- (Z.mod_add _ (-1)) by lia. rewrite Z.mod_small by lia. lia.
Qed.

Lemma signed_32 e l : zlen l = 4 -> Forall is_byte l -> s32 (number_in e l) = signed_in e l.
Proof.
  intros Hl HB. pose proof (number_in_range e l HB) as Hr. rewrite Hl in Hr.
  change (256 ^ 4) with 4294967296 in Hr.
  unfold signed_in. rewrite Hl.
  change (2 ^ (8 * 4 - 1)) with 2147483648. change (2 ^ (8 * 4)) with 4294967296.
  unfold s32, TWO32, INT_MAX. rewrite Z.mod_small by lia.
  destruct (Z.ltb_spec (number_in e l) 2147483648), (Z.leb_spec (number_in e l) 2147483647); lia.
Qed.

Lemma signed_64 e l : zlen l = 8 -> Forall is_byte l -> s64 (number_in e l) = signed_in e l.
Proof.
  intros Hl HB. pose proof (number_in_range e l HB) as Hr. rewrite Hl in Hr.
  change (256 ^ 8) with 18446744073709551616 in Hr.
  unfold signed_in. rewrite Hl.
  change (2 ^ (8 * 8 - 1)) with 9223372036854775808. change (2 ^ (8 * 8)) with 18446744073709551616.
  unfold s64, INT64_MAX. rewrite Z.mod_small by lia.
  destruct (Z.ltb_spec (number_in e l) 9223372036854775808),
    (Z.leb_spec (number_in e l) 9223372036854775807); lia.
Qed.

Lemma unsigned_ok x : 0 <= x < 2 ^ 64 -> u64 (s64 x) = x.
Proof.
  change (2 ^ 64) with 18446744073709551616. intros H.
  unfold u64, s64. rewrite (Z.mod_small x) by lia.
  destruct (x <=? INT64_MAX); [now rewrite Z.mod_small by lia|].
  rewrite <- (Z.mod_add _ 1) by lia. rewrite Z.mod_small by lia. lia.
Qed.

Lemma unsigned_s64 x : u64 (s64 (s64 x)) = u64 (s64 x).
Proof.
  f_equal. unfold s64, INT64_MAX. pose proof (Z.mod_pos_bound x 18446744073709551616 ltac:(lia)) as H.
  set (y := x mod 18446744073709551616) in *.
  destruct (Z.leb_spec y 9223372036854775807).
  - rewrite (Z.mod_small y) by lia. rewrite (proj2 (Z.leb_le y 9223372036854775807)) by lia. reflexivity.
  - rewrite <- (Z.mod_add _ 1) by lia. rewrite (Z.mod_small (y - _ + _)) by lia.
    replace (y - 18446744073709551616 + 1 * 18446744073709551616) with y by lia.
    rewrite (proj2 (Z.leb_gt y 9223372036854775807)) by lia. reflexivity.
Qed.

(** * Values *)
Lemma value_facts lib v d cp s x k sec j p :
  got lib v d cp s x -> znth (ps_sections x) k = Some sec -> znth (sc_properties sec) j = Some p ->
  Forall is_byte s /\
  (exists base rel, u32_at s (ps_order x) (44 + 20 * k) base /\
     u32_at s (ps_order x) (base + 8 + 8 * j) (pv_id p) /\
     u32_at s (ps_order x) (base + 12 + 8 * j) rel /\ 8 < rel /\
     value_at s (ps_order x) ((base + rel) mod 4294967296) (pv_type p) (stored p)) /\
  handed cp (ps_order x) (pv_type p) (pv_value p).
Proof.
  intros (rd & c & t & c' & t' & (HV & HD & Hsh & HB & f & HS & HC) & H) Hk Hj.
  destruct (get_set_sound f rd v d s HS HV HD Hsh HC (pl_values lib) cp HB c t x c' t' H) as (Hset & Hh).
  split; [exact HB|]. split; [|exact (Hh _ _ _ _ Hk Hj)].
  destruct Hset as (_ & _ & _ & Hall). destruct (Hall _ _ Hk) as (base & _ & Hb & _ & Hn & Hp).
  destruct (Hp _ _ Hj) as (rel & H1 & H2 & H3 & H4). exists base, rel. auto.
Qed.

Lemma in_set_at x p : in_set x p -> exists k sec j,
  znth (ps_sections x) k = Some sec /\ znth (sc_properties sec) j = Some p.
Proof.
  intros (sec & Hs & Hp). destruct (In_znth _ _ Hs) as (k & Hk). destruct (In_znth _ _ Hp) as (j & Hj).
  exists k, sec, j. auto.
Qed.

Lemma data_ok_answer lib text p : proplib_ok lib text ->
  value_step lib p CallData = data_answer (stored p).
Proof.
  intros HP. cbn [value_step]. unfold get_data_size, get_data, on_value, stored, data_answer.
  destruct (pv_value p) as [w|]; [|reflexivity].
  rewrite (pk_size _ _ HP). fold (data_of w).
  destruct (Z.eqb_spec (zlen (data_of w)) 0) as [E|E].
  - destruct (data_of w) as [|b l]; [reflexivity|]. unfold zlen in E. cbn [length] in E. lia.
  - rewrite (pk_copy _ _ HP). rewrite Z.ltb_irrefl. unfold slice, zlen. rewrite Nat2Z.id.
    cbn [Z.to_nat skipn]. rewrite firstn_all.
    destruct (data_of w) as [|b l]; [|reflexivity]. unfold zlen in E. cbn [length] in E. lia.
Qed.

(** The bytes of a value with a fixed size. *)
Lemma fixed_field s e off t n st : value_at s e off t st -> In (t, n) fixed_types ->
  exists l, st = Some l /\ field s (off + 4) n l.
Proof.
  intros Hv Hin. pose proof (fixed_not _ _ Hin) as (N1 & N2 & N3 & N4).
  destruct Hv as [t m l U I F|t m l U I N L F|m raw l U N L F C|m m' raw l U N M Z L F C|t m last U T N V|t U I1 I2 I3 I4 I5 I6];
    try congruence.
  - rewrite (fixed_types_fun _ _ _ Hin I). eauto.
  - exfalso. eapply fixed_not_sized; eauto.
  - exfalso. destruct T; congruence.
  - exfalso. apply I1. apply in_map_iff. exists (t, n). auto.
Qed.

(** The number of a value with a fixed size. *)
Lemma fixed_number lib text cp e p s off k n :
  proplib_ok lib text -> Forall is_byte s ->
  value_at s e off (pv_type p) (stored p) -> handed cp e (pv_type p) (pv_value p) ->
  In (pv_type p, n) fixed_types -> shape_of cp e (pv_type p) = Fixed k n ->
  In (k, 8 * n) [(FvBoolean, 8); (FvInteger16, 16); (FvInteger32, 32);
                 (FvInteger64, 64); (FvFiletime, 64)] ->
  exists l, field s (off + 4) n l /\ zlen l = n /\ Forall is_byte l /\
    0 <= number_in e l < 256 ^ n /\
    on_value p (lib_bits (pl_values lib) (8 * n)) = Ok (number_in e l).
Proof.
  intros HP HB Hv Hh Hin Hsh Hk.
  destruct (bits_of (pl_values lib) cp e p k n (pk_decodes _ _ HP) Hh Hsh Hk) as (l & H1 & H2 & H3).
  destruct (fixed_field _ _ _ _ _ _ Hv Hin) as (l' & H4 & H5).
  rewrite H1 in H4. apply (f_equal (fun o => match o with Some z => z | None => [] end)) in H4.
  cbv iota in H4. subst l'.
  pose proof (field_bytes _ _ _ _ HB H5) as HBl.
  exists l. split; [exact H5|]. split; [exact H2|]. split; [exact HBl|].
  split; [|exact H3]. rewrite <- H2. now apply number_in_range.
Qed.

Section Value.
Variables (lib : proplib) (text : list Z -> fv_encoding -> option (list Z)).
Variables (cp : Z) (e : endian) (p : property) (s : list Z) (off : Z).
Hypothesis HP : proplib_ok lib text.
Hypothesis HB : Forall is_byte s.
Hypothesis Hv : value_at s e off (pv_type p) (stored p).
Hypothesis Hh : handed cp e (pv_type p) (pv_value p).

Ltac number_of E k n :=
  let Hin := fresh in
  assert (Hin : In (pv_type p, n) fixed_types) by (rewrite E; cbn; intuition congruence);
  destruct (fixed_number lib text cp e p s off k n HP HB Hv Hh Hin)
    as (l & HF & Hl & HBl & Hr & Hg);
  [rewrite E; reflexivity|cbn; intuition congruence|]; clear Hin.

Lemma boolean_ok : boolean_of s off (pv_type p) (value_step lib p CallBoolean).
Proof.
  unfold boolean_of. cbn [value_step]. unfold get_boolean.
  destruct (Z.eqb_spec (pv_type p) 0xb) as [E|E]; cbn [negb]; [|right; auto].
  left. number_of E FvBoolean 1. change (8 * 1) with 8 in Hg. rewrite Hg.
  destruct l as [|b [|b' l]]; try discriminate Hl; [|unfold zlen in Hl; cbn [length] in Hl; lia].
  exists b. split; [exact E|]. split; [exact HF|].
  replace (number_in e [b]) with b by (destruct e; cbn; lia). reflexivity.
Qed.

Lemma integer_ok : integer_of s e off (pv_type p) (value_step lib p CallInteger).
Proof.
  unfold integer_of. cbn [value_step].
  destruct (Z.eqb_spec (pv_type p) 0x2) as [E|N1].
  { left. number_of E FvInteger16 2. exists 2, l. rewrite E. split; [cbn; auto|]. split; [exact HF|].
    cbn [orb]. unfold get_16bit. rewrite E. cbn [negb andb Z.eqb Pos.eqb].
    change (8 * 2) with 16 in Hg. rewrite Hg. cbn [integer_answer signed_new]. now rewrite signed_16. }
  destruct (Z.eqb_spec (pv_type p) 0x12) as [E|N2].
  { right; left. number_of E FvInteger16 2. exists 2, l. rewrite E. split; [cbn; auto|]. split; [exact HF|].
    cbn [orb]. unfold get_16bit. rewrite E. cbn [negb andb Z.eqb Pos.eqb].
    change (8 * 2) with 16 in Hg. rewrite Hg. cbn [integer_answer unsigned_new].
    rewrite unsigned_ok; [reflexivity|]. change (256 ^ 2) with 65536 in Hr. lia. }
  destruct (Z.eqb_spec (pv_type p) 0x3) as [E|N3].
  { left. number_of E FvInteger32 4. exists 4, l. rewrite E. split; [cbn; auto|]. split; [exact HF|].
    cbn [orb]. unfold get_32bit. rewrite E. cbn [negb andb Z.eqb Pos.eqb].
    change (8 * 4) with 32 in Hg. rewrite Hg. cbn [integer_answer signed_new]. now rewrite signed_32. }
  destruct (Z.eqb_spec (pv_type p) 0x13) as [E|N4].
  { right; left. number_of E FvInteger32 4. exists 4, l. rewrite E. split; [cbn; auto|]. split; [exact HF|].
    cbn [orb]. unfold get_32bit. rewrite E. cbn [negb andb Z.eqb Pos.eqb].
    change (8 * 4) with 32 in Hg. rewrite Hg. cbn [integer_answer unsigned_new].
    rewrite unsigned_ok; [reflexivity|]. change (256 ^ 4) with 4294967296 in Hr. lia. }
  destruct (Z.eqb_spec (pv_type p) 0x14) as [E|N5].
  { left. number_of E FvInteger64 8. exists 8, l. rewrite E. split; [cbn; auto|]. split; [exact HF|].
    cbn [orb]. unfold get_64bit. rewrite E. cbn [negb andb Z.eqb Pos.eqb].
    change (8 * 8) with 64 in Hg. rewrite Hg. cbn [integer_answer signed_new]. now rewrite signed_64. }
  destruct (Z.eqb_spec (pv_type p) 0x15) as [E|N6].
  { right; left. number_of E FvInteger64 8. exists 8, l. rewrite E. split; [cbn; auto|]. split; [exact HF|].
    cbn [orb]. unfold get_64bit. rewrite E. cbn [negb andb Z.eqb Pos.eqb].
    change (8 * 8) with 64 in Hg. rewrite Hg. cbn [integer_answer unsigned_new].
    change (256 ^ 8) with (2 ^ 64) in Hr.
    rewrite unsigned_s64, unsigned_ok; [reflexivity|exact Hr]. }
  destruct (Z.eqb_spec (pv_type p) 0x40) as [E|N7].
  { right; left. number_of E FvFiletime 8. exists 8, l. rewrite E. split; [cbn; auto 10|]. split; [exact HF|].
    cbn [orb]. unfold get_filetime. rewrite E. cbn [negb andb Z.eqb Pos.eqb].
    change (8 * 8) with 64 in Hg. rewrite Hg. cbn [integer_answer unsigned_new].
    change (256 ^ 8) with (2 ^ 64) in Hr.
    rewrite unsigned_s64, unsigned_ok; [reflexivity|exact Hr]. }
  right; right. split; [cbn; intuition congruence|reflexivity].
Qed.

Lemma datetime_ok : datetime_of s e off (pv_type p) (value_step lib p CallDatetime).
Proof.
  unfold datetime_of. cbn [value_step]. unfold get_filetime.
  destruct (Z.eqb_spec (pv_type p) 0x40) as [E|E]; cbn [negb]; [|right; auto].
  left. number_of E FvFiletime 8. change (8 * 8) with 64 in Hg. rewrite Hg.
  change (256 ^ 8) with (2 ^ 64) in Hr.
  exists l. split; [exact E|]. split; [exact HF|].
  destruct (C38_python _ Hr) as (c & Hc & _). exists c. rewrite Hc. split; [reflexivity|].
  intros Hd. destruct (C38_filetime _ Hr Hd) as (c' & Hc' & Hex). rewrite Hc in Hc'.
  assert (c = c') by congruence. now subst c'.
Qed.

Lemma string_ok : string_of lib text cp (pv_type p) (stored p) (value_step lib p CallString).
Proof.
  unfold string_of. cbn [value_step]. unfold get_utf8.
  destruct (Z.eqb_spec (pv_type p) 0x1e) as [E|E1].
  - left. rewrite E in Hh. destruct Hh as (w & Hw & Hk & Hd). unfold stored, on_value. rewrite Hw.
    exists (data_of w), (EncCodepage cp). split; [reflexivity|]. split; [auto|].
    intros Hne. unfold data_of in *. destruct w as [k [[l enc]|]]; cbn [fv_data fv_kind] in *; [|congruence].
    destruct Hd as [-> _]. pose proof (pk_text _ _ HP k l (EncCodepage cp) Hne) as HT. cbv zeta in HT.
    cbn [negb andb].
    destruct (text l (EncCodepage cp)) as [u|]; [|now rewrite HT].
    destruct HT as [-> ->]. cbv iota.
    assert (0 <= zlen u) by (unfold zlen; lia).
    rewrite (proj2 (Z.eqb_neq (zlen u + 1) 0)) by lia.
    replace (zlen u + 1 - 1) with (zlen u) by lia.
    rewrite (proj2 (Z.ltb_ge (zlen (u ++ [0])) (zlen u))) by (rewrite zlen_app; change (zlen [0]) with 1; lia).
    now rewrite slice_prefix.
  - destruct (Z.eqb_spec (pv_type p) 0x1f) as [E|E2]; [|right; auto].
    left. rewrite E in Hh. destruct Hh as (w & Hw & Hk & Hd). unfold stored, on_value. rewrite Hw.
    exists (data_of w), EncUtf16Little. split; [reflexivity|]. split; [auto|].
    intros Hne. unfold data_of in *. destruct w as [k [[l enc]|]]; cbn [fv_data fv_kind] in *; [|congruence].
    destruct Hd as [-> _]. pose proof (pk_text _ _ HP k l EncUtf16Little Hne) as HT. cbv zeta in HT.
    cbn [negb andb].
    destruct (text l EncUtf16Little) as [u|]; [|now rewrite HT].
    destruct HT as [-> ->]. cbv iota.
    assert (0 <= zlen u) by (unfold zlen; lia).
    rewrite (proj2 (Z.eqb_neq (zlen u + 1) 0)) by lia.
    replace (zlen u + 1 - 1) with (zlen u) by lia.
    rewrite (proj2 (Z.ltb_ge (zlen (u ++ [0])) (zlen u))) by (rewrite zlen_app; change (zlen [0]) with 1; lia).
    now rewrite slice_prefix.
Qed.

Lemma string_defined : value_step lib p CallString <> QUndef.
Proof.
  destruct string_ok as [(l & enc & Hs & _ & H)|(_ & _ & ->)]; [|discriminate].
  destruct l as [|b l].
  - cbn [value_step]. unfold get_utf8, on_value. unfold stored in Hs.
    destruct (pv_value p) as [w|] eqn:Hw; [|discriminate].
    assert (Hd : fv_data w = None).
    { destruct (fv_data w) as [[l enc']|] eqn:Ed; [|reflexivity].
      unfold handed in Hh. try rewrite Hw in Hh. exfalso.
      assert (l = []) by congruence. subst l.
      destruct (shape_of cp e (pv_type p)).
      - destruct Hh as (l & Hl & Hn & Hq). assert (w = {| fv_kind := k; fv_data := Some (l, EncOrder e) |}) by congruence.
        subst w. cbn [fv_data] in Ed. assert (l = []) by congruence. subst l. change (zlen (@nil Z)) with 0 in Hl. lia.
      - destruct Hh as (w0 & Hw0 & _ & Hd). assert (w0 = w) by congruence. subst w0. rewrite Ed in Hd.
        destruct Hd as [_ Hd]. change (zlen (@nil Z)) with 0 in Hd. lia.
      - discriminate.
      - discriminate. }
    destruct w as [k dt]. cbn [fv_data] in Hd. subst dt.
    destruct (negb (pv_type p =? 30) && negb (pv_type p =? 31)); [discriminate|].
    destruct (pl_utf8_size lib {| fv_kind := k; fv_data := None |}) as [n|] eqn:En; [|discriminate].
    destruct (Z.eqb_spec n 0); [discriminate|].
    destruct (lib_utf8 (pl_values lib) {| fv_kind := k; fv_data := None |} n) as [u|] eqn:Eu; [|discriminate].
    destruct (pk_empty _ _ HP k n u En Eu) as [->|Hn]; [congruence|].
    rewrite (proj2 (Z.ltb_ge (zlen u) (n - 1))) by lia.
    destruct (pl_decodes lib (slice u 0 (n - 1))); discriminate.
  - rewrite H by discriminate. destruct (text (b :: l) enc); [|discriminate].
    destruct (pl_decodes lib _); discriminate.
Qed.

Lemma value_defined call : value_step lib p call <> QUndef.
Proof.
  destruct call; try (cbn [value_step]; discriminate).
  - rewrite (data_ok_answer lib text p HP). unfold data_answer. destruct (stored p) as [[|]|]; discriminate.
  - destruct boolean_ok as [(b & _ & _ & ->)|[_ ->]]; discriminate.
  - destruct integer_ok as [(n & l & _ & _ & ->)|[(n & l & _ & _ & ->)|[_ ->]]]; discriminate.
  - destruct datetime_ok as [(l & _ & _ & c & -> & _)|[_ ->]]; discriminate.
  - exact string_defined.
Qed.
End Value.

(** * Programs *)
Lemma znth_map_eq {A B} (g : A -> B) l i :
  znth (map g l) i = match znth l i with Some a => Some (g a) | None => None end.
Proof.
  unfold znth. destruct (i <? 0); [reflexivity|].
  revert l. induction (Z.to_nat i) as [|n IH]; intros [|a l]; try reflexivity. apply IH.
Qed.

Lemma zlen_map {A B} (g : A -> B) l : zlen (map g l) = zlen l.
Proof. unfold zlen. now rewrite map_length. Qed.

Lemma number_of_parts_ok ob n : number_of_parts ob = Some n -> n = zlen (parts_of ob).
Proof.
  destruct ob; cbn [number_of_parts parts_of]; intros H; try discriminate;
    rewrite zlen_map; congruence.
Qed.

Lemma part_by_index_ok w ob n i : number_of_parts ob = Some n ->
  part_by_index w ob i =
  match znth (parts_of ob) i with
  | Some part => (QObject (length w), w ++ [part])
  | None => (QRaise IOError, w)
  end.
Proof.
  destruct ob as [x|x|x|pa c m]; cbn [number_of_parts part_by_index parts_of]; intros H; try discriminate;
    rewrite znth_map_eq.
  - unfold get_section. destruct (znth (ps_sections x) i); reflexivity.
  - unfold get_property. destruct (znth (sc_properties x) i); reflexivity.
Qed.

Lemma got_facts lib v d cp s x : got lib v d cp s x ->
  set_at s x /\ Forall is_byte s /\ zlen s < 4294967296.
Proof.
  intros (rd & c & t & c' & t' & (HV & HD & Hsh & HB & f & HS & HC) & H).
  destruct (get_set_sound f rd v d s HS HV HD Hsh HC (pl_values lib) cp HB c t x c' t' H) as (Hset & _).
  split; [exact Hset|]. split; [exact HB|]. destruct HC as (_ & -> & _).
  destruct (do_size d HD) as [_ Hs]. exact Hs.
Qed.

Section Program.
Variables (lib : proplib) (text : list Z -> fv_encoding -> option (list Z)).
Variables (v : volume) (d : dirent) (cp : Z) (s : list Z).
Hypothesis HP : proplib_ok lib text.

Notation object_ok := (object_ok lib v d cp s).
Notation program_ok := (program_ok lib v d cp s).

Lemma parts_small w ob : object_ok w ob -> zlen (parts_of ob) < 2147483648.
Proof.
  intros H. destruct ob as [x|x|x|pa c m]; cbn [parts_of]; try (unfold zlen; cbn; lia); rewrite zlen_map.
  - destruct (got_facts _ _ _ _ _ _ H) as (Hs & _ & Hz).
    destruct (set_at_size s x Hs) as (H1 & _). lia.
  - destruct H as (y & H & Hin). destruct (got_facts _ _ _ _ _ _ H) as (Hs & _ & Hz).
    destruct (set_at_size s y Hs) as (_ & H1 & _). specialize (H1 _ Hin). lia.
Qed.

Lemma part_ok w w' ob part : object_ok w ob -> In part (parts_of ob) -> object_ok w' part.
Proof.
  intros H Hin. destruct ob as [x|x|x|pa c m]; cbn [parts_of] in Hin; try contradiction;
    apply in_map_iff in Hin as (y & <- & Hy).
  - exists x. auto.
  - destruct H as (z & H & Hz). exists z. split; [exact H|]. exists x. auto.
Qed.

(** Sets and sections stay what they are. *)
Definition keeps (w w' : list pobject) : Prop :=
  forall k ob, nth_error w k = Some ob ->
    nth_error w' k = Some ob \/
    exists pa c c' n, ob = PoSequence pa c n /\ nth_error w' k = Some (PoSequence pa c' n).

Lemma keeps_object w w' ob : keeps w w' -> object_ok w ob -> object_ok w' ob.
Proof.
  intros Hk H. destruct ob as [x|x|x|pa c m]; try exact H.
  destruct H as (Hc & [(x & Hx & Hm)|(x & Hx & Hm)]); split; auto;
    destruct (Hk _ _ Hx) as [H|(pa' & c1 & c' & n & H & _)]; try discriminate; [left|right]; eauto.
Qed.

Lemma keeps_app w l : keeps w (w ++ l).
Proof.
  intros k ob Hk. left. rewrite nth_error_app1; [exact Hk|]. apply nth_error_Some. congruence.
Qed.

Lemma keeps_refl w : keeps w w.
Proof. intros k ob Hk. now left. Qed.

Lemma add_ok w ob : program_ok w -> object_ok (w ++ [ob]) ob -> program_ok (w ++ [ob]).
Proof.
  intros Hw Hob k ob' Hk. destruct (Nat.lt_ge_cases k (length w)) as [H|H].
  - rewrite nth_error_app1 in Hk by exact H. apply keeps_object with w; [apply keeps_app|]. eauto.
  - rewrite nth_error_app2 in Hk by exact H.
    destruct (k - length w)%nat as [|[|]] eqn:E; cbn in Hk; try discriminate.
    assert (ob' = ob) by congruence. now subst ob'.
Qed.

Lemma nth_replace {A} (l : list A) i x k : (i < length l)%nat ->
  nth_error (firstn i l ++ [x] ++ skipn (S i) l) k = if Nat.eqb k i then Some x else nth_error l k.
Proof.
  revert i k. induction l as [|a l IH]; intros i k Hi; [cbn in Hi; lia|].
  destruct i as [|i]; destruct k as [|k]; cbn [firstn skipn app nth_error Nat.eqb]; try reflexivity.
  cbn [length] in Hi. rewrite <- IH by lia. reflexivity.
Qed.

Lemma replace_ok w i pa c c' n : program_ok w -> nth_error w i = Some (PoSequence pa c n) ->
  0 <= c' <= n -> program_ok (firstn i w ++ [PoSequence pa c' n] ++ skipn (S i) w).
Proof.
  intros Hw Hi Hc k ob Hk.
  assert (Hlen : (i < length w)%nat) by (apply nth_error_Some; congruence).
  assert (HK : keeps w (firstn i w ++ [PoSequence pa c' n] ++ skipn (S i) w)).
  { intros k' ob' Hk'. rewrite nth_replace by exact Hlen.
    destruct (Nat.eqb_spec k' i) as [E|E]; [|now left].
    right. subst k'. exists pa, c, c', n. split; [congruence|reflexivity]. }
  rewrite nth_replace in Hk by exact Hlen.
  destruct (Nat.eqb k i).
  - assert (ob = PoSequence pa c' n) by congruence. subst ob.
    apply keeps_object with w; [exact HK|]. destruct (Hw _ _ Hi) as (_ & H). split; auto.
  - apply keeps_object with w; [exact HK|]. eauto.
Qed.

(** What a sequence says about its parent. *)
Lemma sequence_parent w i pa c n : program_ok w -> nth_error w i = Some (PoSequence pa c n) ->
  exists ob, nth_error w pa = Some ob /\ number_of_parts ob = Some n /\
    n = zlen (parts_of ob) /\ 0 <= c <= n /\ n < 2147483648.
Proof.
  intros Hw Hi. destruct (Hw _ _ Hi) as (Hc & [(x & Hx & Hn)|(x & Hx & Hn)]).
  - exists (PoSet x). subst n.
    pose proof (parts_small _ _ (Hw _ _ Hx)) as Hs. cbn [parts_of] in *. rewrite zlen_map in *. auto.
  - exists (PoSection x). subst n.
    pose proof (parts_small _ _ (Hw _ _ Hx)) as Hs. cbn [parts_of] in *. rewrite zlen_map in *. auto.
Qed.

Definition good_call (call : prop_call) : Prop :=
  match call with
  | GetSet rd _ _ => is_stream rd v d s /\ io_bytes rd
  | _ => True
  end.

Lemma class_ok w ob n : program_ok w -> object_ok w ob -> number_of_parts ob = Some n ->
  exists l, match ob with PoSet x => ps_class x | PoSection x => sc_class x | _ => [] end = l /\
    guid_answer lib l = QText (guid_text l).
Proof.
  intros Hw H Hn. eexists. split; [reflexivity|].
  destruct ob as [x|x|x|pa c m]; try discriminate.
  - destruct (got_facts _ _ _ _ _ _ H) as (((_ & _ & _ & _ & Hf) & _) & HB & _).
    apply guid_answer_ok with text; auto; [eapply field_len; eauto|eapply field_bytes; eauto].
  - destruct H as (y & H & Hin). destruct (got_facts _ _ _ _ _ _ H) as ((_ & _ & _ & Hall) & HB & _).
    destruct (In_znth _ _ Hin) as (k & Hk). destruct (Hall _ _ Hk) as (base & Hf & _).
    apply guid_answer_ok with text; auto; [eapply field_len; eauto|eapply field_bytes; eauto].
Qed.

Lemma step_ok w call a w' : program_ok w -> good_call call ->
  prop_step lib v d cp w call = (a, w') -> program_ok w' /\ a <> QUndef.
Proof.
  intros Hw Hg H. destruct call as [rd c t|i call|i call|i call]; cbn [prop_step] in H.
  - destruct Hg as (HS & HI). unfold py_get_set in H.
    destruct HS as (HV & HD & HR) eqn:EHS. clear EHS.
    pose proof (get_set_defined (pl_values lib) rd v d cp HV HD HI c t) as Hd.
    destruct (get_set (pl_values lib) rd v d cp c t) as [[[x c']| | |] t'] eqn:Eg; cbn [fst defined] in *;
      try contradiction.
    + unfold add_pobject in H. apply pair_ok in H as [<- <-]. split; [|discriminate].
      apply add_ok; [exact Hw|]. exists rd, c, t, c', t'. split; [|exact Eg]. exact (conj HV (conj HD HR)).
    + apply pair_ok in H as [<- <-]. split; [exact Hw|discriminate].
  - destruct (nth_error w i) as [ob|] eqn:Ei; [|apply pair_ok in H as [<- <-]; split; [exact Hw|discriminate]].
    unfold part_step in H.
    destruct (number_of_parts ob) as [n|] eqn:En; [|apply pair_ok in H as [<- <-]; split; [exact Hw|discriminate]].
    destruct call as [| |a0|].
    + destruct (class_ok w ob n Hw (Hw _ _ Ei) En) as (l & El & Hl). rewrite El, Hl in H.
      apply pair_ok in H as [<- <-]. split; [exact Hw|discriminate].
    + apply pair_ok in H as [<- <-]. split; [exact Hw|discriminate].
    + destruct (parse_integer a0 (-2147483648) 2147483647) as [ex|index];
        [apply pair_ok in H as [<- <-]; split; [exact Hw|discriminate]|].
      rewrite (part_by_index_ok _ _ n) in H by exact En.
      destruct (znth (parts_of ob) index) as [part|] eqn:Ep; apply pair_ok in H as [<- <-];
        (split; [|discriminate]); [|exact Hw].
      apply add_ok; [exact Hw|]. apply part_ok with w ob; [eauto|]. eapply znth_In; eauto.
    + unfold add_pobject in H. apply pair_ok in H as [<- <-]. split; [|discriminate].
      apply add_ok; [exact Hw|]. split.
      * destruct ob; cbn [number_of_parts] in En; try discriminate; apply (f_equal (fun o => match o with Some z => z | None => 0 end)) in En; cbv iota in En; unfold zlen in En; lia.
      * destruct ob as [x|x|x|pa c m]; cbn [number_of_parts] in En; try discriminate; [left|right];
          exists x; (split; [|congruence]); rewrite nth_error_app1; auto; apply nth_error_Some; congruence.
  - destruct (nth_error w i) as [[x|x|x|pa c n]|] eqn:Ei;
      try (apply pair_ok in H as [<- <-]; split; [exact Hw|discriminate]).
    destruct (sequence_parent w i pa c n Hw Ei) as (ob & Hob & Hn & Hlen & Hc & Hsmall).
    unfold parts_step in H. rewrite Hob in H.
    destruct call as [|a0| |].
    + apply pair_ok in H as [<- <-]. split; [exact Hw|discriminate].
    + destruct a0; try (apply pair_ok in H as [<- <-]; split; [exact Hw|discriminate]).
      destruct ((z <? -9223372036854775808) || (9223372036854775807 <? z));
        [apply pair_ok in H as [<- <-]; split; [exact Hw|discriminate]|].
      cbv zeta in H.
      destruct (n <? 0); [apply pair_ok in H as [<- <-]; split; [exact Hw|discriminate]|].
      set (index := if z <? 0 then z + n else z) in *.
      destruct ((index <? 0) || (n <=? index));
        [apply pair_ok in H as [<- <-]; split; [exact Hw|discriminate]|].
      rewrite (part_by_index_ok _ _ n) in H by exact Hn.
      destruct (znth (parts_of ob) (s32 index)) as [part|] eqn:Ep; apply pair_ok in H as [<- <-];
        (split; [|discriminate]); [|exact Hw].
      apply add_ok; [exact Hw|]. apply part_ok with w ob; [eauto|]. eapply znth_In; eauto.
    + apply pair_ok in H as [<- <-]. split; [exact Hw|discriminate].
    + rewrite (proj2 (Z.ltb_ge c 0)) in H by lia. rewrite (proj2 (Z.ltb_ge n 0)) in H by lia.
      destruct (Z.leb_spec n c) as [Hle|Hlt]; [apply pair_ok in H as [<- <-]; split; [exact Hw|discriminate]|].
      rewrite (part_by_index_ok _ _ n) in H by exact Hn.
      destruct (znth (parts_of ob) c) as [part|] eqn:Ep;
        [|exfalso; destruct (znth_some (parts_of ob) c ltac:(lia)) as (y & Hy); congruence].
      apply pair_ok in H as [<- <-]. split; [|discriminate].
      apply replace_ok with c; [| |lia].
      * apply add_ok; [exact Hw|]. apply part_ok with w ob; [eauto|]. eapply znth_In; eauto.
      * rewrite nth_error_app1; auto. apply nth_error_Some. congruence.
  - destruct (nth_error w i) as [[x|x|p|pa c n]|] eqn:Ei;
      try (apply pair_ok in H as [<- <-]; split; [exact Hw|discriminate]).
    apply pair_ok in H as [<- <-]. split; [exact Hw|].
    destruct (Hw _ _ Ei) as (x & Hx & Hin).
    destruct (in_set_at _ _ Hin) as (k & sec & j & Hk & Hj).
    destruct (value_facts _ _ _ _ _ _ _ _ _ _ Hx Hk Hj) as (HB & (base & rel & _ & _ & _ & _ & Hv) & Hh).
    eapply value_defined; eauto.
Qed.

Lemma run_ok h : forall w l w', program_ok w -> calls_ok v d s h ->
  prop_run lib v d cp h w = (l, w') -> program_ok w' /\ Forall (fun a => a <> QUndef) l.
Proof.
  induction h as [|call h IH]; intros w l w' Hw Hc H; cbn [prop_run] in H.
  - apply pair_ok in H as [<- <-]. split; [exact Hw|constructor].
  - destruct (prop_step lib v d cp w call) as [a w1] eqn:E1.
    destruct (prop_run lib v d cp h w1) as [l2 w2] eqn:E2.
    apply pair_ok in H as [<- <-].
    assert (Hg : good_call call).
    { destruct call; cbn [good_call]; auto. apply (Hc rd c t). now left. }
    destruct (step_ok _ _ _ _ Hw Hg E1) as (H1 & H2).
    destruct (IH _ _ _ H1 (fun rd c t Hin => Hc rd c t (or_intror Hin)) E2) as (H3 & H4).
    split; [exact H3|]. now constructor.
Qed.

(** * Indexing *)
Lemma sequence_index w i pa c n ob z : program_ok w ->
  nth_error w i = Some (PoSequence pa c n) -> nth_error w pa = Some ob ->
  prop_step lib v d cp w (OnParts i (M_Items.CallIndex (PInt z))) =
  match znth (parts_of ob) (if z <? 0 then z + zlen (parts_of ob) else z) with
  | Some part => (QObject (length w), w ++ [part])
  | None => (QRaise (if (- 2 ^ 63 <=? z) && (z <? 2 ^ 63) then ValueError else IndexError), w)
  end.
Proof.
  intros Hw Hi Hpa. destruct (sequence_parent w i pa c n Hw Hi) as (ob' & Hob & Hn & Hlen & Hc & Hsmall).
  assert (ob' = ob) by congruence. subst ob'.
  cbn [prop_step]. rewrite Hi. cbn [parts_step]. unfold parts_step. rewrite Hob.
  change (- 2 ^ 63) with (-9223372036854775808). change (2 ^ 63) with 9223372036854775808. cbv zeta. rewrite <- Hlen.
  rewrite (part_by_index_ok _ _ n) by exact Hn.
  destruct ((z <? -9223372036854775808) || (9223372036854775807 <? z)) eqn:Ez.
  - destruct (znth (parts_of ob) (if z <? 0 then z + n else z)) as [part|] eqn:Ep.
    { apply znth_range in Ep. destruct (Z.ltb_spec z 0); lia. }
    replace ((-9223372036854775808 <=? z) && (z <? 9223372036854775808)) with false by lia.
    reflexivity.
  - rewrite (proj2 (Z.ltb_ge n 0)) by lia.
    set (index := if z <? 0 then z + n else z).
    replace ((-9223372036854775808 <=? z) && (z <? 9223372036854775808)) with true by lia.
    destruct ((index <? 0) || (n <=? index)) eqn:Ei.
    + destruct (znth (parts_of ob) index) as [part|] eqn:Ep; [|reflexivity].
      apply znth_range in Ep. lia.
    + replace (s32 index) with index.
      * destruct (znth (parts_of ob) index) as [part|] eqn:Ep; [reflexivity|].
        destruct (znth_some (parts_of ob) index ltac:(lia)) as (y & Hy). congruence.
      * unfold s32, TWO32, INT_MAX. rewrite Z.mod_small by lia.
        rewrite (proj2 (Z.leb_le index 2147483647)) by lia. reflexivity.
Qed.

Lemma get_index w i ob n z : program_ok w ->
  nth_error w i = Some ob -> number_of_parts ob = Some n ->
  prop_step lib v d cp w (OnPart i (CallGet (PInt z))) =
  match znth (parts_of ob) z with
  | Some part => (QObject (length w), w ++ [part])
  | None => (QRaise (if (- 2 ^ 31 <=? z) && (z <? 2 ^ 31) then IOError else OverflowError), w)
  end.
Proof.
  intros Hw Hi Hn. cbn [prop_step]. rewrite Hi. unfold part_step. rewrite Hn.
  pose proof (parts_small _ _ (Hw _ _ Hi)) as Hs.
  change (- 2 ^ 31) with (-2147483648). change (2 ^ 31) with 2147483648. cbn [parse_integer].
  destruct ((-2147483648 <=? z) && (z <=? 2147483647)) eqn:Ez.
  - rewrite (part_by_index_ok _ _ n) by exact Hn.
    replace ((-2147483648 <=? z) && (z <? 2147483648)) with true by lia. reflexivity.
  - replace ((-2147483648 <=? z) && (z <? 2147483648)) with false by lia.
    destruct (znth (parts_of ob) z) as [part|] eqn:Ep; [|reflexivity].
    apply znth_range in Ep. lia.
Qed.
End Program.

(** * The walk *)
Section Walks.
Variables (lib : proplib) (v : volume) (d : dirent) (cp : Z).

Definition extends (w w' : list pobject) : Prop :=
  (length w <= length w')%nat /\ forall k, (k < length w)%nat -> nth_error w' k = nth_error w k.

Lemma extends_app w l : extends w (w ++ l).
Proof. split; [rewrite app_length; lia|]. intros k Hk. now rewrite nth_error_app1. Qed.

Lemma extends_trans a b c : extends a b -> extends b c -> extends a c.
Proof.
  intros (H1 & H2) (H3 & H4). split; [lia|]. intros k Hk. rewrite H4 by lia. now apply H2.
Qed.

Lemma znth_skipn {A} (l : list A) i x : znth l i = Some x ->
  skipn (Z.to_nat i) l = x :: skipn (Z.to_nat (i + 1)) l.
Proof.
  intros H. pose proof (znth_range _ _ _ H) as Hr. unfold znth in H.
  rewrite (proj2 (Z.ltb_ge i 0)) in H by lia. rewrite Z2Nat.inj_add by lia. change (Z.to_nat 1) with 1%nat.
  rewrite Nat.add_1_r. clear Hr. revert l H. induction (Z.to_nat i) as [|n IH]; intros [|a l] H; try discriminate.
  - cbn in *. congruence.
  - cbn [nth_error] in H. cbn [skipn]. now apply IH.
Qed.

Lemma py_for_ok {A} (i pa : nat) (ob : pobject) (n : Z) (f : pobject -> A) body :
  number_of_parts ob = Some n ->
  (forall k w part, nth_error w k = Some part -> In part (parts_of ob) ->
     exists w', body k w = (f part, w') /\ extends w w') ->
  forall fuel w cur,
    nth_error w i = Some (PoSequence pa cur n) -> nth_error w pa = Some ob ->
    0 <= cur <= n -> (Z.to_nat (n - cur) < fuel)%nat ->
    exists w', py_for lib v d cp fuel i body w
        = (map f (skipn (Z.to_nat cur) (parts_of ob)), QRaise StopIteration, w') /\
      (length w <= length w')%nat /\
      forall k, (k < length w)%nat -> k <> i -> nth_error w' k = nth_error w k.
Proof.
  intros Hn Hbody. pose proof (number_of_parts_ok _ _ Hn) as Hlen.
  induction fuel as [|fuel IH]; intros w cur Hi Hpa Hc Hf; [lia|].
  cbn [py_for prop_step]. rewrite Hi. unfold parts_step. rewrite Hpa.
  rewrite (proj2 (Z.ltb_ge cur 0)) by lia. rewrite (proj2 (Z.ltb_ge n 0)) by lia.
  destruct (Z.leb_spec n cur) as [Hle|Hlt].
  - exists w. split; [|split; [lia|reflexivity]].
    rewrite skipn_all2 by (unfold zlen in Hlen; lia). reflexivity.
  - rewrite (part_by_index_ok _ _ n) by exact Hn.
    destruct (znth (parts_of ob) cur) as [part|] eqn:Ep;
      [|exfalso; destruct (znth_some (parts_of ob) cur ltac:(lia)) as (y & Hy); congruence].
    assert (Hiw : (i < length (w ++ [part]))%nat).
    { rewrite app_length. assert (i < length w)%nat by (apply nth_error_Some; congruence). lia. }
    assert (Hil : (i < length w)%nat) by (apply nth_error_Some; congruence).
    assert (Hpl : (pa < length w)%nat) by (apply nth_error_Some; congruence).
    set (w1 := firstn i (w ++ [part]) ++ [PoSequence pa (cur + 1) n] ++ skipn (S i) (w ++ [part])).
    assert (Hw1 : forall k, nth_error w1 k =
              if Nat.eqb k i then Some (PoSequence pa (cur + 1) n) else nth_error (w ++ [part]) k)
      by (intros k; apply nth_replace; exact Hiw).
    assert (Hl1 : length w1 = S (length w)).
    { unfold w1. rewrite !app_length, firstn_length, skipn_length, app_length. cbn [length]. lia. }
    assert (Hpart : nth_error w1 (length w) = Some part).
    { rewrite Hw1. destruct (Nat.eqb_spec (length w) i) as [E|E]; [lia|].
      rewrite nth_error_app2 by lia. now rewrite Nat.sub_diag. }
    assert (Hip : pa <> i).
    { intros ->. rewrite Hi in Hpa. injection Hpa as <-. discriminate. }
    destruct (Hbody (length w) w1 part Hpart (znth_In _ _ _ Ep)) as (w2 & Hb & He1 & He2).
    rewrite Hb.
    destruct (IH w2 (cur + 1)) as (w3 & H3 & Hl3 & Hk3).
    + rewrite He2 by lia. rewrite Hw1, Nat.eqb_refl. reflexivity.
    + rewrite He2 by lia. rewrite Hw1. destruct (Nat.eqb_spec pa i) as [E|E]; [congruence|].
      rewrite nth_error_app1 by lia. exact Hpa.
    + lia.
    + lia.
    + rewrite H3. exists w3. split; [rewrite (znth_skipn _ _ _ Ep); reflexivity|].
      split; [lia|]. intros k Hk Hki. rewrite Hk3 by lia. rewrite He2 by lia. rewrite Hw1.
      destruct (Nat.eqb_spec k i) as [E|E]; [congruence|]. now rewrite nth_error_app1 by lia.
Qed.

Variable text : list Z -> fv_encoding -> option (list Z).
Hypothesis HP : proplib_ok lib text.

Lemma walk_value_ok k w p : nth_error w k = Some (PoValue p) ->
  walk_value lib v d cp k w = (value_line p, w).
Proof.
  intros Hk. unfold walk_value, prop_step. rewrite !Hk.
  rewrite (data_ok_answer lib text p HP). reflexivity.
Qed.

Lemma walk_section_ok fuel k w x :
  zlen (sc_class x) = 16 -> Forall is_byte (sc_class x) -> zlen (sc_properties x) < Z.of_nat fuel ->
  nth_error w k = Some (PoSection x) ->
  exists w', walk_section lib v d cp fuel k w = (section_line x, w') /\ extends w w'.
Proof.
  intros H16 HB Hf Hk. unfold walk_section. cbn [prop_step]. rewrite Hk. cbn [part_step number_of_parts].
  unfold part_step. cbn [number_of_parts]. rewrite (guid_answer_ok lib text) by auto. cbv iota. rewrite Hk.
  cbn [number_of_parts]. unfold add_pobject.
  set (w1 := w ++ [PoSequence k 0 (zlen (sc_properties x))]).
  assert (Hkl : (k < length w)%nat) by (apply nth_error_Some; congruence).
  destruct (py_for_ok (length w) k (PoSection x) (zlen (sc_properties x))
              (fun ob => match ob with PoValue p => value_line p | _ => (QNone, QNone, QNone) end)
              (walk_value lib v d cp) eq_refl) with (fuel := fuel) (w := w1) (cur := 0)
    as (w2 & H2 & Hl2 & Hk2).
  - intros j w0 part Hj Hin. cbn [parts_of] in Hin. apply in_map_iff in Hin as (p & <- & _).
    exists w0. split; [now apply walk_value_ok|]. split; [lia|reflexivity].
  - unfold w1. rewrite nth_error_app2 by lia. now rewrite Nat.sub_diag.
  - unfold w1. rewrite nth_error_app1 by lia. exact Hk.
  - unfold zlen. lia.
  - unfold zlen in *; lia.
  - rewrite H2. exists w2. split.
    + cbn [parts_of Z.to_nat skipn]. rewrite map_map. reflexivity.
    + assert (Hw1 : length w1 = S (length w)) by (unfold w1; rewrite app_length; cbn; lia).
      split; [lia|]. intros j Hj. rewrite Hk2 by lia. unfold w1. now rewrite nth_error_app1 by lia.
Qed.

Lemma walk_set_ok fuel rd c t w s x c' t' :
  is_stream rd v d s -> get_set (pl_values lib) rd v d cp c t = (Ok (x, c'), t') ->
  zlen s < Z.of_nat fuel ->
  walk_set lib v d cp fuel rd c t w = set_line x.
Proof.
  intros HS Hg Hf.
  assert (HG : got lib v d cp s x) by (exists rd, c, t, c', t'; auto).
  destruct (got_facts _ _ _ _ _ _ HG) as (Hset & HB & _).
  destruct (set_at_size s x Hset) as (Hn1 & Hn2 & _).
  destruct Hset as ((_ & _ & _ & _ & Hcl) & _ & _ & Hall).
  assert (Hs0 : 0 <= zlen s) by (unfold zlen; lia).
  assert (Hx0 : 0 <= zlen (ps_sections x)) by (unfold zlen; lia).
  unfold walk_set. cbn [prop_step]. unfold py_get_set. rewrite Hg. cbn [fst]. unfold add_pobject.
  rewrite nth_error_app2 by lia. rewrite Nat.sub_diag. cbn [nth_error]. unfold part_step.
  cbn [number_of_parts].
  rewrite (guid_answer_ok lib text (ps_class x) HP (field_len _ _ _ _ Hcl) (field_bytes _ _ _ _ HB Hcl)).
  cbv iota beta. unfold add_pobject. rewrite nth_error_app2 by lia. rewrite Nat.sub_diag. cbn [nth_error number_of_parts].
  set (w1 := w ++ [PoSet x]).
  assert (Hl1 : length w1 = S (length w)) by (unfold w1; rewrite app_length; cbn; lia).
  set (w2 := w1 ++ [PoSequence (length w) 0 (zlen (ps_sections x))]).
  destruct (py_for_ok (length w1) (length w) (PoSet x) (zlen (ps_sections x))
              (fun ob => match ob with PoSection p => section_line p | _ => (QNone, ([], QNone)) end)
              (walk_section lib v d cp fuel) eq_refl) with (fuel := fuel) (w := w2) (cur := 0)
    as (w3 & H3 & _ & _).
  - intros j w0 part Hj Hin. cbn [parts_of] in Hin. apply in_map_iff in Hin as (p & <- & Hp).
    destruct (In_znth _ _ Hp) as (k & Hk). destruct (Hall _ _ Hk) as (base & Hf1 & _).
    specialize (Hn2 _ Hp).
    apply walk_section_ok; [eapply field_len; eauto|eapply field_bytes; eauto| |exact Hj].
    unfold zlen in *; lia.
  - unfold w2. rewrite nth_error_app2 by lia. now rewrite Nat.sub_diag.
  - unfold w2. rewrite nth_error_app1 by lia. unfold w1. rewrite nth_error_app2 by lia.
    now rewrite Nat.sub_diag.
  - lia.
  - lia.
  - rewrite H3. cbn [parts_of Z.to_nat skipn]. rewrite map_map. reflexivity.
Qed.

Lemma set_line_view x y : set_view x = set_view y -> set_line x = set_line y.
Proof.
  unfold set_view, set_line. intros H. injection H as _ _ _ H1 _ H2. rewrite H1. f_equal. f_equal.
  revert H2. generalize (ps_sections x) (ps_sections y).
  induction l as [|a l IH]; intros [|b m] H; try discriminate; [reflexivity|].
  cbn [map] in *. injection H as Ha Hb Hl. rewrite (IH m Hl). f_equal.
  unfold section_line. rewrite Ha. f_equal. f_equal.
  clear - Hb. revert Hb. generalize (sc_properties a) (sc_properties b).
  induction l as [|p l IH]; intros [|q m] H; try discriminate; [reflexivity|].
  cbn [map] in *. injection H as H1 H2 H3 Hl. rewrite (IH m Hl). f_equal.
  unfold value_line. now rewrite H1, H2, H3.
Qed.
End Walks.
