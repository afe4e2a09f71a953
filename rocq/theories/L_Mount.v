(** Lemmas on the names and paths of the mount tool. *)
From Coq Require Import ZArith List Bool Lia.
From Verif Require Import Base M_Load M_Tree M_Item M_Mount L_Base Spec_Tree Spec_Item L_Item Spec_Mount.
Import ListNotations.
Open Scope Z_scope.

Lemma zlen_cons {A} (x : A) l : zlen (x :: l) = 1 + zlen l.
Proof. unfold zlen. cbn [length]. lia. Qed.
Lemma zlen_app' {A} (l l' : list A) : zlen (l ++ l') = zlen l + zlen l'.
Proof. unfold zlen. rewrite app_length. lia. Qed.
Lemma zlen_nil {A} : zlen (@nil A) = 0.
Proof. reflexivity. Qed.
Lemma zlen_pos {A} (l : list A) : 0 <= zlen l.
Proof. unfold zlen. lia. Qed.

Lemma arr_get_app {A} (pre : list A) x post : arr_get (pre ++ x :: post) (zlen pre) = Ok x.
Proof.
  unfold arr_get, znth. pose proof (zlen_pos pre).
  replace (zlen pre <? 0) with false by (symmetry; apply Z.ltb_ge; lia).
  unfold zlen. rewrite Nat2Z.id, nth_error_app2, Nat.sub_diag by lia. reflexivity.
Qed.

Lemma arr_get_in {A} (s : list A) i : 0 <= i < zlen s -> exists x, arr_get s i = Ok x.
Proof.
  intros H. unfold arr_get, znth. replace (i <? 0) with false by (symmetry; apply Z.ltb_ge; lia).
  destruct (nth_error s (Z.to_nat i)) eqn:E; [eauto|]. apply nth_error_None in E. unfold zlen in H. lia.
Qed.

(** * Hexadecimal digits *)
Lemma lor_digit x d : 0 <= x -> 0 <= d < 16 -> Z.lor (x * 16) d = x * 16 + d.
Proof.
  intros Hx Hd. change 16 with (2 ^ 4) in *. rewrite <- Z.shiftl_mul_pow2 by lia.
  assert (L : Z.land (Z.shiftl x 4) d = 0).
  { apply Z.bits_inj'. intros n Hn. rewrite Z.land_spec, Z.bits_0. destruct (Z_lt_le_dec n 4).
    - rewrite Z.shiftl_spec_low by lia. reflexivity.
    - replace d with (d mod 2 ^ 4) by (apply Z.mod_small; lia). rewrite Z.mod_pow2_bits_high by lia. apply andb_false_r. }
  rewrite <- Z.lxor_lor by exact L. rewrite <- Z.add_nocarry_lxor by exact L. reflexivity.
Qed.

Lemma hex_digit_char d : 0 <= d < 16 -> hex_digit (hex_char d) = Ok d.
Proof.
  intros H. unfold hex_char. destruct (d <? 10) eqn:E; [apply Z.ltb_lt in E|apply Z.ltb_ge in E]; unfold hex_digit.
  - replace (48 <=? 48 + d) with true by (symmetry; apply Z.leb_le; lia).
    replace (48 + d <=? 57) with true by (symmetry; apply Z.leb_le; lia). cbn [andb]. f_equal. lia.
  - replace (48 <=? 87 + d) with true by (symmetry; apply Z.leb_le; lia).
    replace (87 + d <=? 57) with false by (symmetry; apply Z.leb_gt; lia).
    replace (97 <=? 87 + d) with true by (symmetry; apply Z.leb_le; lia).
    replace (87 + d <=? 102) with true by (symmetry; apply Z.leb_le; lia). cbn [andb]. f_equal. lia.
Qed.

Lemma hex_char_range d : 0 <= d < 16 -> 48 <= hex_char d <= 57 \/ 97 <= hex_char d <= 102.
Proof. intros H. unfold hex_char. destruct (d <? 10) eqn:E; [apply Z.ltb_lt in E|apply Z.ltb_ge in E]; lia. Qed.

Lemma copy_hexadecimal_last n : forall s i v,
  copy_hexadecimal (S n) s i v =
  do w <- copy_hexadecimal n s i v; copy_hexadecimal 1 s (i + Z.of_nat n) w.
Proof.
  induction n as [|n IH]; intros s i v.
  - cbn [copy_hexadecimal rbind]. rewrite Z.add_0_r. reflexivity.
  - cbn [copy_hexadecimal]. destruct (arr_get s i) as [c| | |]; cbn [rbind]; try reflexivity.
    destruct (hex_digit c) as [d| | |]; cbn [rbind]; try reflexivity.
    change (copy_hexadecimal (S n) s (i + 1) (Z.lor (u32 (Z.shiftl v 4)) d) =
      do w <- copy_hexadecimal n s (i + 1) (Z.lor (u32 (Z.shiftl v 4)) d); copy_hexadecimal 1 s (i + Z.of_nat (S n)) w).
    rewrite IH. replace (i + 1 + Z.of_nat n) with (i + Z.of_nat (S n)) by lia. reflexivity.
Qed.

Lemma print_hex_len w : forall c, length (print_hex w c) = w.
Proof. induction w as [|w IH]; intros c; cbn [print_hex]; [reflexivity|]. rewrite app_length, IH. cbn. lia. Qed.

Lemma zlen_hex w c : zlen (print_hex w c) = Z.of_nat w.
Proof. unfold zlen. rewrite print_hex_len. reflexivity. Qed.

Lemma print_hex_read w : forall c pre post, (w <= 8)%nat -> 0 <= c < 16 ^ Z.of_nat w ->
  copy_hexadecimal w (pre ++ print_hex w c ++ post) (zlen pre) 0 = Ok c.
Proof.
  induction w as [|w IH]; intros c pre post Hw Hc; [cbn in *; f_equal; lia|].
  rewrite copy_hexadecimal_last. cbn [print_hex]. rewrite <- app_assoc.
  assert (Hd : 0 <= c / 16 < 16 ^ Z.of_nat w).
  { replace (Z.of_nat (S w)) with (Z.of_nat w + 1) in Hc by lia. rewrite Z.pow_add_r in Hc by lia. change (16 ^ 1) with 16 in Hc.
    split; [apply Z.div_pos; lia|apply Z.div_lt_upper_bound; lia]. }
  rewrite IH by (auto; lia). cbn [rbind copy_hexadecimal].
  assert (Hb : 16 ^ Z.of_nat w <= 16 ^ 7) by (apply Z.pow_le_mono_r; lia). change (16 ^ 7) with 268435456 in Hb.
  pose proof (Z.mod_pos_bound c 16 ltac:(lia)) as Hm.
  assert (Hidx : zlen pre + Z.of_nat w = zlen (pre ++ print_hex w (c / 16))).
  { rewrite zlen_app'. unfold zlen at 3. rewrite print_hex_len. reflexivity. }
  rewrite Hidx. rewrite app_assoc. cbn [app]. rewrite arr_get_app. cbn [rbind].
  rewrite hex_digit_char by exact Hm. cbn [rbind]. rewrite Z.shiftl_mul_pow2 by lia. change (2 ^ 4) with 16.
  unfold u32, TWO32. rewrite Z.mod_small by lia. rewrite lor_digit by lia. f_equal.
  pose proof (Z.div_mod c 16 ltac:(lia)). lia.
Qed.

Lemma print_hex_digits w : forall c, Forall (fun b => 48 <= b <= 57 \/ 97 <= b <= 102) (print_hex w c).
Proof.
  induction w as [|w IH]; intros c; cbn [print_hex]; [constructor|]. apply Forall_app. split; [apply IH|].
  constructor; [|constructor]. apply hex_char_range, Z.mod_pos_bound. lia.
Qed.

Section Codec.
Variable cd : codec.
Hypothesis OK : codec_ok cd.

Lemma ascii_char c : 1 <= c < 128 -> is_char (cd_decode cd) [c] c.
Proof. intros H. apply (co_inverse _ OK), (co_ascii _ OK), H. Qed.

Lemma decode_at units c pre post : is_char (cd_decode cd) units c ->
  cd_decode cd (pre ++ units ++ post) (zlen pre) = Ok (c, zlen (pre ++ units)).
Proof. intros [_ H]. rewrite H, zlen_app'. reflexivity. Qed.

Lemma decode_ascii c pre post : 1 <= c < 128 -> cd_decode cd (pre ++ c :: post) (zlen pre) = Ok (c, zlen (pre ++ [c])).
Proof. intros H. apply (decode_at [c] c pre post (ascii_char c H)). Qed.

Lemma encode_pos c units : cd_encode cd c = Ok units -> 1 <= zlen units <= 6.
Proof.
  intros H. destruct (co_inverse _ OK _ _ H) as [Hne _]. destruct (co_size _ OK _ _ H). split; [|lia].
  destruct units; [congruence|]. rewrite zlen_cons. pose proof (zlen_pos units). lia.
Qed.

Lemma encode_range c units : cd_encode cd c = Ok units -> 0 <= c < 4294967296.
Proof.
  intros H. destruct (co_inverse _ OK _ _ H) as [_ Hd]. specialize (Hd [] []).
  exact (co_range _ OK _ _ _ _ Hd).
Qed.

(** * Escaping *)

(** What is written for a character. *)
Definition piece (c : Z) (units : list Z) : list Z :=
  if escape_x c then ESCAPE :: 120 :: print_hex 2 c
  else if escape_u c then ESCAPE :: 85 :: print_hex 8 c
  else if c =? ESCAPE then [ESCAPE; c]
  else units.

Lemma escape_x_range c : 0 <= c -> escape_x c = true -> c <= 159.
Proof.
  unfold escape_x, SLASH. intros H0 H. apply orb_prop in H as [H|H]; [apply orb_prop in H as [H|H]|].
  - apply Z.leb_le in H. lia.
  - apply Z.eqb_eq in H. lia.
  - apply andb_prop in H as [_ H]. apply Z.leb_le in H. lia.
Qed.

Lemma piece_len c units : cd_encode cd c = Ok units -> zlen units <= zlen (piece c units) <= 10 /\ 1 <= zlen (piece c units).
Proof.
  intros H. pose proof (encode_pos _ _ H) as Hp. destruct (co_size _ OK _ _ H) as [_ H2].
  pose proof (encode_range _ _ H) as Hr. unfold piece.
  destruct (escape_x c) eqn:Ex; [|destruct (escape_u c) eqn:Eu; [|destruct (c =? ESCAPE) eqn:Ee]].
  - pose proof (escape_x_range c ltac:(lia) Ex). rewrite !zlen_cons, !zlen_hex. lia.
  - rewrite !zlen_cons, !zlen_hex. lia.
  - apply Z.eqb_eq in Ee. subst c. rewrite !zlen_cons, zlen_nil. unfold ESCAPE in H2. lia.
  - lia.
Qed.

(** The file name of a text. *)
Inductive escaped : list Z -> list Z -> Prop :=
| es_nil : escaped [] []
| es_char c units cs f :
    cd_encode cd c = Ok units -> c <> 0 -> escaped cs f -> escaped (c :: cs) (piece c units ++ f).

Lemma text_escaped cs bytes : text cd cs bytes -> Forall (fun c => c <> 0) cs ->
  exists f, escaped cs f /\ zlen bytes <= zlen f <= 10 * zlen bytes.
Proof.
  induction 1 as [|c units cs bytes Hc _ IH]; intros HF.
  - exists []. split; [constructor|]. rewrite zlen_nil. lia.
  - inversion HF as [|? ? H0 HF']; subst. destruct (IH HF') as (f & Hf & Hl). exists (piece c units ++ f).
    split; [constructor; assumption|]. pose proof (piece_len c units Hc). pose proof (encode_pos c units Hc).
    rewrite !zlen_app'. lia.
Qed.

(** One character of the item name. *)
Lemma from_step fuel c units pre post size out :
  cd_encode cd c = Ok units -> c <> 0 -> zlen out + zlen (piece c units) < size ->
  from_loop (S fuel) cd (pre ++ units ++ post) (zlen pre) size out =
  from_loop fuel cd (pre ++ units ++ post) (zlen (pre ++ units)) size (out ++ piece c units).
Proof.
  intros Hc H0 Hs. pose proof (encode_pos _ _ Hc) as Hp. cbn [from_loop].
  replace (zlen pre <? zlen (pre ++ units ++ post)) with true
    by (symmetry; apply Z.ltb_lt; rewrite !zlen_app'; pose proof (zlen_pos post); lia).
  rewrite (decode_at units c pre post (co_inverse _ OK _ _ Hc)). cbn [rbind].
  destruct (c =? 0) eqn:E0; [apply Z.eqb_eq in E0; congruence|].
  unfold piece, sprintf_at, put_char in *.
  destruct (escape_x c) eqn:Ex; [|destruct (escape_u c) eqn:Eu; [|destruct (c =? ESCAPE) eqn:Ee]].
  - apply Z.ltb_lt in Hs. rewrite Hs. reflexivity.
  - apply Z.ltb_lt in Hs. rewrite Hs. reflexivity.
  - rewrite !zlen_cons, zlen_nil in Hs. destruct (size <? zlen out + 2) eqn:E; [apply Z.ltb_lt in E; lia|]. reflexivity.
  - rewrite Hc. cbn [rbind]. replace (zlen out + zlen units <=? size) with true by (symmetry; apply Z.leb_le; lia).
    reflexivity.
Qed.

Lemma from_text cs bytes : text cd cs bytes -> Forall (fun c => c <> 0) cs ->
  forall f, escaped cs f -> forall fuel pre size out, (length bytes < fuel)%nat -> zlen out + zlen f < size ->
  from_loop fuel cd (pre ++ bytes) (zlen pre) size out = Ok (out ++ f).
Proof.
  induction 1 as [|c units cs bytes Hc _ IH]; intros HF f Hf fuel pre size out Hfu Hs.
  - inversion Hf; subst. destruct fuel; [cbn in Hfu; lia|]. cbn [from_loop]. rewrite app_nil_r, Z.ltb_irrefl, app_nil_r. reflexivity.
  - inversion HF as [|? ? H0 HF']; subst. inversion Hf as [|? units' ? f' Hc' _ Hf']; subst.
    rewrite Hc in Hc'. injection Hc' as <-. rewrite zlen_app' in Hs. pose proof (zlen_pos f').
    pose proof (encode_pos _ _ Hc) as Hp. rewrite app_length in Hfu. unfold zlen in Hp.
    destruct fuel as [|fuel]; [lia|]. rewrite from_step with (c := c) by (auto; lia).
    rewrite app_assoc. rewrite (IH HF' f' Hf') by (rewrite ?zlen_app'; lia). rewrite <- app_assoc. reflexivity.
Qed.

Lemma from_item_path cs bytes : text cd cs bytes -> Forall (fun c => c <> 0) cs -> bytes <> [] ->
  zlen bytes <= 922337203685477580 ->
  exists f, escaped cs f /\ copy_from_item_path cd bytes = Ok (f, zlen bytes * 10 + 1) /\ zlen bytes <= zlen f.
Proof.
  intros Ht H0 Hne Hl. destruct (text_escaped cs bytes Ht H0) as (f & Hf & Hlf). exists f. split; [exact Hf|]. split; [|lia].
  assert (1 <= zlen bytes) by (destruct bytes; [congruence|rewrite zlen_cons; pose proof (zlen_pos bytes); lia]).
  unfold copy_from_item_path, SSIZE_MAX.
  replace (zlen bytes =? 0) with false by (symmetry; apply Z.eqb_neq; lia).
  replace (9223372036854775807 - 1 <? zlen bytes) with false by (symmetry; apply Z.ltb_ge; lia).
  replace ((9223372036854775807 - 1) / 10 <? zlen bytes) with false
    by (symmetry; apply Z.ltb_ge; change ((9223372036854775807 - 1) / 10) with 922337203685477580; lia).
  cbn [orb]. rewrite (from_text cs bytes Ht H0 f Hf _ []) by (rewrite ?zlen_nil; lia). cbn [rbind app].
  replace (zlen bytes * 10 + 1 <=? zlen f) with false by (symmetry; apply Z.leb_gt; lia). reflexivity.
Qed.

(** * Unescaping *)
Lemma unescape_backslash pre post :
  unescape (pre ++ ESCAPE :: post) (zlen pre) = Ok (ESCAPE, zlen (pre ++ [ESCAPE])).
Proof.
  unfold unescape. rewrite !zlen_app', !zlen_cons. change (zlen (@nil Z)) with 0. pose proof (zlen_pos post).
  replace (zlen pre + (1 + zlen post) <? zlen pre + 1) with false by (symmetry; apply Z.ltb_ge; lia).
  rewrite arr_get_app. cbn [rbind]. rewrite Z.eqb_refl. reflexivity.
Qed.

Lemma unescape_x c pre post : 1 <= c -> escape_x c = true ->
  unescape (pre ++ 120 :: print_hex 2 c ++ post) (zlen pre) = Ok (c, zlen (pre ++ 120 :: print_hex 2 c)).
Proof.
  intros H0 Hx. pose proof (escape_x_range c ltac:(lia) Hx) as Hr. unfold unescape.
  rewrite !zlen_app', !zlen_cons, !zlen_app', !zlen_hex. pose proof (zlen_pos post). change (Z.of_nat 2) with 2.
  replace (zlen pre + (1 + (2 + zlen post)) <? zlen pre + 1) with false by (symmetry; apply Z.ltb_ge; lia).
  rewrite arr_get_app. cbn [rbind]. change (120 =? ESCAPE) with false. change (120 =? 120) with true. cbn [andb orb].
  replace (zlen pre + (1 + (2 + zlen post)) <? zlen pre + 1 + 2) with false by (symmetry; apply Z.ltb_ge; lia).
  replace (pre ++ 120 :: print_hex 2 c ++ post) with ((pre ++ [120]) ++ print_hex 2 c ++ post) by (rewrite <- app_assoc; reflexivity).
  replace (zlen pre + 1) with (zlen (pre ++ [120])) by (rewrite zlen_app'; reflexivity).
  rewrite (print_hex_read 2 c) by (try lia; change (16 ^ Z.of_nat 2) with 256; lia). cbn [rbind].
  replace ((1 <=? c) && (c <=? 31) || (c =? SLASH) || (127 <=? c) && (c <=? 159)) with true.
  - rewrite zlen_app', zlen_cons, zlen_nil. f_equal. f_equal. lia.
  - symmetry. unfold escape_x in Hx. replace (1 <=? c) with true by (symmetry; apply Z.leb_le; lia). exact Hx.
Qed.

Lemma unescape_u c pre post : 0 <= c < 4294967296 -> escape_u c = true ->
  unescape (pre ++ 85 :: print_hex 8 c ++ post) (zlen pre) = Ok (c, zlen (pre ++ 85 :: print_hex 8 c)).
Proof.
  intros H0 Hx. unfold unescape.
  rewrite !zlen_app', !zlen_cons, !zlen_app', !zlen_hex. pose proof (zlen_pos post). change (Z.of_nat 8) with 8.
  replace (zlen pre + (1 + (8 + zlen post)) <? zlen pre + 1) with false by (symmetry; apply Z.ltb_ge; lia).
  rewrite arr_get_app. cbn [rbind]. change (85 =? ESCAPE) with false. change (85 =? 120) with false.
  change (85 =? 85) with true. cbn [andb orb].
  replace (zlen pre + (1 + (8 + zlen post)) <? zlen pre + 1 + 8) with false by (symmetry; apply Z.ltb_ge; lia).
  replace (pre ++ 85 :: print_hex 8 c ++ post) with ((pre ++ [85]) ++ print_hex 8 c ++ post) by (rewrite <- app_assoc; reflexivity).
  replace (zlen pre + 1) with (zlen (pre ++ [85])) by (rewrite zlen_app'; reflexivity).
  rewrite (print_hex_read 8 c) by (try lia; change (16 ^ Z.of_nat 8) with 4294967296; lia). cbn [rbind]. rewrite Hx.
  rewrite zlen_app', zlen_cons, zlen_nil. f_equal. f_equal. lia.
Qed.

Lemma put_char_ok out size c units : cd_encode cd c = Ok units -> zlen out + zlen units <= size ->
  put_char cd out size c = Ok (out ++ units).
Proof.
  intros H Hs. unfold put_char. rewrite H. cbn [rbind]. apply Z.leb_le in Hs. rewrite Hs. reflexivity.
Qed.

(** One character of a file name. *)
Lemma to_step fuel c units pre post size out :
  cd_encode cd c = Ok units -> c <> 0 -> zlen out + zlen units <= size ->
  to_loop (S fuel) cd (pre ++ piece c units ++ post) (zlen pre) size out =
  to_loop fuel cd (pre ++ piece c units ++ post) (zlen (pre ++ piece c units)) size (out ++ units).
Proof.
  intros Hc H0 Hs. pose proof (encode_range _ _ Hc) as Hr. pose proof (piece_len _ _ Hc) as Hl. cbn [to_loop].
  replace (zlen pre <? zlen (pre ++ piece c units ++ post)) with true
    by (symmetry; apply Z.ltb_lt; rewrite !zlen_app'; pose proof (zlen_pos post); lia).
  unfold piece in *. destruct (escape_x c) eqn:Ex; [|destruct (escape_u c) eqn:Eu; [|destruct (c =? ESCAPE) eqn:Ee]].
  - rewrite <- !app_comm_cons. rewrite decode_ascii by (unfold ESCAPE; lia). cbn [rbind].
    change (ESCAPE =? SLASH) with false. rewrite Z.eqb_refl.
    replace (pre ++ ESCAPE :: 120 :: print_hex 2 c ++ post) with ((pre ++ [ESCAPE]) ++ 120 :: print_hex 2 c ++ post) by (rewrite <- app_assoc; reflexivity).
    rewrite unescape_x by (auto; lia). cbn [rbind]. rewrite (put_char_ok _ _ _ _ Hc Hs). cbn [rbind].
    replace ((pre ++ [ESCAPE]) ++ 120 :: print_hex 2 c) with (pre ++ ESCAPE :: 120 :: print_hex 2 c) by (rewrite <- app_assoc; reflexivity).
    reflexivity.
  - rewrite <- !app_comm_cons. rewrite decode_ascii by (unfold ESCAPE; lia). cbn [rbind].
    change (ESCAPE =? SLASH) with false. rewrite Z.eqb_refl.
    replace (pre ++ ESCAPE :: 85 :: print_hex 8 c ++ post) with ((pre ++ [ESCAPE]) ++ 85 :: print_hex 8 c ++ post) by (rewrite <- app_assoc; reflexivity).
    rewrite unescape_u by (auto; lia). cbn [rbind]. rewrite (put_char_ok _ _ _ _ Hc Hs). cbn [rbind].
    replace ((pre ++ [ESCAPE]) ++ 85 :: print_hex 8 c) with (pre ++ ESCAPE :: 85 :: print_hex 8 c) by (rewrite <- app_assoc; reflexivity).
    reflexivity.
  - apply Z.eqb_eq in Ee. subst c. rewrite <- !app_comm_cons. rewrite decode_ascii by (unfold ESCAPE; lia). cbn [rbind].
    change (ESCAPE =? SLASH) with false. rewrite Z.eqb_refl.
    replace (pre ++ ESCAPE :: ESCAPE :: [] ++ post) with ((pre ++ [ESCAPE]) ++ ESCAPE :: post) by (rewrite <- app_assoc; reflexivity).
    rewrite unescape_backslash. cbn [rbind]. rewrite (put_char_ok _ _ _ _ Hc Hs). cbn [rbind].
    replace ((pre ++ [ESCAPE]) ++ [ESCAPE]) with (pre ++ [ESCAPE; ESCAPE]) by (rewrite <- app_assoc; reflexivity).
    reflexivity.
  - rewrite (decode_at units c pre post (co_inverse _ OK _ _ Hc)). cbn [rbind]. rewrite Ee.
    assert (c =? SLASH = false) as ->.
    { apply Z.eqb_neq. intros ->. discriminate Ex. }
    cbn [rbind]. rewrite (put_char_ok _ _ _ _ Hc Hs). reflexivity.
Qed.

Lemma to_text cs f : escaped cs f -> forall bytes, text cd cs bytes ->
  forall fuel pre post size out, (length f <= fuel)%nat -> zlen out + zlen bytes <= size ->
  exists fuel', to_loop fuel cd (pre ++ f ++ post) (zlen pre) size out =
                to_loop fuel' cd (pre ++ f ++ post) (zlen (pre ++ f)) size (out ++ bytes) /\
                (fuel <= fuel' + length f)%nat.
Proof.
  induction 1 as [|c units cs f Hc H0 _ IH]; intros bytes Hb fuel pre post size out Hfu Hs.
  - inversion Hb; subst. exists fuel. rewrite !app_nil_r. split; [reflexivity|lia].
  - inversion Hb as [|? units' ? bytes' Hc' Hb']; subst. rewrite Hc in Hc'. injection Hc' as <-.
    pose proof (piece_len _ _ Hc) as Hl. rewrite zlen_app' in Hs. pose proof (zlen_pos bytes'). unfold zlen in Hl.
    rewrite app_length in Hfu. destruct fuel as [|fuel]; [lia|].
    rewrite <- app_assoc. rewrite to_step with (c := c) by (auto; lia).
    destruct (IH bytes' Hb' fuel (pre ++ piece c units) post size (out ++ units)) as (fuel' & E & Hf'); [lia|rewrite zlen_app'; lia|].
    exists fuel'. rewrite <- !app_assoc in E. rewrite app_length. split; [rewrite ?app_assoc in *; exact E|lia].
Qed.

(** A path of file names. *)
Lemma to_slash fuel pre post size out : zlen out + 1 <= size ->
  to_loop (S fuel) cd (pre ++ 47 :: post) (zlen pre) size out =
  to_loop fuel cd (pre ++ 47 :: post) (zlen (pre ++ [47])) size (out ++ [92]).
Proof.
  intros Hs. cbn [to_loop].
  replace (zlen pre <? zlen (pre ++ 47 :: post)) with true
    by (symmetry; apply Z.ltb_lt; rewrite !zlen_app', zlen_cons; pose proof (zlen_pos post); lia).
  rewrite decode_ascii by lia. cbn [rbind]. change (47 =? SLASH) with true. cbn [rbind].
  rewrite (put_char_ok out size SEPARATOR [92]); [reflexivity|apply (co_ascii _ OK); unfold SEPARATOR; lia|].
  rewrite zlen_cons, zlen_nil. lia.
Qed.

(** Names with their texts and their file names. *)
Inductive named : list (list Z) -> list (list Z) -> list (list Z) -> Prop :=
| nm_nil : named [] [] []
| nm_cons cs n f css ns fs :
    text cd cs n -> escaped cs f -> zlen n <= zlen f -> named css ns fs -> named (cs :: css) (n :: ns) (f :: fs).

Lemma named_len css ns fs : named css ns fs -> forall a b, zlen (path_of a ns) <= zlen (path_of b fs).
Proof.
  induction 1 as [|cs n f css ns fs _ _ Hl _ IH]; intros a b; cbn [path_of]; [lia|].
  specialize (IH a b). rewrite !zlen_cons, !zlen_app'. lia.
Qed.

Lemma to_names css ns fs : named css ns fs -> forall fuel pre size out,
  (length (path_of 47 fs) < fuel)%nat -> zlen out + zlen (path_of 92 ns) <= size ->
  to_loop fuel cd (pre ++ path_of 47 fs) (zlen pre) size out = Ok (out ++ path_of 92 ns).
Proof.
  induction 1 as [|cs n f css ns fs Ht He Hl _ IH]; intros fuel pre size out Hfu Hs; cbn [path_of] in *.
  - destruct fuel; [cbn in Hfu; lia|]. cbn [to_loop]. rewrite app_nil_r, Z.ltb_irrefl, app_nil_r. reflexivity.
  - rewrite zlen_cons, zlen_app' in Hs. pose proof (zlen_pos n). pose proof (zlen_pos (path_of 92 ns)).
    cbn [length] in Hfu. rewrite app_length in Hfu. destruct fuel as [|fuel]; [lia|]. rewrite to_slash by lia.
    replace (pre ++ 47 :: f ++ path_of 47 fs) with ((pre ++ [47]) ++ f ++ path_of 47 fs) by (rewrite <- app_assoc; reflexivity).
    destruct (to_text cs f He n Ht fuel (pre ++ [47]) (path_of 47 fs) size (out ++ [92])) as (fuel' & E & Hf'); [lia|rewrite zlen_app', zlen_cons, zlen_nil; lia|].
    rewrite E, app_assoc. rewrite IH by (rewrite ?zlen_app', ?zlen_cons, ?zlen_nil; lia).
    rewrite <- !app_assoc. reflexivity.
Qed.

Lemma to_item_path css ns fs : named css ns fs -> fs <> [] -> zlen (path_of 47 fs) < SSIZE_MAX ->
  copy_to_item_path cd (path_of 47 fs) = Ok (path_of 92 ns, zlen (path_of 47 fs) + 1).
Proof.
  intros H Hne Hl. pose proof (named_len _ _ _ H 92 47) as Hll. unfold copy_to_item_path, SSIZE_MAX in *.
  destruct fs as [|f fs]; [congruence|]. set (s := path_of 47 (f :: fs)) in *.
  assert (Hs : exists s', s = 47 :: s') by (unfold s; cbn [path_of]; eauto). destruct Hs as [s' Es].
  assert (1 <= zlen s) by (rewrite Es, zlen_cons; pose proof (zlen_pos s'); lia).
  replace (zlen s =? 0) with false by (symmetry; apply Z.eqb_neq; lia).
  replace (9223372036854775807 - 1 <? zlen s) with false by (symmetry; apply Z.ltb_ge; lia). cbn [orb].
  assert (arr_get s 0 = Ok 47) as -> by (rewrite Es; reflexivity). cbn [rbind]. change (47 =? SLASH) with true. cbn [negb].
  replace (9223372036854775807 <? zlen s + 1) with false by (symmetry; apply Z.ltb_ge; lia).
  rewrite (to_names _ _ _ H _ []) by (rewrite ?zlen_nil; fold s; lia). cbn [rbind app].
  replace (zlen s + 1 <=? zlen (path_of 92 ns)) with false by (symmetry; apply Z.leb_gt; lia). reflexivity.
Qed.

(** * The characters of file names *)
Lemma text_app cs bs cs' bs' : text cd cs bs -> text cd cs' bs' -> text cd (cs ++ cs') (bs ++ bs').
Proof.
  induction 1 as [|c units cs bs Hc _ IH]; intros H'; cbn [app]; [exact H'|].
  rewrite <- app_assoc. constructor; auto.
Qed.

Lemma text_ascii l : Forall (fun c => 1 <= c < 128) l -> text cd l l.
Proof.
  induction 1 as [|c l Hc _ IH]; [constructor|]. change (c :: l) with ([c] ++ l) at 2. constructor; [apply (co_ascii _ OK); lia|exact IH].
Qed.

Lemma hex_text (P : Z -> Prop) a b w c : (forall x, 48 <= x <= 57 \/ 97 <= x <= 102 -> P x) -> P a -> P b ->
  Forall P (a :: b :: print_hex w c).
Proof.
  intros HP Ha Hb. constructor; [exact Ha|]. constructor; [exact Hb|].
  eapply Forall_impl; [exact HP|apply print_hex_digits].
Qed.

Lemma piece_plain c units : cd_encode cd c = Ok units -> c <> 0 ->
  exists cs, text cd cs (piece c units) /\ Forall plain cs.
Proof.
  intros Hc H0. pose proof (encode_range _ _ Hc) as Hr. unfold piece.
  assert (HX : forall a w, a = 120 \/ a = 85 -> exists cs, text cd cs (ESCAPE :: a :: print_hex w c) /\ Forall plain cs).
  { intros a w Ha. exists (ESCAPE :: a :: print_hex w c). unfold plain. split; [apply text_ascii|];
    apply hex_text; unfold ESCAPE; intros; lia. }
  destruct (escape_x c) eqn:Ex; [|destruct (escape_u c) eqn:Eu; [|destruct (c =? ESCAPE) eqn:Ee]].
  - apply HX. lia.
  - apply HX. lia.
  - apply Z.eqb_eq in Ee. subst c. exists [ESCAPE; ESCAPE]. split; [apply text_ascii|]; repeat constructor; unfold plain, ESCAPE; lia.
  - exists [c]. split; [rewrite <- (app_nil_r units); constructor; [exact Hc|constructor]|]. constructor; [|constructor].
    unfold escape_x, SLASH in Ex. apply orb_false_elim in Ex as [Ex Ex3]. apply orb_false_elim in Ex as [Ex1 Ex2].
    apply Z.leb_gt in Ex1. apply Z.eqb_neq in Ex2. unfold plain. split; [lia|]. split; [lia|]. intros [A B].
    apply Z.leb_le in A, B. rewrite A, B in Ex3. discriminate.
Qed.

Lemma escaped_plain cs f : escaped cs f -> exists cs', text cd cs' f /\ Forall plain cs'.
Proof.
  induction 1 as [|c units cs f Hc H0 _ (cs' & Ht & Hp)]; [exists []; split; constructor|].
  destruct (piece_plain c units Hc H0) as (cs1 & Ht1 & Hp1). exists (cs1 ++ cs'). split; [apply text_app; assumption|].
  apply Forall_app. auto.
Qed.

(** A text of plain characters has no byte of a control character, slash or 0. *)
Lemma text_bytes cs f : text cd cs f -> Forall plain cs -> Forall (fun b => 31 < b /\ b <> 47 /\ b <> 127) f.
Proof.
  induction 1 as [|c units cs f Hc _ IH]; intros HF; [constructor|]. inversion HF as [|? ? [P1 [P2 P3]] HF']; subst.
  apply Forall_app. split; [|apply IH, HF']. destruct (Z_lt_le_dec c 128) as [L|L].
  - rewrite (co_ascii _ OK) in Hc by lia. injection Hc as <-. constructor; [lia|constructor].
  - eapply Forall_impl; [|exact (co_other _ OK _ _ Hc L)]. cbn. intros. lia.
Qed.

Lemma text_nonzero cs f : text cd cs f -> Forall (fun c => c <> 0) cs -> Forall (fun b => b <> 0) f.
Proof.
  induction 1 as [|c units cs f Hc _ IH]; intros HF; [constructor|]. inversion HF as [|? ? H0 HF']; subst.
  pose proof (encode_range _ _ Hc). apply Forall_app. split; [|apply IH, HF']. destruct (Z_lt_le_dec c 128) as [L|L].
  - rewrite (co_ascii _ OK) in Hc by lia. injection Hc as <-. constructor; [lia|constructor].
  - eapply Forall_impl; [|exact (co_other _ OK _ _ Hc L)]. cbn. intros. lia.
Qed.

Lemma c_string_all l : Forall (fun b => b <> 0) l -> c_string l = l.
Proof.
  induction 1 as [|b l Hb _ IH]; cbn [c_string]; [reflexivity|]. apply Z.eqb_neq in Hb. rewrite Hb, IH. reflexivity.
Qed.

Lemma text_is_text cs f : text cd cs f -> Forall (fun c => c <> 0 /\ c <> 92) cs -> is_text (cd_decode cd) f.
Proof.
  induction 1 as [|c units cs f Hc _ IH]; intros HF; [constructor|]. inversion HF as [|? ? [H0 H92] HF']; subst.
  apply it_char with (c := c); auto. exact (co_inverse _ OK _ _ Hc).
Qed.

Lemma path_of_join n ns : path_of 92 (n :: ns) = [92] ++ join (n :: ns).
Proof.
  revert n. induction ns as [|m ns IH]; intros n; cbn [path_of app join].
  - rewrite app_nil_r. reflexivity.
  - change (path_of 92 (m :: ns)) with (92 :: m ++ path_of 92 ns) in *. f_equal. f_equal.
    specialize (IH m). cbn [path_of app] in IH. rewrite IH. reflexivity.
Qed.

(** * Buffers *)
Lemma from_loop_safe s size : size = zlen s * 10 + 1 -> forall fuel index out,
  0 <= index <= zlen s -> zlen out <= 10 * index -> zlen s - index < Z.of_nat fuel ->
  from_loop fuel cd s index size out = Err \/
  exists out', from_loop fuel cd s index size out = Ok out' /\ zlen out' < size.
Proof.
  intros ->. induction fuel as [|fuel IH]; intros index out Hi Ho Hf; [lia|]. cbn [from_loop].
  destruct (index <? zlen s) eqn:E; [apply Z.ltb_lt in E|right; exists out; split; [reflexivity|lia]].
  destruct (co_decode _ OK s index ltac:(lia)) as [->|(c & i' & -> & Hi')]; [left; reflexivity|]. cbn [rbind].
  destruct (c =? 0); [right; exists out; split; [reflexivity|lia]|].
  assert (HS : forall a b w, (w <= 8)%nat -> exists out', sprintf_at out (zlen s * 10 + 1) (a :: b :: print_hex w c) = Ok out' /\ zlen out' <= 10 * i').
  { intros a b w Hw. unfold sprintf_at. rewrite !zlen_cons, zlen_hex.
    replace (zlen out + (1 + (1 + Z.of_nat w)) <? zlen s * 10 + 1) with true by (symmetry; apply Z.ltb_lt; lia).
    eexists. split; [reflexivity|]. rewrite zlen_app', !zlen_cons, zlen_hex. lia. }
  destruct (escape_x c).
  { destruct (HS ESCAPE 120 2%nat) as (out' & -> & Ho'); [lia|]. cbn [rbind]. apply IH; lia. }
  destruct (escape_u c).
  { destruct (HS ESCAPE 85 8%nat) as (out' & -> & Ho'); [lia|]. cbn [rbind]. apply IH; lia. }
  destruct (c =? ESCAPE).
  { destruct (zlen s * 10 + 1 <? zlen out + 2); [left; reflexivity|].
    apply IH; [lia|rewrite zlen_app', !zlen_cons, zlen_nil; lia|lia]. }
  unfold put_char. pose proof (co_defined _ OK c) as Hd. destruct (cd_encode cd c) as [units| | |] eqn:Ec; cbn [rbind];
    [|left; reflexivity|destruct Hd|destruct Hd].
  destruct (zlen out + zlen units <=? zlen s * 10 + 1); cbn [rbind]; [|left; reflexivity].
  pose proof (encode_pos _ _ Ec). apply IH; [lia|rewrite zlen_app'; lia|lia].
Qed.

Lemma copy_hexadecimal_safe s n : forall index v, 0 <= index -> index + Z.of_nat n <= zlen s ->
  defined (copy_hexadecimal n s index v).
Proof.
  induction n as [|n IH]; intros index v H0 H; cbn [copy_hexadecimal]; [exact I|].
  destruct (arr_get_in s index) as [c ->]; [lia|]. cbn [rbind]. unfold hex_digit.
  destruct ((48 <=? c) && (c <=? 57)); cbn [rbind]; [apply IH; lia|].
  destruct ((97 <=? c) && (c <=? 102)); cbn [rbind]; [apply IH; lia|exact I].
Qed.

Lemma unescape_safe s index : 0 <= index <= zlen s ->
  unescape s index = Err \/ exists c i, unescape s index = Ok (c, i) /\ index < i <= zlen s.
Proof.
  intros Hi. unfold unescape. destruct (zlen s <? index + 1) eqn:E; [left; reflexivity|]. apply Z.ltb_ge in E.
  destruct (arr_get_in s index) as [c ->]; [lia|]. cbn [rbind].
  destruct (c =? ESCAPE); [right; do 2 eexists; split; [reflexivity|lia]|].
  destruct (c =? 120).
  { destruct (zlen s <? index + 1 + 2) eqn:E2; [left; reflexivity|]. apply Z.ltb_ge in E2.
    pose proof (copy_hexadecimal_safe s 2 (index + 1) 0 ltac:(lia) ltac:(lia)) as H.
    destruct (copy_hexadecimal 2 s (index + 1) 0) as [v| | |]; cbn [rbind]; try destruct H; [|left; reflexivity].
    destruct ((1 <=? v) && (v <=? 31) || (v =? SLASH) || (127 <=? v) && (v <=? 159)); [|left; reflexivity].
    right; do 2 eexists; split; [reflexivity|lia]. }
  destruct (c =? 85); [|left; reflexivity].
  destruct (zlen s <? index + 1 + 8) eqn:E2; [left; reflexivity|]. apply Z.ltb_ge in E2.
  pose proof (copy_hexadecimal_safe s 8 (index + 1) 0 ltac:(lia) ltac:(lia)) as H.
  destruct (copy_hexadecimal 8 s (index + 1) 0) as [v| | |]; cbn [rbind]; try destruct H; [|left; reflexivity].
  destruct (escape_u v); [|left; reflexivity]. right; do 2 eexists; split; [reflexivity|lia].
Qed.

Lemma to_loop_safe s size : forall fuel index out, 0 <= index <= zlen s -> zlen out <= size ->
  zlen s - index < Z.of_nat fuel ->
  to_loop fuel cd s index size out = Err \/ exists out', to_loop fuel cd s index size out = Ok out' /\ zlen out' <= size.
Proof.
  induction fuel as [|fuel IH]; intros index out Hi Ho Hf; [lia|]. cbn [to_loop].
  destruct (index <? zlen s) eqn:E; [apply Z.ltb_lt in E|right; exists out; split; [reflexivity|lia]].
  destruct (co_decode _ OK s index ltac:(lia)) as [->|(c & i' & -> & Hi')]; [left; reflexivity|]. cbn [rbind].
  assert (HP : forall c' i'', index < i'' <= zlen s ->
    (do out' <- put_char cd out size c'; to_loop fuel cd s i'' size out') = Err \/
    exists out', (do out' <- put_char cd out size c'; to_loop fuel cd s i'' size out') = Ok out' /\ zlen out' <= size).
  { intros c' i'' H'. unfold put_char. pose proof (co_defined _ OK c') as Hd.
    destruct (cd_encode cd c') as [units| | |] eqn:Ec; cbn [rbind]; [|left; reflexivity|destruct Hd|destruct Hd].
    destruct (zlen out + zlen units <=? size) eqn:El; cbn [rbind]; [|left; reflexivity]. apply Z.leb_le in El.
    apply IH; [lia|rewrite zlen_app'; lia|lia]. }
  destruct (c =? SLASH); [cbn [rbind]; apply HP; lia|]. destruct (c =? ESCAPE); [|cbn [rbind]; apply HP; lia].
  destruct (unescape_safe s i' ltac:(lia)) as [->|(c' & i'' & -> & Hi'')]; [left; reflexivity|]. cbn [rbind]. apply HP; lia.
Qed.
End Codec.

(** * Names and paths *)
Lemma text_nonempty cd cs n : codec_ok cd -> text cd cs n -> cs <> [] -> n <> [].
Proof.
  intros OK H Hne. destruct H as [|c units cs n Hc _]; [congruence|].
  destruct (co_inverse _ OK _ _ Hc) as [Hu _]. destruct units; [congruence|discriminate].
Qed.

Lemma escaped_unique cd cs f f' : escaped cd cs f -> escaped cd cs f' -> f = f'.
Proof.
  intros H. revert f'. induction H as [|c units cs f Hc H0 _ IH]; intros f' H'; inversion H'; subst; [reflexivity|].
  match goal with H1 : cd_encode cd c = Ok ?x, H2 : cd_encode cd c = Ok ?y |- _ => rewrite H1 in H2; injection H2 as <- end.
  f_equal. apply IH. assumption.
Qed.

Lemma name_of_text cd cs n : codec_ok cd -> text cd cs n -> cs <> [] -> Forall (fun c => c <> 0) cs ->
  zlen n <= 922337203685477580 -> exists f, mount_file_name cd n = Ok f /\ escaped cd cs f /\ zlen n <= zlen f.
Proof.
  intros OK Ht Hne H0 Hl. destruct (from_item_path cd OK cs n Ht H0 (text_nonempty cd cs n OK Ht Hne) Hl) as (f & He & E & Hf).
  exists f. unfold mount_file_name. rewrite E. auto.
Qed.

Lemma file_names cd : codec_ok cd -> forall css ns, Forall2 (text cd) css ns ->
  Forall (fun cs => cs <> [] /\ Forall (fun c => c <> 0) cs) css ->
  Forall (fun n => zlen n <= 922337203685477580) ns ->
  exists fs, named cd css ns fs /\ Forall2 (fun n f => mount_file_name cd n = Ok f) ns fs.
Proof.
  intros OK css ns H. induction H as [|cs n css ns Ht _ IH]; intros HC HL.
  - exists []. split; constructor.
  - inversion HC as [|? ? [Hne H0] HC']; subst. inversion HL as [|? ? Hl HL']; subst.
    destruct (IH HC' HL') as (fs & HN & HF). destruct (name_of_text cd cs n OK Ht Hne H0 Hl) as (f & Ef & He & Hf).
    exists (f :: fs). split; [exact (nm_cons cd cs n f css ns fs Ht He Hf HN)|constructor; [exact Ef|exact HF]].
Qed.

Lemma app_nil_path a n : path_of a [n] = a :: n.
Proof. cbn [path_of]. rewrite app_nil_r. reflexivity. Qed.

Lemma file_name_ok cd cs n : codec_ok cd -> text cd cs n -> cs <> [] -> Forall (fun c => c <> 0) cs ->
  zlen n <= 922337203685477580 ->
  exists f, mount_file_name cd n = Ok f /\
    Forall (fun b => 31 < b /\ b <> 47 /\ b <> 127) f /\
    (exists cs', text cd cs' f /\ Forall plain cs') /\
    forall cs' n', text cd cs' n' -> cs' <> [] -> Forall (fun c => c <> 0) cs' -> zlen n' <= 922337203685477580 ->
      zlen f < SSIZE_MAX - 1 -> mount_file_name cd n' = Ok f -> n' = n.
Proof.
  intros OK Ht Hne H0 Hl. destruct (name_of_text cd cs n OK Ht Hne H0 Hl) as (f & Ef & He & Hf).
  exists f. destruct (escaped_plain cd OK cs f He) as (cs1 & Ht1 & Hp1). split; [exact Ef|].
  split; [exact (text_bytes cd OK cs1 f Ht1 Hp1)|]. split; [eauto|].
  intros cs' n' Ht' Hne' H0' Hl' Hs Ef'. destruct (name_of_text cd cs' n' OK Ht' Hne' H0' Hl') as (f' & Ef2 & He' & Hf').
  rewrite Ef' in Ef2. injection Ef2 as <-.
  assert (Hs' : zlen (path_of 47 [f]) < SSIZE_MAX) by (rewrite app_nil_path, zlen_cons; lia).
  pose proof (nm_cons cd cs n f [] [] [] Ht He Hf (nm_nil cd)) as N1.
  pose proof (nm_cons cd cs' n' f [] [] [] Ht' He' Hf' (nm_nil cd)) as N2.
  pose proof (to_item_path cd OK _ _ _ N1 ltac:(discriminate) Hs') as E1.
  pose proof (to_item_path cd OK _ _ _ N2 ltac:(discriminate) Hs') as E2.
  rewrite E1 in E2. injection E2 as E2. rewrite !app_nil_r in E2. congruence.
Qed.

Lemma path_nonzero ns : Forall (Forall (fun b => b <> 0)) ns -> Forall (fun b => b <> 0) (path_of 92 ns).
Proof.
  induction 1 as [|n ns Hn _ IH]; cbn [path_of]; [constructor|]. constructor; [lia|]. apply Forall_app. auto.
Qed.

Lemma names_of cd css ns : codec_ok cd -> Forall2 (text cd) css ns ->
  Forall (fun cs => cs <> [] /\ Forall (fun c => c <> 0 /\ c <> 92) cs) css ->
  Forall (is_name (cd_decode cd)) ns /\ Forall (Forall (fun b => b <> 0)) ns /\
  Forall (fun cs => cs <> [] /\ Forall (fun c => c <> 0) cs) css.
Proof.
  intros OK H. induction H as [|cs n css ns Ht _ IH]; intros HC; [repeat constructor|].
  inversion HC as [|? ? [Hne H0] HC']; subst. destruct (IH HC') as (A & B & C).
  assert (H0' : Forall (fun c => c <> 0) cs) by (eapply Forall_impl; [|exact H0]; cbn; intros; lia).
  split; [|split]; constructor; auto.
  - split; [exact (text_is_text cd OK cs n Ht H0)|exact (text_nonempty cd cs n OK Ht Hne)].
  - exact (text_nonzero cd OK cs n Ht H0').
Qed.

Lemma file_names_len cd ns fs : Forall2 (fun n f => mount_file_name cd n = Ok f) ns fs ->
  Forall (fun n => zlen n <= 922337203685477580) ns.
Proof.
  induction 1 as [|n f ns fs H _ IH]; constructor; [|exact IH]. unfold mount_file_name, copy_from_item_path in H.
  destruct ((zlen n =? 0) || (SSIZE_MAX - 1 <? zlen n)); [discriminate|].
  destruct ((SSIZE_MAX - 1) / 10 <? zlen n) eqn:E; [discriminate|]. apply Z.ltb_ge in E. exact E.
Qed.

Lemma Forall2_fun {A B} (R : A -> B -> Prop) : (forall a b b', R a b -> R a b' -> b = b') ->
  forall l m m', Forall2 R l m -> Forall2 R l m' -> m = m'.
Proof.
  intros HR l m m' H. revert m'. induction H as [|a b l m Hab _ IH]; intros m' H'; inversion H'; subst; [reflexivity|].
  f_equal; eauto.
Qed.

Lemma path_len a n ns : zlen (path_of a (n :: ns)) = 1 + zlen n + zlen (path_of a ns).
Proof. cbn [path_of]. rewrite zlen_cons, zlen_app'. lia. Qed.

Lemma mount_names u cd e tr css ns fs : codec_ok cd -> una_utf8_char u = cd_decode cd ->
  named cd css ns fs -> fs <> [] -> zlen (path_of 47 fs) < SSIZE_MAX -> Forall (Forall (fun b => b <> 0)) ns ->
  mount_item_by_path u cd e (Some tr) (path_of 47 fs) = sub_item_by_utf8_path u e tr 0 (path_of 92 ns).
Proof.
  intros OK Hu HN Hne Hl H0. unfold mount_item_by_path. rewrite (to_item_path cd OK css ns fs HN Hne Hl). cbn [rbind].
  rewrite (c_string_all (path_of 92 ns)) by (apply path_nonzero, H0). reflexivity.
Qed.

Lemma mount_lookup u cd e tr css ns fs : codec_ok cd -> una_utf8_char u = cd_decode cd -> Forall2 (text cd) css ns ->
  Forall (fun cs => cs <> [] /\ Forall (fun c => c <> 0 /\ c <> 92) cs) css ->
  Forall2 (fun n f => mount_file_name cd n = Ok f) ns fs -> fs <> [] ->
  zlen (path_of 47 fs) < SSIZE_MAX ->
  mount_item_by_path u cd e (Some tr) (path_of 47 fs) = lookup_names (sub_node_by_utf8_name u e tr) 0 ns.
Proof.
  intros OK Hu HT HC HF Hne Hl. destruct (names_of cd css ns OK HT HC) as (HA & HB & HC').
  destruct (file_names cd OK css ns HT HC' (file_names_len cd ns fs HF)) as (fs' & HN & HF').
  assert (fs' = fs) as -> by (refine (Forall2_fun _ _ ns fs' fs HF' HF); congruence).
  rewrite (mount_names u cd e tr css ns fs OK Hu HN Hne Hl HB).
  pose proof (named_len cd css ns fs HN 92 47) as Hll.
  destruct ns as [|n ns]; [inversion HF; subst; congruence|].
  inversion HA as [|? ? [_ Hn] _]; subst.
  rewrite path_of_join in *. rewrite <- (app_nil_r (join (n :: ns))).
  apply path_names_all; rewrite ?Hu; auto.
  - apply (ascii_char cd OK). lia.
  - discriminate.
  - rewrite app_nil_r, <- path_of_join, path_len. rewrite <- path_of_join, path_len in Hll. pose proof (zlen_pos (path_of 92 ns)).
    assert (1 <= zlen n) by (destruct n; [congruence|rewrite zlen_cons; pose proof (zlen_pos n); lia]). unfold SSIZE_MAX in Hl. lia.
Qed.

Lemma mount_backslash u cd e tr cs1 n1 cs2 n2 :
  codec_ok cd -> una_utf8_char u = cd_decode cd -> text cd cs1 n1 -> text cd cs2 n2 ->
  cs1 <> [] -> Forall (fun c => c <> 0 /\ c <> 92) cs1 ->
  cs2 <> [] -> Forall (fun c => c <> 0 /\ c <> 92) cs2 ->
  zlen n1 + zlen n2 < 922337203685477580 ->
  exists f, mount_file_name cd (n1 ++ 92 :: n2) = Ok f /\
    (zlen f < SSIZE_MAX - 1 ->
     mount_item_by_path u cd e (Some tr) (47 :: f) = lookup_names (sub_node_by_utf8_name u e tr) 0 [n1; n2]).
Proof.
  intros OK Hu T1 T2 N1 F1 N2 F2 Hl.
  assert (T : text cd (cs1 ++ 92 :: cs2) (n1 ++ 92 :: n2)).
  { apply (text_app cd _ _ _ _ T1). change (92 :: n2) with ([92] ++ n2). constructor; [apply (co_ascii _ OK); lia|exact T2]. }
  assert (F : Forall (fun c => c <> 0) (cs1 ++ 92 :: cs2)).
  { apply Forall_app. split; [eapply Forall_impl; [|exact F1]; cbn; intros; lia|].
    constructor; [lia|]. eapply Forall_impl; [|exact F2]; cbn; intros; lia. }
  destruct (name_of_text cd _ _ OK T) as (f & Ef & He & Hf);
    [destruct cs1; discriminate|exact F|rewrite zlen_app', zlen_cons; lia|].
  exists f. split; [exact Ef|]. intros Hs.
  pose proof (nm_cons cd _ _ f [] [] [] T He Hf (nm_nil cd)) as HN.
  rewrite <- (app_nil_path 47 f).
  rewrite (mount_names u cd e tr _ _ _ OK Hu HN);
    [|discriminate|rewrite app_nil_path, zlen_cons; lia|constructor; [exact (text_nonzero cd OK _ _ T F)|constructor]].
  assert (HT : Forall2 (text cd) [cs1; cs2] [n1; n2]) by (repeat constructor; assumption).
  destruct (names_of cd [cs1; cs2] [n1; n2] OK HT) as (HA & _ & _); [repeat constructor; assumption|].
  pose proof (text_nonempty cd cs1 n1 OK T1 N1) as E1.
  rewrite app_nil_path. replace (92 :: n1 ++ 92 :: n2) with ([92] ++ join [n1; n2] ++ []) by (cbn [join]; rewrite app_nil_r; reflexivity).
  apply path_names_all; rewrite ?Hu; auto.
  - apply (ascii_char cd OK). lia.
  - discriminate.
  - cbn [join]. rewrite app_nil_r. rewrite !zlen_app', !zlen_cons, zlen_nil. pose proof (zlen_pos n1). pose proof (zlen_pos n2). lia.
Qed.

(** * Buffers *)
Lemma from_safe cd s : codec_ok cd ->
  defined (copy_from_item_path cd s) /\
  forall f size, copy_from_item_path cd s = Ok (f, size) -> zlen f < size.
Proof.
  intros OK. unfold copy_from_item_path. destruct ((zlen s =? 0) || (SSIZE_MAX - 1 <? zlen s)); [split; [exact I|discriminate]|].
  destruct ((SSIZE_MAX - 1) / 10 <? zlen s); [split; [exact I|discriminate]|].
  pose proof (zlen_pos s). destruct (from_loop_safe cd OK s (zlen s * 10 + 1) eq_refl (length s + 1) 0 []) as [->|(out & -> & Ho)];
    try (rewrite ?zlen_nil; unfold zlen; lia).
  - split; [exact I|discriminate].
  - cbn [rbind]. replace (zlen s * 10 + 1 <=? zlen out) with false by (symmetry; apply Z.leb_gt; lia).
    split; [exact I|]. intros f size [= <- <-]. exact Ho.
Qed.

Lemma to_safe cd s : codec_ok cd ->
  defined (copy_to_item_path cd s) /\
  forall p size, copy_to_item_path cd s = Ok (p, size) -> zlen p < size.
Proof.
  intros OK. unfold copy_to_item_path. destruct ((zlen s =? 0) || (SSIZE_MAX - 1 <? zlen s)) eqn:E0; [split; [exact I|discriminate]|].
  apply orb_false_elim in E0 as [E0 _]. apply Z.eqb_neq in E0. pose proof (zlen_pos s).
  destruct (arr_get_in s 0) as [c ->]; [lia|]. cbn [rbind]. destruct (negb (c =? SLASH)); [split; [exact I|discriminate]|].
  destruct (SSIZE_MAX <? zlen s + 1); [split; [exact I|discriminate]|].
  destruct (to_loop_safe cd OK s (zlen s + 1) (length s + 1) 0 []) as [->|(out & -> & Ho)];
    try (rewrite ?zlen_nil; unfold zlen; lia).
  - split; [exact I|discriminate].
  - cbn [rbind]. destruct (zlen s + 1 <=? zlen out) eqn:E; [split; [exact I|discriminate]|]. apply Z.leb_gt in E.
    split; [exact I|]. intros f size [= <- <-]. lia.
Qed.

(** * Timestamps *)
Lemma mount_time_nonzero t : t <> 0 ->
  mount_time t = do p <- (do d <- sub_s64 (s64 t) 116444736000000000; mul_s64 d 100); Ok (u64 p).
Proof. intros H0. unfold mount_time. apply Z.eqb_neq in H0. rewrite H0. reflexivity. Qed.

Lemma s64_of_u64 v : -9223372036854775808 <= v < 9223372036854775808 ->
  0 <= u64 v < 18446744073709551616 /\ s64 (u64 v) = v.
Proof.
  intros Hv. unfold u64, s64, INT64_MAX. split; [apply Z.mod_pos_bound; lia|]. rewrite Z.mod_mod by lia.
  destruct (Z_lt_le_dec v 0) as [L|L].
  - assert (v mod 18446744073709551616 = v + 18446744073709551616) as ->
      by (symmetry; apply Z.mod_unique with (q := -1); lia).
    replace (v + 18446744073709551616 <=? 9223372036854775807) with false by (symmetry; apply Z.leb_gt; lia). lia.
  - rewrite Z.mod_small by lia. replace (v <=? 9223372036854775807) with true by (symmetry; apply Z.leb_le; lia). reflexivity.
Qed.

Lemma mount_time_fits t v : 0 < t < 18446744073709551616 -> v = (t - 116444736000000000) * 100 ->
  -9223372036854775808 <= v < 9223372036854775808 -> mount_time t = Ok (u64 v).
Proof.
  intros Ht Ev Hv. rewrite mount_time_nonzero by lia.
  assert (s64 t = t) as ->.
  { unfold s64, INT64_MAX. rewrite Z.mod_small by lia. replace (t <=? 9223372036854775807) with true by (symmetry; apply Z.leb_le; lia). reflexivity. }
  unfold sub_s64, mul_s64, INT64_MIN, INT64_MAX. cbv zeta.
  replace ((t - 116444736000000000 <? -9223372036854775808) || (9223372036854775807 <? t - 116444736000000000)) with false
    by (symmetry; apply orb_false_intro; apply Z.ltb_ge; lia). cbn [rbind]. rewrite <- Ev.
  replace ((v <? -9223372036854775808) || (9223372036854775807 <? v)) with false
    by (symmetry; apply orb_false_intro; apply Z.ltb_ge; lia). reflexivity.
Qed.

Lemma mount_time_overflow t v : 0 < t < 18446744073709551616 -> v = (t - 116444736000000000) * 100 ->
  ~ (-9223372036854775808 <= v < 9223372036854775808) -> mount_time t = Undef.
Proof.
  intros Ht Ev Hv. rewrite mount_time_nonzero by lia.
  assert (Es : s64 t = t /\ t <= 9223372036854775807 \/ s64 t = t - 18446744073709551616 /\ 9223372036854775807 < t).
  { unfold s64, INT64_MAX. rewrite Z.mod_small by lia. destruct (t <=? 9223372036854775807) eqn:E; [apply Z.leb_le in E|apply Z.leb_gt in E]; lia. }
  set (x := s64 t) in *. clearbody x. unfold sub_s64, mul_s64, INT64_MIN, INT64_MAX. cbv zeta.
  destruct ((x - 116444736000000000 <? -9223372036854775808) || (9223372036854775807 <? x - 116444736000000000)); [reflexivity|].
  cbn [rbind].
  replace (((x - 116444736000000000) * 100 <? -9223372036854775808) || (9223372036854775807 <? (x - 116444736000000000) * 100))
    with true; [reflexivity|].
  symmetry. apply orb_true_iff. rewrite !Z.ltb_lt. lia.
Qed.

(** * The text of a file name *)
Lemma hex_value_snoc l d : hex_value (l ++ [d]) = 16 * hex_value l + (if d <=? 57 then d - 48 else d - 87).
Proof. unfold hex_value. rewrite fold_left_app. reflexivity. Qed.

Lemma print_hex_value w : forall c, 0 <= c < 16 ^ Z.of_nat w -> hex_value (print_hex w c) = c.
Proof.
  induction w as [|w IH]; intros c Hc; [cbn in *; lia|]. cbn [print_hex]. rewrite hex_value_snoc.
  replace (Z.of_nat (S w)) with (Z.of_nat w + 1) in Hc by lia. rewrite Z.pow_add_r in Hc by lia. change (16 ^ 1) with 16 in Hc.
  rewrite IH by (split; [apply Z.div_pos; lia|apply Z.div_lt_upper_bound; lia]).
  pose proof (Z.mod_pos_bound c 16 ltac:(lia)). pose proof (Z.div_mod c 16 ltac:(lia)). unfold hex_char.
  destruct (c mod 16 <? 10) eqn:E; [apply Z.ltb_lt in E|apply Z.ltb_ge in E].
  - replace (48 + c mod 16 <=? 57) with true by (symmetry; apply Z.leb_le; lia). lia.
  - replace (87 + c mod 16 <=? 57) with false by (symmetry; apply Z.leb_gt; lia). lia.
Qed.

Lemma print_hex_ok w c : 0 <= c < 16 ^ Z.of_nat w -> hex_digits w c (print_hex w c).
Proof. intros H. split; [apply print_hex_len|]. split; [apply print_hex_digits|apply print_hex_value, H]. Qed.

Lemma escape_x_plain c : 0 <= c -> if escape_x c then ~ plain c else plain c.
Proof.
  intros H. unfold escape_x, plain, SLASH.
  destruct (c <=? 31) eqn:E1; [apply Z.leb_le in E1; cbn; lia|apply Z.leb_gt in E1; cbn [orb]].
  destruct (c =? 47) eqn:E2; [apply Z.eqb_eq in E2; cbn; lia|apply Z.eqb_neq in E2; cbn [orb]].
  destruct (127 <=? c) eqn:E3; [apply Z.leb_le in E3|apply Z.leb_gt in E3; cbn; lia].
  destruct (c <=? 159) eqn:E4; [apply Z.leb_le in E4|apply Z.leb_gt in E4]; cbn; lia.
Qed.

Lemma escape_u_unprintable c : 0 <= c -> escape_u c = true <-> unprintable c.
Proof.
  intros H. unfold escape_u, unprintable. change 65535 with (Z.ones 16). rewrite Z.land_ones by lia. change (2 ^ 16) with 65536.
  pose proof (Z.mod_pos_bound c 65536 ltac:(lia)).
  rewrite !orb_true_iff, !andb_true_iff, !Z.leb_le, !Z.eqb_eq. change (Z.ones 16) with 65535. cbn [In]. lia.
Qed.

Lemma piece_char cd c units : codec_ok cd -> cd_encode cd c = Ok units -> c <> 0 -> file_name_char cd c (piece c units).
Proof.
  intros OK Hc H0. pose proof (encode_range cd OK _ _ Hc) as Hr. unfold piece.
  pose proof (escape_x_plain c ltac:(lia)) as Hx. pose proof (escape_u_unprintable c ltac:(lia)) as Hu.
  destruct (escape_x c) eqn:Ex.
  { pose proof (escape_x_range c ltac:(lia) Ex). apply fc_control; [exact Hx|]. apply print_hex_ok. change (16 ^ Z.of_nat 2) with 256. lia. }
  destruct (escape_u c).
  { apply fc_unprintable; [exact Hx|apply Hu; reflexivity|]. apply print_hex_ok. change (16 ^ Z.of_nat 8) with 4294967296. lia. }
  destruct (c =? ESCAPE) eqn:Ee; [apply Z.eqb_eq in Ee; subst c; apply fc_backslash; reflexivity|]. apply Z.eqb_neq in Ee.
  apply fc_other; [exact Hx| |exact Ee|exact Hc]. intros X. apply Hu in X. discriminate.
Qed.

Lemma escaped_text cd cs f : codec_ok cd -> escaped cd cs f -> file_name_text cd cs f.
Proof.
  intros OK. induction 1 as [|c units cs f Hc H0 _ (ps & HP & ->)]; [exists []; split; [constructor|reflexivity]|].
  exists (piece c units :: ps). split; [constructor; [apply piece_char; assumption|exact HP]|reflexivity].
Qed.

Lemma file_name_exact cd cs n : codec_ok cd -> text cd cs n -> cs <> [] -> Forall (fun c => c <> 0) cs ->
  zlen n <= 922337203685477580 -> exists f, mount_file_name cd n = Ok f /\ file_name_text cd cs f.
Proof.
  intros OK Ht Hne H0 Hl. destruct (name_of_text cd cs n OK Ht Hne H0 Hl) as (f & Ef & He & _).
  exists f. split; [exact Ef|]. exact (escaped_text cd cs f OK He).
Qed.

Lemma hex_value_inj : forall n l l', length l = n -> length l' = n ->
  Forall (fun d => 48 <= d <= 57 \/ 97 <= d <= 102) l -> Forall (fun d => 48 <= d <= 57 \/ 97 <= d <= 102) l' ->
  hex_value l = hex_value l' -> l = l'.
Proof.
  induction n as [|n IH]; intros l l' H1 H2 F1 F2 HV.
  - destruct l; [|discriminate]. destruct l'; [reflexivity|discriminate].
  - destruct (exists_last (l := l)) as (a & x & ->); [destruct l; [discriminate|congruence]|].
    destruct (exists_last (l := l')) as (b & y & ->); [destruct l'; [discriminate|congruence]|].
    rewrite app_length in H1, H2. cbn [length] in H1, H2. apply Forall_app in F1 as [F1 G1]. apply Forall_app in F2 as [F2 G2].
    inversion G1 as [|? ? D1 _]; subst. inversion G2 as [|? ? D2 _]; subst. rewrite !hex_value_snoc in HV.
    assert (HD : hex_value a = hex_value b /\ x = y).
    { destruct (x <=? 57) eqn:Ex; [apply Z.leb_le in Ex|apply Z.leb_gt in Ex];
      destruct (y <=? 57) eqn:Ey; [apply Z.leb_le in Ey|apply Z.leb_gt in Ey|apply Z.leb_le in Ey|apply Z.leb_gt in Ey]; lia. }
    destruct HD as [HD ->]. rewrite (IH a b ltac:(lia) ltac:(lia) F1 F2 HD). reflexivity.
Qed.

Lemma file_name_char_fun cd c p q : file_name_char cd c p -> file_name_char cd c q -> p = q.
Proof.
  intros HP HQ. assert (HB : plain 92) by (unfold plain; lia). 
  assert (HU : ~ unprintable 92) by (unfold unprintable; change (92 mod 65536) with 92; cbn [In]; lia).
  inversion HP; subst; inversion HQ; subst; try contradiction; try congruence; try reflexivity;
    match goal with H1 : hex_digits ?n c ?a, H2 : hex_digits ?n c ?b |- _ =>
      destruct H1 as (A1 & A2 & A3); destruct H2 as (B1 & B2 & B3);
      rewrite (hex_value_inj n a b A1 B1 A2 B2 (eq_trans A3 (eq_sym B3))); reflexivity end.
Qed.

Lemma file_name_text_fun cd cs f g : file_name_text cd cs f -> file_name_text cd cs g -> f = g.
Proof.
  intros (ps & HP & ->) (qs & HQ & ->). f_equal. revert qs HQ.
  induction HP as [|c p cs ps Hc _ IH]; intros qs HQ; inversion HQ; subst; [reflexivity|].
  f_equal; [eapply file_name_char_fun; eassumption|apply IH; assumption].
Qed.
