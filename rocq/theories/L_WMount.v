(** Lemmas on the names and paths of the mount tool on Windows; those of
    L_Mount.v on the other build, for the other characters. *)
From Coq Require Import ZArith List Bool Lia.
From Verif Require Import Base M_Load M_Tree M_Item M_Mount L_Base Spec_Tree Spec_Item L_Item Spec_Mount L_Mount M_WMount Spec_WMount.
Import ListNotations.
Open Scope Z_scope.

(** * Hexadecimal digits *)

Lemma whex_digit_char d : 0 <= d < 16 -> whex_digit (hex_char d) = Ok d.
Proof.
  intros H. unfold hex_char. destruct (d <? 10) eqn:E; [apply Z.ltb_lt in E|apply Z.ltb_ge in E]; unfold whex_digit.
  - replace (48 <=? 48 + d) with true by (symmetry; apply Z.leb_le; lia).
    replace (48 + d <=? 57) with true by (symmetry; apply Z.leb_le; lia). cbn [andb]. f_equal. lia.
  - replace (48 <=? 87 + d) with true by (symmetry; apply Z.leb_le; lia).
    replace (87 + d <=? 57) with false by (symmetry; apply Z.leb_gt; lia).
    replace (65 <=? 87 + d) with true by (symmetry; apply Z.leb_le; lia).
    replace (87 + d <=? 70) with false by (symmetry; apply Z.leb_gt; lia).
    replace (97 <=? 87 + d) with true by (symmetry; apply Z.leb_le; lia).
    replace (87 + d <=? 102) with true by (symmetry; apply Z.leb_le; lia). cbn [andb]. f_equal. lia.
Qed.

Lemma wcopy_hexadecimal_last n : forall s i v,
  wcopy_hexadecimal (S n) s i v =
  do w <- wcopy_hexadecimal n s i v; wcopy_hexadecimal 1 s (i + Z.of_nat n) w.
Proof.
  induction n as [|n IH]; intros s i v.
  - cbn [wcopy_hexadecimal rbind]. rewrite Z.add_0_r. reflexivity.
  - cbn [wcopy_hexadecimal]. destruct (arr_get s i) as [c| | |]; cbn [rbind]; try reflexivity.
    destruct (whex_digit c) as [d| | |]; cbn [rbind]; try reflexivity.
    change (wcopy_hexadecimal (S n) s (i + 1) (Z.lor (u32 (Z.shiftl v 4)) d) =
      do w <- wcopy_hexadecimal n s (i + 1) (Z.lor (u32 (Z.shiftl v 4)) d); wcopy_hexadecimal 1 s (i + Z.of_nat (S n)) w).
    rewrite IH. replace (i + 1 + Z.of_nat n) with (i + Z.of_nat (S n)) by lia. reflexivity.
Qed.

Lemma wprint_hex_read w : forall c pre post, (w <= 8)%nat -> 0 <= c < 16 ^ Z.of_nat w ->
  wcopy_hexadecimal w (pre ++ print_hex w c ++ post) (zlen pre) 0 = Ok c.
Proof.
  induction w as [|w IH]; intros c pre post Hw Hc; [cbn in *; f_equal; lia|].
  rewrite wcopy_hexadecimal_last. cbn [print_hex]. rewrite <- app_assoc.
  assert (Hd : 0 <= c / 16 < 16 ^ Z.of_nat w).
  { replace (Z.of_nat (S w)) with (Z.of_nat w + 1) in Hc by lia. rewrite Z.pow_add_r in Hc by lia. change (16 ^ 1) with 16 in Hc.
    split; [apply Z.div_pos; lia|apply Z.div_lt_upper_bound; lia]. }
  rewrite IH by (auto; lia). cbn [rbind wcopy_hexadecimal].
  assert (Hb : 16 ^ Z.of_nat w <= 16 ^ 7) by (apply Z.pow_le_mono_r; lia). change (16 ^ 7) with 268435456 in Hb.
  pose proof (Z.mod_pos_bound c 16 ltac:(lia)) as Hm.
  assert (Hidx : zlen pre + Z.of_nat w = zlen (pre ++ print_hex w (c / 16))).
  { rewrite zlen_app'. unfold zlen at 3. rewrite print_hex_len. reflexivity. }
  rewrite Hidx. rewrite app_assoc. cbn [app]. rewrite arr_get_app. cbn [rbind].
  rewrite whex_digit_char by exact Hm. cbn [rbind]. rewrite Z.shiftl_mul_pow2 by lia. change (2 ^ 4) with 16.
  unfold u32, TWO32. rewrite Z.mod_small by lia. rewrite lor_digit by lia. f_equal.
  pose proof (Z.div_mod c 16 ltac:(lia)). lia.
Qed.

Section Codec.
Variable cd : codec.
Hypothesis OK : codec_ok cd.

(** * Escaping *)

(** What is written for a character. *)
Definition wpiece (c : Z) (units : list Z) : list Z :=
  if wescape_x c then WESCAPE :: 120 :: print_hex 2 c
  else if escape_u c then WESCAPE :: 85 :: print_hex 8 c
  else if c =? WESCAPE then [WESCAPE; c]
  else units.

Lemma wescape_x_iff c : wescape_x c = true <-> c <= 31 \/ In c reserved \/ 127 <= c <= 159.
Proof.
  unfold wescape_x, reserved, WSEP. cbn [In]. rewrite !orb_true_iff, andb_true_iff, !Z.leb_le, !Z.eqb_eq. intuition lia.
Qed.

Lemma wescape_x_range c : 0 <= c -> wescape_x c = true -> c <= 159.
Proof. intros H0 H. apply wescape_x_iff in H. unfold reserved in H. cbn [In] in H. lia. Qed.

Lemma wpiece_len c units : cd_encode cd c = Ok units -> zlen units <= zlen (wpiece c units) <= 10 /\ 1 <= zlen (wpiece c units).
Proof.
  intros H. pose proof (encode_pos cd OK _ _ H) as Hp. destruct (co_size _ OK _ _ H) as [_ H2].
  pose proof (encode_range cd OK _ _ H) as Hr. unfold wpiece.
  destruct (wescape_x c) eqn:Ex; [|destruct (escape_u c) eqn:Eu; [|destruct (c =? WESCAPE) eqn:Ee]].
  - pose proof (wescape_x_range c ltac:(lia) Ex). rewrite !zlen_cons, !zlen_hex. lia.
  - rewrite !zlen_cons, !zlen_hex. lia.
  - apply Z.eqb_eq in Ee. subst c. rewrite !zlen_cons, zlen_nil. unfold WESCAPE in H2. lia.
  - lia.
Qed.

(** The file name of a text. *)
Inductive wescaped : list Z -> list Z -> Prop :=
| wes_nil : wescaped [] []
| wes_char c units cs f :
    cd_encode cd c = Ok units -> c <> 0 -> wescaped cs f -> wescaped (c :: cs) (wpiece c units ++ f).

Lemma wtext_escaped cs bytes : text cd cs bytes -> Forall (fun c => c <> 0) cs ->
  exists f, wescaped cs f /\ zlen bytes <= zlen f <= 10 * zlen bytes.
Proof.
  induction 1 as [|c units cs bytes Hc _ IH]; intros HF.
  - exists []. split; [constructor|]. rewrite zlen_nil. lia.
  - inversion HF as [|? ? H0 HF']; subst. destruct (IH HF') as (f & Hf & Hl). exists (wpiece c units ++ f).
    split; [constructor; assumption|]. pose proof (wpiece_len c units Hc). pose proof (encode_pos cd OK c units Hc).
    rewrite !zlen_app'. lia.
Qed.

(** One character of the item name. *)
Lemma wfrom_step fuel c units pre post size out :
  cd_encode cd c = Ok units -> c <> 0 -> zlen out + zlen (wpiece c units) < size ->
  wfrom_loop (S fuel) cd (pre ++ units ++ post) (zlen pre) size out =
  wfrom_loop fuel cd (pre ++ units ++ post) (zlen (pre ++ units)) size (out ++ wpiece c units).
Proof.
  intros Hc H0 Hs. pose proof (encode_pos cd OK _ _ Hc) as Hp. cbn [wfrom_loop].
  replace (zlen pre <? zlen (pre ++ units ++ post)) with true
    by (symmetry; apply Z.ltb_lt; rewrite !zlen_app'; pose proof (zlen_pos post); lia).
  rewrite (decode_at cd units c pre post (co_inverse _ OK _ _ Hc)). cbn [rbind].
  destruct (c =? 0) eqn:E0; [apply Z.eqb_eq in E0; congruence|].
  unfold wpiece, sprintf_at, put_char in *.
  destruct (wescape_x c) eqn:Ex; [|destruct (escape_u c) eqn:Eu; [|destruct (c =? WESCAPE) eqn:Ee]].
  - apply Z.ltb_lt in Hs. rewrite Hs. reflexivity.
  - apply Z.ltb_lt in Hs. rewrite Hs. reflexivity.
  - rewrite !zlen_cons, zlen_nil in Hs. destruct (size <? zlen out + 2) eqn:E; [apply Z.ltb_lt in E; lia|]. reflexivity.
  - rewrite Hc. cbn [rbind]. replace (zlen out + zlen units <=? size) with true by (symmetry; apply Z.leb_le; lia).
    reflexivity.
Qed.

Lemma wfrom_text cs bytes : text cd cs bytes -> Forall (fun c => c <> 0) cs ->
  forall f, wescaped cs f -> forall fuel pre size out, (length bytes < fuel)%nat -> zlen out + zlen f < size ->
  wfrom_loop fuel cd (pre ++ bytes) (zlen pre) size out = Ok (out ++ f).
Proof.
  induction 1 as [|c units cs bytes Hc _ IH]; intros HF f Hf fuel pre size out Hfu Hs.
  - inversion Hf; subst. destruct fuel; [cbn in Hfu; lia|]. cbn [wfrom_loop]. rewrite app_nil_r, Z.ltb_irrefl, app_nil_r. reflexivity.
  - inversion HF as [|? ? H0 HF']; subst. inversion Hf as [|? units' ? f' Hc' _ Hf']; subst.
    rewrite Hc in Hc'. injection Hc' as <-. rewrite zlen_app' in Hs. pose proof (zlen_pos f').
    pose proof (encode_pos cd OK _ _ Hc) as Hp. rewrite app_length in Hfu. unfold zlen in Hp.
    destruct fuel as [|fuel]; [lia|]. rewrite wfrom_step with (c := c) by (auto; lia).
    rewrite app_assoc. rewrite (IH HF' f' Hf') by (rewrite ?zlen_app'; lia). rewrite <- app_assoc. reflexivity.
Qed.

Lemma wfrom_item_path cs bytes : text cd cs bytes -> Forall (fun c => c <> 0) cs -> bytes <> [] ->
  zlen bytes <= 461168601842738790 ->
  exists f, wescaped cs f /\ wcopy_from_item_path cd bytes = Ok (f, zlen bytes * 10 + 1) /\ zlen bytes <= zlen f.
Proof.
  intros Ht H0 Hne Hl. destruct (wtext_escaped cs bytes Ht H0) as (f & Hf & Hlf). exists f. split; [exact Hf|]. split; [|lia].
  assert (1 <= zlen bytes) by (destruct bytes; [congruence|rewrite zlen_cons; pose proof (zlen_pos bytes); lia]).
  unfold wcopy_from_item_path, SSIZE_MAX.
  replace (zlen bytes =? 0) with false by (symmetry; apply Z.eqb_neq; lia).
  replace (9223372036854775807 - 1 <? zlen bytes) with false by (symmetry; apply Z.ltb_ge; lia).
  replace ((9223372036854775807 - 1) / 20 <? zlen bytes) with false
    by (symmetry; apply Z.ltb_ge; change ((9223372036854775807 - 1) / 20) with 461168601842738790; lia).
  cbn [orb]. rewrite (wfrom_text cs bytes Ht H0 f Hf _ []) by (rewrite ?zlen_nil; lia). cbn [rbind app].
  replace (zlen bytes * 10 + 1 <=? zlen f) with false by (symmetry; apply Z.leb_gt; lia). reflexivity.
Qed.

(** * Unescaping *)
Lemma wunescape_backslash pre post :
  wunescape (pre ++ WESCAPE :: post) (zlen pre) = Ok (WESCAPE, zlen (pre ++ [WESCAPE])).
Proof.
  unfold wunescape. rewrite !zlen_app', !zlen_cons. change (zlen (@nil Z)) with 0. pose proof (zlen_pos post).
  replace (zlen pre + (1 + zlen post) <? zlen pre + 1) with false by (symmetry; apply Z.ltb_ge; lia).
  rewrite arr_get_app. cbn [rbind]. rewrite Z.eqb_refl. reflexivity.
Qed.

Lemma wunescape_x c pre post : 1 <= c -> wescape_x c = true ->
  wunescape (pre ++ 120 :: print_hex 2 c ++ post) (zlen pre) = Ok (c, zlen (pre ++ 120 :: print_hex 2 c)).
Proof.
  intros H0 Hx. pose proof (wescape_x_range c ltac:(lia) Hx) as Hr. unfold wunescape.
  rewrite !zlen_app', !zlen_cons, !zlen_app', !zlen_hex. pose proof (zlen_pos post). change (Z.of_nat 2) with 2.
  replace (zlen pre + (1 + (2 + zlen post)) <? zlen pre + 1) with false by (symmetry; apply Z.ltb_ge; lia).
  rewrite arr_get_app. cbn [rbind]. change (120 =? WESCAPE) with false. change (120 =? 88) with false. change (120 =? 120) with true. cbn [andb orb].
  replace (zlen pre + (1 + (2 + zlen post)) <? zlen pre + 1 + 2) with false by (symmetry; apply Z.ltb_ge; lia).
  replace (pre ++ 120 :: print_hex 2 c ++ post) with ((pre ++ [120]) ++ print_hex 2 c ++ post) by (rewrite <- app_assoc; reflexivity).
  replace (zlen pre + 1) with (zlen (pre ++ [120])) by (rewrite zlen_app'; reflexivity).
  rewrite (wprint_hex_read 2 c) by (try lia; change (16 ^ Z.of_nat 2) with 256; lia). cbn [rbind].
  replace ((1 <=? c) && (c <=? 31) || (c =? WSEP) || (c =? 60) || (c =? 62) || (c =? 58) || (c =? 34) || (c =? 47) || (c =? 124) || (c =? 63) || (c =? 42) || (127 <=? c) && (c <=? 159)) with true.
  - rewrite zlen_app', zlen_cons, zlen_nil. f_equal. f_equal. lia.
  - symmetry. unfold wescape_x in Hx. replace (1 <=? c) with true by (symmetry; apply Z.leb_le; lia). exact Hx.
Qed.

Lemma wunescape_u c pre post : 0 <= c < 4294967296 -> escape_u c = true ->
  wunescape (pre ++ 85 :: print_hex 8 c ++ post) (zlen pre) = Ok (c, zlen (pre ++ 85 :: print_hex 8 c)).
Proof.
  intros H0 Hx. unfold wunescape.
  rewrite !zlen_app', !zlen_cons, !zlen_app', !zlen_hex. pose proof (zlen_pos post). change (Z.of_nat 8) with 8.
  replace (zlen pre + (1 + (8 + zlen post)) <? zlen pre + 1) with false by (symmetry; apply Z.ltb_ge; lia).
  rewrite arr_get_app. cbn [rbind]. change (85 =? WESCAPE) with false. change (85 =? 88) with false. change (85 =? 120) with false.
  change (85 =? 85) with true. cbn [andb orb].
  replace (zlen pre + (1 + (8 + zlen post)) <? zlen pre + 1 + 8) with false by (symmetry; apply Z.ltb_ge; lia).
  replace (pre ++ 85 :: print_hex 8 c ++ post) with ((pre ++ [85]) ++ print_hex 8 c ++ post) by (rewrite <- app_assoc; reflexivity).
  replace (zlen pre + 1) with (zlen (pre ++ [85])) by (rewrite zlen_app'; reflexivity).
  rewrite (wprint_hex_read 8 c) by (try lia; change (16 ^ Z.of_nat 8) with 4294967296; lia). cbn [rbind]. rewrite Hx.
  rewrite zlen_app', zlen_cons, zlen_nil. f_equal. f_equal. lia.
Qed.

(** One character of a file name. *)
Lemma wto_step fuel c units pre post size out :
  cd_encode cd c = Ok units -> c <> 0 -> zlen out + zlen units <= size ->
  wto_loop (S fuel) cd (pre ++ wpiece c units ++ post) (zlen pre) size out =
  wto_loop fuel cd (pre ++ wpiece c units ++ post) (zlen (pre ++ wpiece c units)) size (out ++ units).
Proof.
  intros Hc H0 Hs. pose proof (encode_range cd OK _ _ Hc) as Hr. pose proof (wpiece_len _ _ Hc) as Hl. cbn [wto_loop].
  replace (zlen pre <? zlen (pre ++ wpiece c units ++ post)) with true
    by (symmetry; apply Z.ltb_lt; rewrite !zlen_app'; pose proof (zlen_pos post); lia).
  unfold wpiece in *. destruct (wescape_x c) eqn:Ex; [|destruct (escape_u c) eqn:Eu; [|destruct (c =? WESCAPE) eqn:Ee]].
  - rewrite <- !app_comm_cons. rewrite (decode_ascii cd OK) by (unfold WESCAPE; lia). cbn [rbind].
    change (WESCAPE =? WSEP) with false. rewrite Z.eqb_refl.
    replace (pre ++ WESCAPE :: 120 :: print_hex 2 c ++ post) with ((pre ++ [WESCAPE]) ++ 120 :: print_hex 2 c ++ post) by (rewrite <- app_assoc; reflexivity).
    rewrite wunescape_x by (auto; lia). cbn [rbind]. rewrite (put_char_ok cd _ _ _ _ Hc Hs). cbn [rbind].
    replace ((pre ++ [WESCAPE]) ++ 120 :: print_hex 2 c) with (pre ++ WESCAPE :: 120 :: print_hex 2 c) by (rewrite <- app_assoc; reflexivity).
    reflexivity.
  - rewrite <- !app_comm_cons. rewrite (decode_ascii cd OK) by (unfold WESCAPE; lia). cbn [rbind].
    change (WESCAPE =? WSEP) with false. rewrite Z.eqb_refl.
    replace (pre ++ WESCAPE :: 85 :: print_hex 8 c ++ post) with ((pre ++ [WESCAPE]) ++ 85 :: print_hex 8 c ++ post) by (rewrite <- app_assoc; reflexivity).
    rewrite wunescape_u by (auto; lia). cbn [rbind]. rewrite (put_char_ok cd _ _ _ _ Hc Hs). cbn [rbind].
    replace ((pre ++ [WESCAPE]) ++ 85 :: print_hex 8 c) with (pre ++ WESCAPE :: 85 :: print_hex 8 c) by (rewrite <- app_assoc; reflexivity).
    reflexivity.
  - apply Z.eqb_eq in Ee. subst c. rewrite <- !app_comm_cons. rewrite (decode_ascii cd OK) by (unfold WESCAPE; lia). cbn [rbind].
    change (WESCAPE =? WSEP) with false. rewrite Z.eqb_refl.
    replace (pre ++ WESCAPE :: WESCAPE :: [] ++ post) with ((pre ++ [WESCAPE]) ++ WESCAPE :: post) by (rewrite <- app_assoc; reflexivity).
    rewrite wunescape_backslash. cbn [rbind]. rewrite (put_char_ok cd _ _ _ _ Hc Hs). cbn [rbind].
    replace ((pre ++ [WESCAPE]) ++ [WESCAPE]) with (pre ++ [WESCAPE; WESCAPE]) by (rewrite <- app_assoc; reflexivity).
    reflexivity.
  - rewrite (decode_at cd units c pre post (co_inverse _ OK _ _ Hc)). cbn [rbind]. rewrite Ee.
    assert (c =? WSEP = false) as ->.
    { apply Z.eqb_neq. intros ->. discriminate Ex. }
    cbn [rbind]. rewrite (put_char_ok cd _ _ _ _ Hc Hs). reflexivity.
Qed.

Lemma wto_text cs f : wescaped cs f -> forall bytes, text cd cs bytes ->
  forall fuel pre post size out, (length f <= fuel)%nat -> zlen out + zlen bytes <= size ->
  exists fuel', wto_loop fuel cd (pre ++ f ++ post) (zlen pre) size out =
                wto_loop fuel' cd (pre ++ f ++ post) (zlen (pre ++ f)) size (out ++ bytes) /\
                (fuel <= fuel' + length f)%nat.
Proof.
  induction 1 as [|c units cs f Hc H0 _ IH]; intros bytes Hb fuel pre post size out Hfu Hs.
  - inversion Hb; subst. exists fuel. rewrite !app_nil_r. split; [reflexivity|lia].
  - inversion Hb as [|? units' ? bytes' Hc' Hb']; subst. rewrite Hc in Hc'. injection Hc' as <-.
    pose proof (wpiece_len _ _ Hc) as Hl. rewrite zlen_app' in Hs. pose proof (zlen_pos bytes'). unfold zlen in Hl.
    rewrite app_length in Hfu. destruct fuel as [|fuel]; [lia|].
    rewrite <- app_assoc. rewrite wto_step with (c := c) by (auto; lia).
    destruct (IH bytes' Hb' fuel (pre ++ wpiece c units) post size (out ++ units)) as (fuel' & E & Hf'); [lia|rewrite zlen_app'; lia|].
    exists fuel'. rewrite <- !app_assoc in E. rewrite app_length. split; [rewrite ?app_assoc in *; exact E|lia].
Qed.

(** A path of file names. *)
Lemma wto_slash fuel pre post size out : zlen out + 1 <= size ->
  wto_loop (S fuel) cd (pre ++ 92 :: post) (zlen pre) size out =
  wto_loop fuel cd (pre ++ 92 :: post) (zlen (pre ++ [92])) size (out ++ [92]).
Proof.
  intros Hs. cbn [wto_loop].
  replace (zlen pre <? zlen (pre ++ 92 :: post)) with true
    by (symmetry; apply Z.ltb_lt; rewrite !zlen_app', zlen_cons; pose proof (zlen_pos post); lia).
  rewrite (decode_ascii cd OK) by lia. cbn [rbind]. change (92 =? WSEP) with true. cbn [rbind].
  rewrite (put_char_ok cd out size SEPARATOR [92]); [reflexivity|apply (co_ascii _ OK); unfold SEPARATOR; lia|].
  rewrite zlen_cons, zlen_nil. lia.
Qed.

(** Names with their texts and their file names. *)
Inductive wnamed : list (list Z) -> list (list Z) -> list (list Z) -> Prop :=
| wnm_nil : wnamed [] [] []
| wnm_cons cs n f css ns fs :
    text cd cs n -> wescaped cs f -> zlen n <= zlen f -> wnamed css ns fs -> wnamed (cs :: css) (n :: ns) (f :: fs).

Lemma wnamed_len css ns fs : wnamed css ns fs -> forall a b, zlen (path_of a ns) <= zlen (path_of b fs).
Proof.
  induction 1 as [|cs n f css ns fs _ _ Hl _ IH]; intros a b; cbn [path_of]; [lia|].
  specialize (IH a b). rewrite !zlen_cons, !zlen_app'. lia.
Qed.

Lemma wto_names css ns fs : wnamed css ns fs -> forall fuel pre size out,
  (length (path_of 92 fs) < fuel)%nat -> zlen out + zlen (path_of 92 ns) <= size ->
  wto_loop fuel cd (pre ++ path_of 92 fs) (zlen pre) size out = Ok (out ++ path_of 92 ns).
Proof.
  induction 1 as [|cs n f css ns fs Ht He Hl _ IH]; intros fuel pre size out Hfu Hs; cbn [path_of] in *.
  - destruct fuel; [cbn in Hfu; lia|]. cbn [wto_loop]. rewrite app_nil_r, Z.ltb_irrefl, app_nil_r. reflexivity.
  - rewrite zlen_cons, zlen_app' in Hs. pose proof (zlen_pos n). pose proof (zlen_pos (path_of 92 ns)).
    cbn [length] in Hfu. rewrite app_length in Hfu. destruct fuel as [|fuel]; [lia|]. rewrite wto_slash by lia.
    replace (pre ++ 92 :: f ++ path_of 92 fs) with ((pre ++ [92]) ++ f ++ path_of 92 fs) by (rewrite <- app_assoc; reflexivity).
    destruct (wto_text cs f He n Ht fuel (pre ++ [92]) (path_of 92 fs) size (out ++ [92])) as (fuel' & E & Hf'); [lia|rewrite zlen_app', zlen_cons, zlen_nil; lia|].
    rewrite E, app_assoc. rewrite IH by (rewrite ?zlen_app', ?zlen_cons, ?zlen_nil; lia).
    rewrite <- !app_assoc. reflexivity.
Qed.

Lemma wto_item_path css ns fs : wnamed css ns fs -> fs <> [] -> zlen (path_of 92 fs) < SSIZE_MAX / 2 ->
  wcopy_to_item_path cd (path_of 92 fs) = Ok (path_of 92 ns, zlen (path_of 92 fs) + 1).
Proof.
  intros H Hne Hl. pose proof (wnamed_len _ _ _ H 92 92) as Hll. unfold wcopy_to_item_path, SSIZE_MAX in *.
  change (9223372036854775807 / 2) with 4611686018427387903 in *.
  destruct fs as [|f fs]; [congruence|]. set (s := path_of 92 (f :: fs)) in *.
  assert (Hs : exists s', s = 92 :: s') by (unfold s; cbn [path_of]; eauto). destruct Hs as [s' Es].
  assert (1 <= zlen s) by (rewrite Es, zlen_cons; pose proof (zlen_pos s'); lia).
  replace (zlen s =? 0) with false by (symmetry; apply Z.eqb_neq; lia).
  replace (9223372036854775807 - 1 <? zlen s) with false by (symmetry; apply Z.ltb_ge; lia). cbn [orb].
  assert (arr_get s 0 = Ok 92) as -> by (rewrite Es; reflexivity). cbn [rbind]. change (92 =? WSEP) with true. cbn [negb].
  replace (4611686018427387903 <? zlen s + 1) with false by (symmetry; apply Z.ltb_ge; lia).
  rewrite (wto_names _ _ _ H _ []) by (rewrite ?zlen_nil; fold s; lia). cbn [rbind app].
  replace (zlen s + 1 <=? zlen (path_of 92 ns)) with false by (symmetry; apply Z.leb_gt; lia). reflexivity.
Qed.

(** * The characters of file names *)

Lemma wpiece_plain c units : cd_encode cd c = Ok units -> c <> 0 ->
  exists cs, text cd cs (wpiece c units) /\ Forall wplain cs.
Proof.
  intros Hc H0. pose proof (encode_range cd OK _ _ Hc) as Hr. unfold wpiece.
  assert (HX : forall a w, a = 120 \/ a = 85 -> exists cs, text cd cs (WESCAPE :: a :: print_hex w c) /\ Forall wplain cs).
  { intros a w Ha. exists (WESCAPE :: a :: print_hex w c). unfold wplain. split; [apply (text_ascii cd OK)|];
    apply hex_text; unfold WESCAPE, reserved; cbn [In]; intros; lia. }
  destruct (wescape_x c) eqn:Ex; [|destruct (escape_u c) eqn:Eu; [|destruct (c =? WESCAPE) eqn:Ee]].
  - apply HX. lia.
  - apply HX. lia.
  - apply Z.eqb_eq in Ee. subst c. exists [WESCAPE; WESCAPE]. split; [apply (text_ascii cd OK)|]; repeat constructor; unfold wplain, WESCAPE, reserved; cbn [In]; lia.
  - exists [c]. split; [rewrite <- (app_nil_r units); constructor; [exact Hc|constructor]|]. constructor; [|constructor].
    assert (HN : ~ (c <= 31 \/ In c reserved \/ 127 <= c <= 159)) by (rewrite <- wescape_x_iff, Ex; discriminate).
    unfold wplain. repeat split; try tauto. lia.
Qed.

Lemma wescaped_plain cs f : wescaped cs f -> exists cs', text cd cs' f /\ Forall wplain cs'.
Proof.
  induction 1 as [|c units cs f Hc H0 _ (cs' & Ht & Hp)]; [exists []; split; constructor|].
  destruct (wpiece_plain c units Hc H0) as (cs1 & Ht1 & Hp1). exists (cs1 ++ cs'). split; [apply (text_app cd); assumption|].
  apply Forall_app. auto.
Qed.

(** A text of plain characters has no unit of a control character, a reserved
    character or 0. *)
Lemma wtext_bytes cs f : text cd cs f -> Forall wplain cs -> Forall (fun b => 31 < b /\ ~ In b reserved /\ b <> 127) f.
Proof.
  induction 1 as [|c units cs f Hc _ IH]; intros HF; [constructor|]. inversion HF as [|? ? [P1 [P2 P3]] HF']; subst.
  apply Forall_app. split; [|apply IH, HF']. destruct (Z_lt_le_dec c 128) as [L|L].
  - rewrite (co_ascii _ OK) in Hc by lia. injection Hc as <-. constructor; [|constructor]. repeat split; [lia|exact P2|lia].
  - eapply Forall_impl; [|exact (co_other _ OK _ _ Hc L)]. unfold reserved. cbn [In]. cbv beta. intros. lia.
Qed.

(** * Buffers *)
Lemma wfrom_loop_safe s size : size = zlen s * 10 + 1 -> forall fuel index out,
  0 <= index <= zlen s -> zlen out <= 10 * index -> zlen s - index < Z.of_nat fuel ->
  wfrom_loop fuel cd s index size out = Err \/
  exists out', wfrom_loop fuel cd s index size out = Ok out' /\ zlen out' < size.
Proof.
  intros ->. induction fuel as [|fuel IH]; intros index out Hi Ho Hf; [lia|]. cbn [wfrom_loop].
  destruct (index <? zlen s) eqn:E; [apply Z.ltb_lt in E|right; exists out; split; [reflexivity|lia]].
  destruct (co_decode _ OK s index ltac:(lia)) as [->|(c & i' & -> & Hi')]; [left; reflexivity|]. cbn [rbind].
  destruct (c =? 0); [right; exists out; split; [reflexivity|lia]|].
  assert (HS : forall a b w, (w <= 8)%nat -> exists out', sprintf_at out (zlen s * 10 + 1) (a :: b :: print_hex w c) = Ok out' /\ zlen out' <= 10 * i').
  { intros a b w Hw. unfold sprintf_at. rewrite !zlen_cons, zlen_hex.
    replace (zlen out + (1 + (1 + Z.of_nat w)) <? zlen s * 10 + 1) with true by (symmetry; apply Z.ltb_lt; lia).
    eexists. split; [reflexivity|]. rewrite zlen_app', !zlen_cons, zlen_hex. lia. }
  destruct (wescape_x c).
  { destruct (HS WESCAPE 120 2%nat) as (out' & -> & Ho'); [lia|]. cbn [rbind]. apply IH; lia. }
  destruct (escape_u c).
  { destruct (HS WESCAPE 85 8%nat) as (out' & -> & Ho'); [lia|]. cbn [rbind]. apply IH; lia. }
  destruct (c =? WESCAPE).
  { destruct (zlen s * 10 + 1 <? zlen out + 2); [left; reflexivity|].
    apply IH; [lia|rewrite zlen_app', !zlen_cons, zlen_nil; lia|lia]. }
  unfold put_char. pose proof (co_defined _ OK c) as Hd. destruct (cd_encode cd c) as [units| | |] eqn:Ec; cbn [rbind];
    [|left; reflexivity|destruct Hd|destruct Hd].
  destruct (zlen out + zlen units <=? zlen s * 10 + 1); cbn [rbind]; [|left; reflexivity].
  pose proof (encode_pos cd OK _ _ Ec). apply IH; [lia|rewrite zlen_app'; lia|lia].
Qed.

Lemma wcopy_hexadecimal_safe s n : forall index v, 0 <= index -> index + Z.of_nat n <= zlen s ->
  defined (wcopy_hexadecimal n s index v).
Proof.
  induction n as [|n IH]; intros index v H0 H; cbn [wcopy_hexadecimal]; [exact I|].
  destruct (arr_get_in s index) as [c ->]; [lia|]. cbn [rbind]. unfold whex_digit.
  destruct ((48 <=? c) && (c <=? 57)); cbn [rbind]; [apply IH; lia|].
  destruct ((65 <=? c) && (c <=? 70)); cbn [rbind]; [apply IH; lia|].
  destruct ((97 <=? c) && (c <=? 102)); cbn [rbind]; [apply IH; lia|exact I].
Qed.

Lemma wunescape_safe s index : 0 <= index <= zlen s ->
  wunescape s index = Err \/ exists c i, wunescape s index = Ok (c, i) /\ index < i <= zlen s.
Proof.
  intros Hi. unfold wunescape. destruct (zlen s <? index + 1) eqn:E; [left; reflexivity|]. apply Z.ltb_ge in E.
  destruct (arr_get_in s index) as [c ->]; [lia|]. cbn [rbind].
  destruct (c =? WESCAPE); [right; do 2 eexists; split; [reflexivity|lia]|].
  destruct ((c =? 88) || (c =? 120)).
  { destruct (zlen s <? index + 1 + 2) eqn:E2; [left; reflexivity|]. apply Z.ltb_ge in E2.
    pose proof (wcopy_hexadecimal_safe s 2 (index + 1) 0 ltac:(lia) ltac:(lia)) as H.
    destruct (wcopy_hexadecimal 2 s (index + 1) 0) as [v| | |]; cbn [rbind]; try destruct H; [|left; reflexivity].
    match goal with |- context [if ?b then Ok _ else Err] => destruct b end; [|left; reflexivity].
    right; do 2 eexists; split; [reflexivity|lia]. }
  destruct ((c =? 85) || (c =? 117)); [|left; reflexivity].
  destruct (zlen s <? index + 1 + 8) eqn:E2; [left; reflexivity|]. apply Z.ltb_ge in E2.
  pose proof (wcopy_hexadecimal_safe s 8 (index + 1) 0 ltac:(lia) ltac:(lia)) as H.
  destruct (wcopy_hexadecimal 8 s (index + 1) 0) as [v| | |]; cbn [rbind]; try destruct H; [|left; reflexivity].
  destruct (escape_u v); [|left; reflexivity]. right; do 2 eexists; split; [reflexivity|lia].
Qed.

Lemma wto_loop_safe s size : forall fuel index out, 0 <= index <= zlen s -> zlen out <= size ->
  zlen s - index < Z.of_nat fuel ->
  wto_loop fuel cd s index size out = Err \/ exists out', wto_loop fuel cd s index size out = Ok out' /\ zlen out' <= size.
Proof.
  induction fuel as [|fuel IH]; intros index out Hi Ho Hf; [lia|]. cbn [wto_loop].
  destruct (index <? zlen s) eqn:E; [apply Z.ltb_lt in E|right; exists out; split; [reflexivity|lia]].
  destruct (co_decode _ OK s index ltac:(lia)) as [->|(c & i' & -> & Hi')]; [left; reflexivity|]. cbn [rbind].
  assert (HP : forall c' i'', index < i'' <= zlen s ->
    (do out' <- put_char cd out size c'; wto_loop fuel cd s i'' size out') = Err \/
    exists out', (do out' <- put_char cd out size c'; wto_loop fuel cd s i'' size out') = Ok out' /\ zlen out' <= size).
  { intros c' i'' H'. unfold put_char. pose proof (co_defined _ OK c') as Hd.
    destruct (cd_encode cd c') as [units| | |] eqn:Ec; cbn [rbind]; [|left; reflexivity|destruct Hd|destruct Hd].
    destruct (zlen out + zlen units <=? size) eqn:El; cbn [rbind]; [|left; reflexivity]. apply Z.leb_le in El.
    apply IH; [lia|rewrite zlen_app'; lia|lia]. }
  destruct (c =? WSEP); [cbn [rbind]; apply HP; lia|]. destruct (c =? WESCAPE); [|cbn [rbind]; apply HP; lia].
  destruct (wunescape_safe s i' ltac:(lia)) as [->|(c' & i'' & -> & Hi'')]; [left; reflexivity|]. cbn [rbind]. apply HP; lia.
Qed.
End Codec.

(** * Names and paths *)

Lemma wescaped_unique cd cs f f' : wescaped cd cs f -> wescaped cd cs f' -> f = f'.
Proof.
  intros H. revert f'. induction H as [|c units cs f Hc H0 _ IH]; intros f' H'; inversion H'; subst; [reflexivity|].
  match goal with H1 : cd_encode cd c = Ok ?x, H2 : cd_encode cd c = Ok ?y |- _ => rewrite H1 in H2; injection H2 as <- end.
  f_equal. apply IH. assumption.
Qed.

Lemma wname_of_text cd cs n : codec_ok cd -> text cd cs n -> cs <> [] -> Forall (fun c => c <> 0) cs ->
  zlen n <= 461168601842738790 -> exists f, wmount_file_name cd n = Ok f /\ wescaped cd cs f /\ zlen n <= zlen f.
Proof.
  intros OK Ht Hne H0 Hl. destruct (wfrom_item_path cd OK cs n Ht H0 (text_nonempty cd cs n OK Ht Hne) Hl) as (f & He & E & Hf).
  exists f. unfold wmount_file_name. rewrite E. auto.
Qed.

Lemma wfile_names cd : codec_ok cd -> forall css ns, Forall2 (text cd) css ns ->
  Forall (fun cs => cs <> [] /\ Forall (fun c => c <> 0) cs) css ->
  Forall (fun n => zlen n <= 461168601842738790) ns ->
  exists fs, wnamed cd css ns fs /\ Forall2 (fun n f => wmount_file_name cd n = Ok f) ns fs.
Proof.
  intros OK css ns H. induction H as [|cs n css ns Ht _ IH]; intros HC HL.
  - exists []. split; constructor.
  - inversion HC as [|? ? [Hne H0] HC']; subst. inversion HL as [|? ? Hl HL']; subst.
    destruct (IH HC' HL') as (fs & HN & HF). destruct (wname_of_text cd cs n OK Ht Hne H0 Hl) as (f & Ef & He & Hf).
    exists (f :: fs). split; [exact (wnm_cons cd cs n f css ns fs Ht He Hf HN)|constructor; [exact Ef|exact HF]].
Qed.

Lemma wfile_name_ok cd cs n : codec_ok cd -> text cd cs n -> cs <> [] -> Forall (fun c => c <> 0) cs ->
  zlen n <= 461168601842738790 ->
  exists f, wmount_file_name cd n = Ok f /\
    Forall (fun b => 31 < b /\ ~ In b reserved /\ b <> 127) f /\
    (exists cs', text cd cs' f /\ Forall wplain cs') /\
    forall cs' n', text cd cs' n' -> cs' <> [] -> Forall (fun c => c <> 0) cs' -> zlen n' <= 461168601842738790 ->
      zlen f < SSIZE_MAX / 2 - 1 -> wmount_file_name cd n' = Ok f -> n' = n.
Proof.
  intros OK Ht Hne H0 Hl. destruct (wname_of_text cd cs n OK Ht Hne H0 Hl) as (f & Ef & He & Hf).
  exists f. destruct (wescaped_plain cd OK cs f He) as (cs1 & Ht1 & Hp1). split; [exact Ef|].
  split; [exact (wtext_bytes cd OK cs1 f Ht1 Hp1)|]. split; [eauto|].
  intros cs' n' Ht' Hne' H0' Hl' Hs Ef'. destruct (wname_of_text cd cs' n' OK Ht' Hne' H0' Hl') as (f' & Ef2 & He' & Hf').
  rewrite Ef' in Ef2. injection Ef2 as <-.
  assert (Hs' : zlen (path_of 92 [f]) < SSIZE_MAX / 2) by (rewrite app_nil_path, zlen_cons; lia).
  pose proof (wnm_cons cd cs n f [] [] [] Ht He Hf (wnm_nil cd)) as N1.
  pose proof (wnm_cons cd cs' n' f [] [] [] Ht' He' Hf' (wnm_nil cd)) as N2.
  pose proof (wto_item_path cd OK _ _ _ N1 ltac:(discriminate) Hs') as E1.
  pose proof (wto_item_path cd OK _ _ _ N2 ltac:(discriminate) Hs') as E2.
  rewrite E1 in E2. injection E2 as E2. rewrite !app_nil_r in E2. congruence.
Qed.

Lemma wfile_names_len cd ns fs : Forall2 (fun n f => wmount_file_name cd n = Ok f) ns fs ->
  Forall (fun n => zlen n <= 461168601842738790) ns.
Proof.
  induction 1 as [|n f ns fs H _ IH]; constructor; [|exact IH]. unfold wmount_file_name, wcopy_from_item_path in H.
  destruct ((zlen n =? 0) || (SSIZE_MAX - 1 <? zlen n)); [discriminate|].
  destruct ((SSIZE_MAX - 1) / 20 <? zlen n) eqn:E; [discriminate|]. apply Z.ltb_ge in E. exact E.
Qed.

Lemma wmount_names u cd e tr css ns fs : codec_ok cd -> una_utf16_char u = cd_decode cd ->
  wnamed cd css ns fs -> fs <> [] -> zlen (path_of 92 fs) < SSIZE_MAX / 2 -> Forall (Forall (fun b => b <> 0)) ns ->
  wmount_item_by_path u cd e (Some tr) (path_of 92 fs) = sub_item_by_utf16_path u e tr 0 (path_of 92 ns).
Proof.
  intros OK Hu HN Hne Hl H0. unfold wmount_item_by_path. rewrite (wto_item_path cd OK css ns fs HN Hne Hl). cbn [rbind].
  rewrite (c_string_all (path_of 92 ns)) by (apply path_nonzero, H0). reflexivity.
Qed.

Lemma wmount_lookup u cd e tr css ns fs : codec_ok cd -> una_utf16_char u = cd_decode cd -> Forall2 (text cd) css ns ->
  Forall (fun cs => cs <> [] /\ Forall (fun c => c <> 0 /\ c <> 92) cs) css ->
  Forall2 (fun n f => wmount_file_name cd n = Ok f) ns fs -> fs <> [] ->
  zlen (path_of 92 fs) < SSIZE_MAX / 2 ->
  wmount_item_by_path u cd e (Some tr) (path_of 92 fs) = lookup_names (sub_node_by_utf16_name u e tr) 0 ns.
Proof.
  intros OK Hu HT HC HF Hne Hl. destruct (names_of cd css ns OK HT HC) as (HA & HB & HC').
  destruct (wfile_names cd OK css ns HT HC' (wfile_names_len cd ns fs HF)) as (fs' & HN & HF').
  assert (fs' = fs) as -> by (refine (Forall2_fun _ _ ns fs' fs HF' HF); congruence).
  rewrite (wmount_names u cd e tr css ns fs OK Hu HN Hne Hl HB).
  pose proof (wnamed_len cd css ns fs HN 92 92) as Hll.
  destruct ns as [|n ns]; [inversion HF; subst; congruence|].
  inversion HA as [|? ? [_ Hn] _]; subst.
  rewrite path_of_join in *. rewrite <- (app_nil_r (join (n :: ns))).
  apply path_names_all; rewrite ?Hu; auto.
  - apply (ascii_char cd OK). lia.
  - discriminate.
  - rewrite app_nil_r, <- path_of_join, path_len. rewrite <- path_of_join, path_len in Hll. pose proof (zlen_pos (path_of 92 ns)).
    assert (1 <= zlen n) by (destruct n; [congruence|rewrite zlen_cons; pose proof (zlen_pos n); lia]). unfold SSIZE_MAX in Hl. change (9223372036854775807 / 2) with 4611686018427387903 in Hl. lia.
Qed.

Lemma wmount_backslash u cd e tr cs1 n1 cs2 n2 :
  codec_ok cd -> una_utf16_char u = cd_decode cd -> text cd cs1 n1 -> text cd cs2 n2 ->
  cs1 <> [] -> Forall (fun c => c <> 0 /\ c <> 92) cs1 ->
  cs2 <> [] -> Forall (fun c => c <> 0 /\ c <> 92) cs2 ->
  zlen n1 + zlen n2 < 461168601842738790 ->
  exists f, wmount_file_name cd (n1 ++ 92 :: n2) = Ok f /\
    (zlen f < SSIZE_MAX / 2 - 1 ->
     wmount_item_by_path u cd e (Some tr) (92 :: f) = lookup_names (sub_node_by_utf16_name u e tr) 0 [n1; n2]).
Proof.
  intros OK Hu T1 T2 N1 F1 N2 F2 Hl.
  assert (T : text cd (cs1 ++ 92 :: cs2) (n1 ++ 92 :: n2)).
  { apply (text_app cd _ _ _ _ T1). change (92 :: n2) with ([92] ++ n2). constructor; [apply (co_ascii _ OK); lia|exact T2]. }
  assert (F : Forall (fun c => c <> 0) (cs1 ++ 92 :: cs2)).
  { apply Forall_app. split; [eapply Forall_impl; [|exact F1]; cbn; intros; lia|].
    constructor; [lia|]. eapply Forall_impl; [|exact F2]; cbn; intros; lia. }
  destruct (wname_of_text cd _ _ OK T) as (f & Ef & He & Hf);
    [destruct cs1; discriminate|exact F|rewrite zlen_app', zlen_cons; lia|].
  exists f. split; [exact Ef|]. intros Hs.
  pose proof (wnm_cons cd _ _ f [] [] [] T He Hf (wnm_nil cd)) as HN.
  rewrite <- (app_nil_path 92 f).
  rewrite (wmount_names u cd e tr _ _ _ OK Hu HN);
    [|discriminate|rewrite app_nil_path, zlen_cons; lia|constructor; [exact (text_nonzero cd OK _ _ T F)|constructor]].
  assert (HT : Forall2 (text cd) [cs1; cs2] [n1; n2]) by (repeat constructor; assumption).
  destruct (names_of cd [cs1; cs2] [n1; n2] OK HT) as (HA & _ & _); [repeat constructor; assumption|].
  pose proof (text_nonempty cd cs1 n1 OK T1 N1) as E1.
  rewrite app_nil_path. replace (92 :: n1 ++ 92 :: n2) with ([92] ++ join [n1; n2] ++ []) by (cbn [join]; rewrite app_nil_r; reflexivity).
  apply path_names_all; rewrite ?Hu; auto.
  - apply (ascii_char cd OK). lia.
  - discriminate.
  - cbn [join]. rewrite app_nil_r. rewrite !zlen_app', !zlen_cons, zlen_nil. pose proof (zlen_pos n1). pose proof (zlen_pos n2). lia.
Qed.

(** * Buffers *)
Lemma wfrom_safe cd s : codec_ok cd ->
  defined (wcopy_from_item_path cd s) /\
  forall f size, wcopy_from_item_path cd s = Ok (f, size) -> zlen f < size.
Proof.
  intros OK. unfold wcopy_from_item_path. destruct ((zlen s =? 0) || (SSIZE_MAX - 1 <? zlen s)); [split; [exact I|discriminate]|].
  destruct ((SSIZE_MAX - 1) / 20 <? zlen s); [split; [exact I|discriminate]|].
  pose proof (zlen_pos s). destruct (wfrom_loop_safe cd OK s (zlen s * 10 + 1) eq_refl (length s + 1) 0 []) as [->|(out & -> & Ho)];
    try (rewrite ?zlen_nil; unfold zlen; lia).
  - split; [exact I|discriminate].
  - cbn [rbind]. replace (zlen s * 10 + 1 <=? zlen out) with false by (symmetry; apply Z.leb_gt; lia).
    split; [exact I|]. intros f size [= <- <-]. exact Ho.
Qed.

Lemma wto_safe cd s : codec_ok cd ->
  defined (wcopy_to_item_path cd s) /\
  forall p size, wcopy_to_item_path cd s = Ok (p, size) -> zlen p < size.
Proof.
  intros OK. unfold wcopy_to_item_path. destruct ((zlen s =? 0) || (SSIZE_MAX - 1 <? zlen s)) eqn:E0; [split; [exact I|discriminate]|].
  apply orb_false_elim in E0 as [E0 _]. apply Z.eqb_neq in E0. pose proof (zlen_pos s).
  destruct (arr_get_in s 0) as [c ->]; [lia|]. cbn [rbind]. destruct (negb (c =? WSEP)); [split; [exact I|discriminate]|].
  destruct (SSIZE_MAX / 2 <? zlen s + 1); [split; [exact I|discriminate]|].
  destruct (wto_loop_safe cd OK s (zlen s + 1) (length s + 1) 0 []) as [->|(out & -> & Ho)];
    try (rewrite ?zlen_nil; unfold zlen; lia).
  - split; [exact I|discriminate].
  - cbn [rbind]. destruct (zlen s + 1 <=? zlen out) eqn:E; [split; [exact I|discriminate]|]. apply Z.leb_gt in E.
    split; [exact I|]. intros f size [= <- <-]. lia.
Qed.

(** * Timestamps *)

(** * The text of a file name *)

Lemma wescape_x_plain c : 0 <= c -> if wescape_x c then ~ wplain c else wplain c.
Proof.
  intros H. pose proof (wescape_x_iff c) as HI. unfold wplain. destruct (wescape_x c).
  - destruct (proj1 HI eq_refl) as [A|[A|A]]; [lia|tauto|tauto].
  - assert (~ (c <= 31 \/ In c reserved \/ 127 <= c <= 159)) by (rewrite <- HI; discriminate).
    repeat split; try tauto. lia.
Qed.

Lemma wpiece_char cd c units : codec_ok cd -> cd_encode cd c = Ok units -> c <> 0 -> wfile_name_char cd c (wpiece c units).
Proof.
  intros OK Hc H0. pose proof (encode_range cd OK _ _ Hc) as Hr. unfold wpiece.
  pose proof (wescape_x_plain c ltac:(lia)) as Hx. pose proof (escape_u_unprintable c ltac:(lia)) as Hu.
  destruct (wescape_x c) eqn:Ex.
  { pose proof (wescape_x_range c ltac:(lia) Ex). apply wc_control; [exact Hx|]. apply print_hex_ok. change (16 ^ Z.of_nat 2) with 256. lia. }
  destruct (escape_u c).
  { apply wc_unprintable; [exact Hx|apply Hu; reflexivity|]. apply print_hex_ok. change (16 ^ Z.of_nat 8) with 4294967296. lia. }
  destruct (c =? WESCAPE) eqn:Ee; [apply Z.eqb_eq in Ee; subst c; apply wc_circumflex; reflexivity|]. apply Z.eqb_neq in Ee.
  apply wc_other; [exact Hx| |exact Ee|exact Hc]. intros X. apply Hu in X. discriminate.
Qed.

Lemma wescaped_text cd cs f : codec_ok cd -> wescaped cd cs f -> wfile_name_text cd cs f.
Proof.
  intros OK. induction 1 as [|c units cs f Hc H0 _ (ps & HP & ->)]; [exists []; split; [constructor|reflexivity]|].
  exists (wpiece c units :: ps). split; [constructor; [apply wpiece_char; assumption|exact HP]|reflexivity].
Qed.

Lemma wfile_name_exact cd cs n : codec_ok cd -> text cd cs n -> cs <> [] -> Forall (fun c => c <> 0) cs ->
  zlen n <= 461168601842738790 -> exists f, wmount_file_name cd n = Ok f /\ wfile_name_text cd cs f.
Proof.
  intros OK Ht Hne H0 Hl. destruct (wname_of_text cd cs n OK Ht Hne H0 Hl) as (f & Ef & He & _).
  exists f. split; [exact Ef|]. exact (wescaped_text cd cs f OK He).
Qed.

Lemma wfile_name_char_fun cd c p q : wfile_name_char cd c p -> wfile_name_char cd c q -> p = q.
Proof.
  intros HP HQ. assert (HB : wplain 94) by (unfold wplain, reserved; cbn [In]; lia). 
  assert (HU : ~ unprintable 94) by (unfold unprintable; change (94 mod 65536) with 94; cbn [In]; lia).
  inversion HP; subst; inversion HQ; subst; try contradiction; try congruence; try reflexivity;
    match goal with H1 : hex_digits ?n c ?a, H2 : hex_digits ?n c ?b |- _ =>
      destruct H1 as (A1 & A2 & A3); destruct H2 as (B1 & B2 & B3);
      rewrite (hex_value_inj n a b A1 B1 A2 B2 (eq_trans A3 (eq_sym B3))); reflexivity end.
Qed.

Lemma wfile_name_text_fun cd cs f g : wfile_name_text cd cs f -> wfile_name_text cd cs g -> f = g.
Proof.
  intros (ps & HP & ->) (qs & HQ & ->). f_equal. revert qs HQ.
  induction HP as [|c p cs ps Hc _ IH]; intros qs HQ; inversion HQ; subst; [reflexivity|].
  f_equal; [eapply wfile_name_char_fun; eassumption|apply IH; assumption].
Qed.
