(** Lemmas on the mounted file on Windows. *)
From Coq Require Import ZArith List Bool Lia Arith.
From Verif Require Import Base Spec_IO M_Table M_Load M_Stream M_Tree M_Open M_Item M_Mount M_WMount M_Fuse M_Dokan
  Spec_Stream Spec_Content Spec_Tree Spec_Item Spec_Mount Spec_WMount Spec_Fuse Spec_Dokan
  L_Base L_Load L_Open L_Open2 L_Session L_Stream L_Stream2 L_Stream3 L_Tree L_Tree2 L_Tree3 L_Item L_Mount L_WMount L_Fuse L_Fuse2.
Import ListNotations.
Open Scope Z_scope.

Lemma ok_same {A} (a b : A) : Ok a = Ok b -> b = a.
Proof. congruence. Qed.

(** * Paths *)
Lemma last_backslash_at (pre name : list Z) n : ~ In 92 name ->
  (length pre <= n <= length (pre ++ 92%Z :: name))%nat ->
  last_backslash (pre ++ 92 :: name) n = Ok (zlen pre).
Proof.
  intros Hno. induction n as [|n IH]; intros Hn.
  - destruct pre; [reflexivity|cbn in Hn; lia].
  - cbn [last_backslash]. destruct (Nat.eq_dec (length pre) (S n)) as [E|E].
    + rewrite <- app_assoc. cbn [app].
      replace (Z.of_nat (S n)) with (zlen pre) by (unfold zlen; lia).
      rewrite arr_get_app. cbn [rbind]. change (92 =? WSEP) with true. reflexivity.
    + assert (Hc : exists c, arr_get ((pre ++ 92 :: name) ++ [0]) (Z.of_nat (S n)) = Ok c /\ c <> 92).
      { rewrite <- app_assoc. cbn [app].
        destruct (znth_some (pre ++ 92 :: name ++ [0]) (Z.of_nat (S n))) as (c & Hc).
        { rewrite app_length in Hn. cbn [length] in Hn.
          rewrite zlen_app', zlen_cons, zlen_app'. unfold zlen. cbn [length]. lia. }
        exists c. split; [apply arr_get_ok, Hc|].
        rewrite znth_app_r in Hc by (unfold zlen; lia).
        unfold znth in Hc. destruct (Z.of_nat (S n) - zlen pre <? 0) eqn:El; [discriminate|].
        replace (Z.to_nat (Z.of_nat (S n) - zlen pre)) with (S (n - length pre)) in Hc by (unfold zlen; lia).
        cbn [nth_error] in Hc. apply nth_error_In, in_app_or in Hc as [Hc|[<-|[]]]; [|lia].
        intros ->. exact (Hno Hc). }
      destruct Hc as (c & -> & Hc). cbn [rbind].
      replace (c =? WSEP) with false by (symmetry; apply Z.eqb_neq; exact Hc).
      apply IH. lia.
Qed.

Lemma wentry_by_path_at m pre name : ~ In 92 name -> pre = [] \/ name <> [] ->
  zlen (pre ++ 92 :: name) < SSIZE_MAX ->
  wentry_by_path m (pre ++ 92 :: name) =
  do o <- wmount_item_by_path (mt_una m) (mt_codec m) (v_byte_order (mt_volume m)) (mt_tree m) (pre ++ 92 :: name);
  Ok (option_map (fun k => {| fe_node := k; fe_name := name; fe_cursor := 0 |}) o).
Proof.
  intros Hno Hne Hl. set (path := pre ++ 92 :: name) in *. unfold wentry_by_path.
  assert (Hz : zlen path = zlen pre + 1 + zlen name) by (unfold path; rewrite zlen_app', zlen_cons; lia).
  pose proof (zlen_pos pre). pose proof (zlen_pos name).
  replace (zlen path =? 0) with false by (symmetry; apply Z.eqb_neq; lia).
  destruct (arr_get_in path (zlen path - 1)) as (c & Hc); [lia|]. rewrite Hc. cbn [rbind].
  assert (Hlast : (2 <=? zlen path) && (c =? WSEP) = false).
  { destruct (2 <=? zlen path) eqn:E2; [|reflexivity]. apply Z.leb_le in E2. cbn [andb]. apply Z.eqb_neq.
    intros ->. apply arr_get_ok in Hc. unfold path in Hc. rewrite znth_app_r in Hc by (fold path; lia). fold path in Hc.
    unfold znth in Hc. destruct (zlen path - 1 - zlen pre <? 0) eqn:El; [discriminate|].
    destruct name as [|x name].
    - destruct Hne as [->|]; [|congruence]. cbn in E2. lia.
    - replace (Z.to_nat (zlen path - 1 - zlen pre)) with (S (length name)) in Hc
        by (rewrite Hz, zlen_cons; unfold zlen; lia).
      cbn [nth_error] in Hc. apply nth_error_In in Hc. apply Hno. exact Hc. }
  rewrite Hlast. unfold path at 1. rewrite last_backslash_at by (auto; fold path; unfold zlen in *; lia).
  cbn [rbind]. rewrite slice_whole.
  destruct (wmount_item_by_path _ _ _ _ path) as [[k|]| | |]; cbn [rbind option_map]; try reflexivity.
  replace (zlen path - (zlen pre + 1)) with (zlen name) by lia.
  unfold SSIZE_MAX in *. unfold u64. rewrite Z.mod_small by lia.
  replace (9223372036854775807 - 1 <? zlen name) with false by (symmetry; apply Z.ltb_ge; lia).
  replace (zlen path + 1 <? zlen pre + 1 + zlen name) with false by (symmetry; apply Z.ltb_ge; lia).
  do 3 f_equal. unfold slice, path, zlen. replace (Z.to_nat (Z.of_nat (length pre) + 1)) with (length pre + 1)%nat by lia.
  replace (pre ++ 92 :: name) with ((pre ++ [92]) ++ name) by (rewrite <- app_assoc; reflexivity).
  rewrite skipn_app, app_length. cbn [length]. rewrite Nat.sub_diag. cbn [skipn].
  rewrite skipn_all2 by (rewrite app_length; cbn; lia). cbn [app]. rewrite Nat2Z.id. apply firstn_all.
Qed.

Lemma wfile_name_good cd cs n f : codec_ok cd -> text cd cs n -> cs <> [] -> Forall (fun c => c <> 0) cs ->
  wmount_file_name cd n = Ok f -> ~ In 92 f /\ f <> [] /\ c_string f = f.
Proof.
  intros OK Ht Hne H0 Hf.
  assert (Hl : zlen n <= 461168601842738790).
  { pose proof (wfile_names_len cd [n] [f] (Forall2_cons _ _ Hf (Forall2_nil _))) as HF. inversion HF; assumption. }
  destruct (wname_of_text cd cs n OK Ht Hne H0 Hl) as (f1 & E1 & _ & Hf1). rewrite Hf in E1. injection E1 as <-.
  destruct (wfile_name_ok cd cs n OK Ht Hne H0 Hl) as (f2 & E2 & HF & _). rewrite Hf in E2. injection E2 as <-.
  split; [|split].
  - intros Hin. rewrite Forall_forall in HF. apply HF in Hin as (_ & Hr & _). apply Hr. left. reflexivity.
  - intros ->. pose proof (text_nonempty cd cs n OK Ht Hne). destruct n; [congruence|].
    rewrite zlen_cons, zlen_nil in Hf1. pose proof (zlen_pos n). lia.
  - apply c_string_all. eapply Forall_impl; [|exact HF]. cbn beta. intros a Ha. lia.
Qed.

Lemma wentry_path m t css ns fs : wmount_ok m -> mt_tree m = Some t -> wfile_names_of m css ns fs ->
  wentry_by_path m (wmount_path fs) =
  do o <- wwalk m t ns;
  Ok (option_map (fun k => {| fe_node := k; fe_name := last fs []; fe_cursor := 0 |}) o).
Proof.
  intros HM Htr (HT & HC & HF & Hl).
  destruct fs as [|f0 fs0].
  - inversion HF; subst. cbn [wmount_path] in *. change [92] with ([] ++ 92 :: @nil Z).
    rewrite wentry_by_path_at by (auto; cbn; unfold SSIZE_MAX; lia). cbn [app last wwalk lookup_names rbind option_map].
    assert (wmount_item_by_path (mt_una m) (mt_codec m) (v_byte_order (mt_volume m)) (mt_tree m) [92] = Ok (Some O)) as ->;
      [|reflexivity].
    unfold wmount_item_by_path.
    pose proof (wto_slash (mt_codec m) (wo_codec m HM) 1 [] [] 2 []) as Hs.
    assert (E : wcopy_to_item_path (mt_codec m) [92] = Ok ([92], 2)).
    { unfold wcopy_to_item_path. change (zlen [92]) with 1. cbn [Z.eqb orb]. cbn -[wto_loop].
      cbn [app] in Hs. change (zlen (@nil Z)) with 0 in Hs. cbn [length]. rewrite Hs by (cbn; lia). reflexivity. }
    rewrite E. cbn [rbind]. rewrite Htr. reflexivity.
  - set (fs := f0 :: fs0) in *. assert (Hne : fs <> []) by (unfold fs; congruence). clearbody fs. clear f0 fs0.
    assert (Hns : ns <> []) by (intros ->; inversion HF; congruence).
    assert (Hcs : css <> []) by (intros ->; inversion HT; subst; congruence).
    pose proof (wmount_lookup (mt_una m) (mt_codec m) (v_byte_order (mt_volume m)) t css ns fs
                  (wo_codec m HM) (wo_char m HM) HT HC HF Hne) as Hlook.
    assert (Hp : wmount_path fs = path_of 92 fs) by (destruct fs; [congruence|reflexivity]).
    rewrite Hp in Hl. specialize (Hlook Hl). unfold wwalk. rewrite <- Hlook.
    destruct (Forall2_snoc _ _ _ HT Hcs) as (css' & cs & ns' & n & -> & -> & _ & Htx).
    destruct (Forall2_snoc _ _ _ HF Hns) as (ns1 & n1 & fs' & f & E1 & -> & _ & Hf).
    apply app_inj_tail in E1 as [-> ->]. apply Forall_snoc in HC as [_ [Hc1 Hc2]].
    destruct (wfile_name_good (mt_codec m) cs n1 f (wo_codec m HM) Htx Hc1) as (G1 & G2 & _); [|exact Hf|].
    { eapply Forall_impl; [|exact Hc2]. cbn. intros; lia. }
    rewrite Hp in *. rewrite path_of_snoc in *.
    assert (Hl' : zlen (path_of 92 fs' ++ 92 :: f) < SSIZE_MAX)
      by (unfold SSIZE_MAX in *; change (9223372036854775807 / 2) with 4611686018427387903 in Hl; lia).
    rewrite (wentry_by_path_at m (path_of 92 fs') f G1 (or_intror G2) Hl'), Htr. rewrite last_last. reflexivity.
Qed.

Lemma wmount_path_snoc fs f : wmount_path (fs ++ [f]) = path_of 92 fs ++ 92 :: f.
Proof. rewrite <- path_of_snoc. destruct fs; reflexivity. Qed.

Lemma trailing_backslash m p : p <> [] -> zlen p < SSIZE_MAX ->
  match wentry_by_path m (p ++ [92]) with Ok (Some _) => False | _ => True end.
Proof.
  intros Hne Hl. unfold wentry_by_path.
  assert (Hz : zlen (p ++ [92]) = zlen p + 1) by (rewrite zlen_app'; reflexivity).
  assert (1 <= zlen p) by (destruct p; [congruence|]; rewrite zlen_cons; pose proof (zlen_pos p); lia).
  replace (zlen (p ++ [92]) =? 0) with false by (symmetry; apply Z.eqb_neq; lia).
  assert (Hc : arr_get (p ++ [92]) (zlen (p ++ [92]) - 1) = Ok 92).
  { replace (zlen (p ++ [92]) - 1) with (zlen p) by lia. apply arr_get_app. }
  rewrite Hc. cbn [rbind]. replace (2 <=? zlen (p ++ [92])) with true by (symmetry; apply Z.leb_le; lia).
  change (92 =? WSEP) with true. cbn [andb].
  replace (zlen (p ++ [92]) - 1) with (zlen p) by lia.
  change (p ++ [92]) with (p ++ 92 :: []) at 1. rewrite last_backslash_at;
    [|intros []|rewrite app_length; unfold zlen; cbn; lia].
  cbn [rbind]. destruct (wmount_item_by_path _ _ _ _ _) as [[k|]| | |]; cbn [rbind]; try exact I.
  replace (zlen p - (zlen p + 1)) with (-1) by lia. change (u64 (-1)) with 18446744073709551615.
  change (SSIZE_MAX - 1 <? 18446744073709551615) with true. exact I.
Qed.

(** * Values *)
Lemma two_parts_halves x : 0 <= x < 18446744073709551616 -> halves x (two_parts x).
Proof.
  intros Hx. unfold halves, two_parts, is_u32. cbn [fst snd].
  rewrite (Z.land_ones x 32 ltac:(lia) : Z.land x 4294967295 = x mod 2 ^ 32). rewrite Z.shiftr_div_pow2 by lia.
  change (2 ^ 32) with 4294967296. unfold u32.
  pose proof (Z.div_mod x 4294967296 ltac:(lia)). pose proof (Z.mod_pos_bound x 4294967296 ltac:(lia)).
  assert (Hp : 0 <= x / 4294967296) by (apply Z.div_pos; lia).
  assert (Hq : x / 4294967296 < 4294967296) by (apply Z.div_lt_upper_bound; lia).
  change TWO32 with 4294967296. rewrite (Z.mod_small (x / 4294967296) _ (conj Hp Hq)).
  set (q := x / 4294967296) in *. set (r := x mod 4294967296) in *. clearbody q r. lia.
Qed.

Lemma halves_unique v x y : halves v x -> halves v y -> x = y.
Proof.
  unfold halves, is_u32. destruct x as [a b], y as [c d]. cbn [fst snd]. intros (A1 & A2 & A) (B1 & B2 & B).
  assert (b = d) by lia. f_equal; lia.
Qed.

Lemma attributes_ok d : attributes_of d (attributes (file_mode (de_type d))).
Proof.
  split; [intros H; rewrite (file_mode_dir _ H); reflexivity|].
  intros H1 H5. rewrite (file_mode_file _ H1 H5). reflexivity.
Qed.

Lemma attributes_unique d a a' : attributes_of d a -> attributes_of d a' -> a = a'.
Proof.
  intros [A1 A2] [B1 B2]. destruct (Z.eq_dec (de_type d) 1) as [E1|E1]; [rewrite A1, B1; auto|].
  destruct (Z.eq_dec (de_type d) 5) as [E5|E5]; [rewrite A1, B1; auto|]. rewrite A2, B2; auto.
Qed.

Lemma informs_unique time d b i i' : informs time d b i -> informs time d b i' -> i = i'.
Proof.
  intros A B.
  pose proof (attributes_unique _ _ _ (if_attributes _ _ _ _ A) (if_attributes _ _ _ _ B)).
  pose proof (halves_unique _ _ _ (if_created _ _ _ _ A) (if_created _ _ _ _ B)).
  pose proof (halves_unique _ _ _ (if_accessed _ _ _ _ A) (if_accessed _ _ _ _ B)).
  pose proof (halves_unique _ _ _ (if_written _ _ _ _ A) (if_written _ _ _ _ B)).
  destruct (if_others _ _ _ _ A) as (A1 & A2 & A3). destruct (if_others _ _ _ _ B) as (B1 & B2 & B3).
  assert (in_size i = in_size i').
  { destruct (Z.eq_dec (de_size d) 0) as [E|E].
    - rewrite (if_no_size _ _ _ _ A E), (if_no_size _ _ _ _ B E). reflexivity.
    - exact (halves_unique _ _ _ (if_size _ _ _ _ A E) (if_size _ _ _ _ B E)). }
  destruct i, i'; cbn in *; congruence.
Qed.

Lemma find_describes_unique time d f s x y : find_describes time d f s x -> find_describes time d f s y -> x = y.
Proof.
  intros A B.
  pose proof (attributes_unique _ _ _ (fs_attributes _ _ _ _ _ A) (fs_attributes _ _ _ _ _ B)).
  pose proof (halves_unique _ _ _ (fs_created _ _ _ _ _ A) (fs_created _ _ _ _ _ B)).
  pose proof (halves_unique _ _ _ (fs_accessed _ _ _ _ _ A) (fs_accessed _ _ _ _ _ B)).
  pose proof (halves_unique _ _ _ (fs_written _ _ _ _ _ A) (fs_written _ _ _ _ _ B)).
  pose proof (halves_unique _ _ _ (fs_size _ _ _ _ _ A) (fs_size _ _ _ _ _ B)).
  pose proof (fs_name _ _ _ _ _ A). pose proof (fs_name _ _ _ _ _ B).
  pose proof (fs_short _ _ _ _ _ A). pose proof (fs_short _ _ _ _ _ B).
  destruct x, y; cbn in *; congruence.
Qed.

Definition values_of (m : mounted) (d : dirent) : Z * Z * (Z * Z * Z) :=
  (de_size d, file_mode (de_type d), (de_ctime d, mt_time m, de_mtime d)).

Lemma set_information_ok m d i : wmount_ok m -> wentry_ok d ->
  informs (mt_time m) d i (set_file_information i (values_of m d)).
Proof.
  intros HM (Hs & Hc & Hw). unfold values_of, is_u32 in *.
  constructor; cbn [set_file_information in_attributes in_created in_accessed in_written in_size in_serial_number in_links in_index].
  - apply attributes_ok.
  - apply two_parts_halves, Hc.
  - apply two_parts_halves, (wo_time m HM).
  - apply two_parts_halves, Hw.
  - intros Hn. replace (0 <? de_size d) with true by (symmetry; apply Z.ltb_lt; lia). apply two_parts_halves. lia.
  - intros ->. reflexivity.
  - auto.
Qed.

Lemma set_find_ok m d f s : wmount_ok m -> wentry_ok d ->
  find_describes (mt_time m) d f s (set_find_data f s (values_of m d)).
Proof.
  intros HM (Hs & Hc & Hw). unfold values_of, is_u32 in *.
  constructor; cbn [set_find_data fd_attributes fd_created fd_accessed fd_written fd_size fd_name fd_short_name].
  - apply attributes_ok.
  - apply two_parts_halves, Hc.
  - apply two_parts_halves, (wo_time m HM).
  - apply two_parts_halves, Hw.
  - destruct (0 <? de_size d) eqn:E; [apply two_parts_halves; lia|]. apply Z.ltb_ge in E.
    assert (de_size d = 0) as -> by lia. unfold halves, is_u32. cbn [fst snd]. lia.
  - reflexivity.
  - reflexivity.
Qed.

Lemma find_describes_iff m d f s x : wmount_ok m -> wentry_ok d ->
  (find_describes (mt_time m) d f s x <-> x = set_find_data f s (values_of m d)).
Proof.
  intros HM Hd. split.
  - intros H. exact (find_describes_unique _ _ _ _ _ _ H (set_find_ok m d f s HM Hd)).
  - intros ->. apply set_find_ok; auto.
Qed.

(** The size that goes with a file name. *)
Lemma name_with_size cd n f size : wcopy_from_item_path cd n = Ok (f, size) <->
  wmount_file_name cd n = Ok f /\ size = 10 * zlen n + 1.
Proof.
  unfold wmount_file_name. split.
  - intros E. rewrite E. split; [reflexivity|]. unfold wcopy_from_item_path in E.
    destruct ((zlen n =? 0) || (SSIZE_MAX - 1 <? zlen n)); [discriminate|].
    destruct ((SSIZE_MAX - 1) / 20 <? zlen n); [discriminate|]. cbv zeta in E.
    destruct (wfrom_loop _ _ _ _ _ _) as [out| | |]; cbn [rbind] in E; try discriminate.
    destruct (zlen n * 10 + 1 <=? zlen out); [discriminate|]. apply ok_same in E. apply pair_equal_spec in E as [_ E]. lia.
  - intros [E ->]. unfold wcopy_from_item_path in *.
    destruct ((zlen n =? 0) || (SSIZE_MAX - 1 <? zlen n)); [discriminate|].
    destruct ((SSIZE_MAX - 1) / 20 <? zlen n); [discriminate|]. cbv zeta in *.
    destruct (wfrom_loop _ _ _ _ _ _) as [out| | |]; cbn [rbind] in E |- *; try discriminate.
    destruct (zlen n * 10 + 1 <=? zlen out); [discriminate|]. cbn [rbind] in E. apply ok_same in E. subst.
    replace (10 * zlen n + 1) with (zlen n * 10 + 1) by lia. reflexivity.
Qed.

Lemma named_not_empty cd n f : wmount_file_name cd n = Ok f -> 1 <= zlen n.
Proof.
  unfold wmount_file_name, wcopy_from_item_path. destruct (zlen n =? 0) eqn:E; [discriminate|].
  apply Z.eqb_neq in E. pose proof (zlen_pos n). lia.
Qed.

Section Mounted.
Variable b : dokan_build.
Variable m : mounted.
Variable t : tree.
Hypothesis HM : wmount_ok m.
Hypothesis Htr : mt_tree m = Some t.
Hypothesis HE : forall k d, item_entry t k d -> wentry_ok d.

Lemma entry_values_at k v : entry_values m k = Ok v <-> exists d, item_entry t k d /\ v = values_of m d.
Proof.
  unfold entry_values. split.
  - destruct (entry_value m k) as [d| | |] eqn:E; try discriminate. apply (entry_value_at m t Htr) in E.
    cbn [rbind]. intros H. apply ok_same in H. subst. exists d. auto.
  - intros (d & Hd & ->). apply (entry_value_at m t Htr) in Hd. rewrite Hd. reflexivity.
Qed.

Lemma information_exact css ns fs i : wfile_names_of m css ns fs ->
  (forall k d, wwalk m t ns = Ok (Some k) -> item_entry t k d ->
     exists x, get_file_information m (wmount_path fs) i = DDone x /\ informs (mt_time m) d i x) /\
  (wwalk m t ns = Ok None \/ wwalk m t ns = Err -> get_file_information m (wmount_path fs) i = DFails NotFound).
Proof.
  intros HN. unfold get_file_information. rewrite (wentry_path m t css ns fs HM Htr HN). split.
  - intros k d Hw Hk. rewrite Hw. cbn [rbind option_map fe_node].
    rewrite (proj2 (entry_values_at k (values_of m d)) (ex_intro _ d (conj Hk eq_refl))). cbn [rbind d_on_error].
    eexists. split; [reflexivity|]. apply set_information_ok; eauto.
  - intros [Hw | Hw]; rewrite Hw; reflexivity.
Qed.

(** * The listing of a directory *)
Lemma witem_file_name_at j f size : witem_file_name m j = Ok (f, size) <->
  exists d n g, named_item m t j d n g /\ f = c_string g /\ size = 10 * zlen n + 1.
Proof.
  unfold witem_file_name, named_item. split.
  - destruct (entry_value m j) as [d| | |] eqn:E; try discriminate. apply (entry_value_at m t Htr) in E. cbn [rbind].
    destruct (mt_name m (de_name d) _) as [n|] eqn:En; [|discriminate].
    destruct (wcopy_from_item_path (mt_codec m) n) as [[g sz]| | |] eqn:Eg; try discriminate.
    apply name_with_size in Eg as [Eg ->]. cbn [rbind]. intros H. apply ok_same in H. apply pair_equal_spec in H as [-> ->].
    exists d, n, g. auto.
  - intros (d & n & g & (Hd & En & Eg) & -> & ->). apply (entry_value_at m t Htr) in Hd. rewrite Hd. cbn [rbind].
    rewrite En. rewrite (proj2 (name_with_size _ n g _) (conj Eg eq_refl)). reflexivity.
Qed.

Lemma wsub_entry_at f nd i j : nth_error (tr_nodes t) (fe_node f) = Some nd ->
  nth_error (n_subs nd) i = Some j ->
  wsub_entry m f (Z.of_nat i) =
  do (name, size) <- witem_file_name m j; Ok ({| fe_node := j; fe_name := name; fe_cursor := 0 |}, size).
Proof.
  clear HE HM.
  intros Hn Hj. unfold wsub_entry. rewrite Htr. unfold get_sub_item, sub_nodes. rewrite Hn. cbn [rbind].
  unfold znth. replace (Z.of_nat i <? 0) with false by (symmetry; apply Z.ltb_ge; lia).
  rewrite Nat2Z.id, Hj. reflexivity.
Qed.

(** One step of the listing. *)
Lemma filldir_item accept j d n f l l' : named_item m t j d n f ->
  wfilldir b accept (c_string f) (10 * zlen n + 1) (entry_values m j) l =
    (if zlen n <=? 25 then
       (if accept (length l)
        then Ok (l ++ [set_find_data (c_string f) (if zlen n =? 1 then c_string f else []) (values_of m d)]) else Err)
     else if db_long_paths b then (if 3276 <? zlen n then Err else Undef) else Err) /\
  (wfilldir b accept (c_string f) (10 * zlen n + 1) (entry_values m j) l = Ok l' <->
   exists x, l' = l ++ [x] /\ find_lists m t j x /\ accept (length l) = true).
Proof.
  intros HN. pose proof HN as (Hd & En & Ef).
  assert (EW : wfilldir b accept (c_string f) (10 * zlen n + 1) (entry_values m j) l =
    (if zlen n <=? 25 then
       (if accept (length l)
        then Ok (l ++ [set_find_data (c_string f) (if zlen n =? 1 then c_string f else []) (values_of m d)]) else Err)
     else if db_long_paths b then (if 3276 <? zlen n then Err else Undef) else Err)).
  { unfold wfilldir. rewrite (proj2 (entry_values_at j (values_of m d)) (ex_intro _ d (conj Hd eq_refl))). cbn [rbind].
    pose proof (named_not_empty _ _ _ Ef). unfold dokan_max_path, MAX_PATH.
    replace (10 * zlen n + 1 <=? 14) with (zlen n =? 1)
      by (destruct (zlen n =? 1) eqn:E1; symmetry; [apply Z.leb_le; apply Z.eqb_eq in E1|apply Z.leb_gt; apply Z.eqb_neq in E1]; lia).
    destruct (zlen n <=? 25) eqn:E25.
    - apply Z.leb_le in E25. replace ((if db_long_paths b then 32768 else 260) <? 10 * zlen n + 1) with false
        by (symmetry; apply Z.ltb_ge; destruct (db_long_paths b); lia).
      replace (260 <? 10 * zlen n + 1) with false by (symmetry; apply Z.ltb_ge; lia). reflexivity.
    - apply Z.leb_gt in E25. destruct (db_long_paths b).
      + replace (260 <? 10 * zlen n + 1) with true by (symmetry; apply Z.ltb_lt; lia).
        replace (32768 <? 10 * zlen n + 1) with (3276 <? zlen n); [reflexivity|].
        destruct (3276 <? zlen n) eqn:E3; symmetry; [apply Z.ltb_lt; apply Z.ltb_lt in E3|apply Z.ltb_ge; apply Z.ltb_ge in E3]; lia.
      + replace (260 <? 10 * zlen n + 1) with true by (symmetry; apply Z.ltb_lt; lia). reflexivity. }
  split; [exact EW|]. rewrite EW. split.
  - destruct (zlen n <=? 25) eqn:E25; [|destruct (db_long_paths b); [destruct (3276 <? zlen n)|]; discriminate].
    apply Z.leb_le in E25. destruct (accept (length l)); [|discriminate]. intros H. apply ok_same in H. subst.
    eexists. split; [reflexivity|]. split; [|reflexivity].
    exists d, n, f. split; [exact HN|]. split; [exact E25|]. apply set_find_ok; eauto.
  - intros (x & -> & (d' & n' & f' & (Hd' & En' & Ef') & H25 & HD) & Ha).
    rewrite (item_entry_fun t j d' d Hd' Hd) in *. rewrite En in En'. injection En' as <-. rewrite Ef in Ef'. injection Ef' as <-.
    apply Z.leb_le in H25. rewrite H25, Ha. apply (find_describes_iff m d _ _ _ HM (HE j d Hd)) in HD. subst x. reflexivity.
Qed.

Lemma find_loop_unfold n accept f i live l :
  find_loop (S n) b m accept f i live l =
  match wsub_entry m f i with
  | Ok (g, name_size) =>
      match wfilldir b accept (fe_name g) name_size (entry_values m (fe_node g)) l with
      | Ok l' => find_loop n b m accept f (i + 1) (live + 1 - 1) l'
      | Err => (Err, true, live + 1, l)
      | _ => (Undef, true, live + 1, l)
      end
  | Err => (Err, false, live, l)
  | _ => (Undef, false, live, l)
  end.
Proof. reflexivity. Qed.

Lemma find_loop_live accept f : forall n i live l r sub live' l',
  find_loop n b m accept f i live l = (r, sub, live', l') -> live' - held sub = live.
Proof.
  clear HE HM Htr t.
  induction n as [|n IH]; intros i live l r sub live' l' H; [cbn [find_loop] in H|rewrite find_loop_unfold in H].
  - apply pair_equal_spec in H as [H _]. apply pair_equal_spec in H as [H <-]. apply pair_equal_spec in H as [_ <-]. cbn. lia.
  - destruct (wsub_entry m f i) as [[g sz]| | |];
      try (apply pair_equal_spec in H as [H _]; apply pair_equal_spec in H as [H <-]; apply pair_equal_spec in H as [_ <-]; cbn; lia).
    destruct (wfilldir b accept _ _ _ _) as [l1| | |];
      try (apply pair_equal_spec in H as [H _]; apply pair_equal_spec in H as [H <-]; apply pair_equal_spec in H as [_ <-]; cbn; lia).
    apply IH in H. lia.
Qed.

Lemma find_loop_ok f nd accept : nth_error (tr_nodes t) (fe_node f) = Some nd -> forall rest pre live l l',
  n_subs nd = pre ++ rest ->
  ((exists sub live', find_loop (length rest) b m accept f (Z.of_nat (length pre)) live l = (Ok tt, sub, live', l')) <->
   exists xs, l' = l ++ xs /\ Forall2 (find_lists m t) rest xs /\
     forall i, (length l <= i < length l')%nat -> accept i = true).
Proof.
  intros Hn. induction rest as [|j rest IH]; intros pre live l l' Hs.
  - cbn [length find_loop]. split.
    + intros (sub & live' & E). apply pair_equal_spec in E as [_ ->]. exists []. rewrite app_nil_r. repeat split; auto. intros; lia.
    + intros (xs & -> & HF & _). inversion HF; subst. rewrite app_nil_r. eauto.
  - cbn [length]. rewrite find_loop_unfold.
    assert (Hj : nth_error (n_subs nd) (length pre) = Some j) by (rewrite Hs; apply nth_error_pre).
    rewrite (wsub_entry_at f nd (length pre) j Hn Hj).
    assert (IH' := IH (pre ++ [j]) (live + 1 - 1)). rewrite <- app_assoc in IH'. cbn [app] in IH'.
    rewrite app_length in IH'. cbn [length] in IH'.
    replace (Z.of_nat (length pre) + 1) with (Z.of_nat (length pre + 1)) by lia.
    split.
    + intros (sub & live' & H). destruct (witem_file_name m j) as [[name sz]| | |] eqn:En; cbn [rbind] in H; try discriminate.
      cbn [fe_name fe_node] in H. apply witem_file_name_at in En as (d & n & g & HN & -> & ->).
      destruct (wfilldir b accept (c_string g) (10 * zlen n + 1) (entry_values m j) l) as [l1| | |] eqn:EF; try discriminate.
      apply (filldir_item accept j d n g l l1 HN) in EF as (x & -> & Hx & Ha).
      assert (H' := proj1 (IH' _ _ Hs) (ex_intro _ sub (ex_intro _ live' H))). destruct H' as (xs & -> & HF & HA).
      exists (x :: xs). split; [rewrite <- app_assoc; reflexivity|]. split; [constructor; auto|].
      intros i Hi. destruct (Nat.eq_dec i (length l)) as [->|]; [exact Ha|]. apply HA.
      rewrite !app_length in *. cbn [length] in *. lia.
    + intros (xs & -> & HF & HA). inversion HF as [|? x ? xs' Hx HF']; subst.
      pose proof Hx as (d & n & g & HN & _).
      assert (Ew : witem_file_name m j = Ok (c_string g, 10 * zlen n + 1)) by (apply witem_file_name_at; exists d, n, g; auto).
      rewrite Ew. cbn [rbind fe_name fe_node].
      assert (Ha : accept (length l) = true) by (apply HA; rewrite app_length; cbn [length]; lia).
      assert (EF := proj2 (proj2 (filldir_item accept j d n g l (l ++ [x]) HN)) (ex_intro _ x (conj eq_refl (conj Hx Ha)))).
      rewrite EF. apply (IH' _ _ Hs). exists xs'. rewrite <- app_assoc. split; [reflexivity|]. split; [exact HF'|].
      intros i Hi. apply HA. rewrite !app_length in *. cbn [length] in *. lia.
Qed.

Lemma dot_entry nd accept k : nth_error (tr_nodes t) k = Some nd ->
  wfilldir b accept DOT 2 (entry_values m k) [] =
  if accept 0%nat then Ok [set_find_data [46] [46] (values_of m (n_entry nd))] else Err.
Proof.
  intros Hn. unfold wfilldir. rewrite (proj2 (entry_values_at k (values_of m (n_entry nd)))) by (eexists; split; [eexists; eauto|reflexivity]).
  unfold dokan_max_path. destruct (db_long_paths b); reflexivity.
Qed.

Lemma dots_entry_ok accept l :
  wfilldir b accept DOTS 3 (Ok (0, 0, (0, 0, 0))) l = if accept (length l) then Ok (l ++ [dots_entry]) else Err.
Proof. unfold wfilldir, dokan_max_path. destruct (db_long_paths b); reflexivity. Qed.

Lemma find_in_iff accept f live l :
  (exists live', find_in b m accept f live = (DDone tt, live', l)) <->
  full_find m t (fe_node f) l /\ forall i, (i < length l)%nat -> accept i = true.
Proof.
  unfold find_in, number_of_sub_entries. rewrite Htr. unfold get_number_of_sub_items, sub_nodes.
  destruct (nth_error (tr_nodes t) (fe_node f)) as [nd|] eqn:Hn.
  - rewrite (dot_entry nd accept _ Hn). cbn [rbind].
    replace (Z.to_nat (zlen (n_subs nd))) with (length (n_subs nd)) by (unfold zlen; lia).
    split.
    + intros (live' & H). destruct (accept 0%nat) eqn:E0; [|discriminate]. rewrite dots_entry_ok in H. cbn [length app] in H.
      destruct (accept 1%nat) eqn:E1; [|discriminate].
      destruct (find_loop _ b m accept f 0 live _) as [[[r sub] lv] l'] eqn:EL.
      apply pair_equal_spec in H as [H <-]. apply pair_equal_spec in H as [H _]. destruct r as [[]| | |]; try discriminate.
      change 0 with (Z.of_nat (length (@nil nat))) in EL.
      apply (ex_intro (fun lv => _ = (_, sub, lv, l'))) in EL. apply (ex_intro (fun sb => exists lv, _ = (_, sb, lv, l'))) in EL.
      apply (find_loop_ok f nd accept Hn (n_subs nd) [] live _ l' eq_refl) in EL as (xs & -> & HF & HA). cbn [app] in *.
      split.
      * exists nd, (set_find_data [46] [46] (values_of m (n_entry nd))), xs. split; [exact Hn|]. split; [reflexivity|].
        split; [|exact HF]. apply set_find_ok; [exact HM|]. apply (HE (fe_node f)). exists nd. auto.
      * intros [|[|i]] Hi; auto. apply HA. cbn [length] in *. lia.
    + intros ((nd' & x & rest & Hn' & -> & HD & HF) & HA). rewrite Hn in Hn'. injection Hn' as <-.
      rewrite (HA 0%nat) by (cbn; lia). rewrite dots_entry_ok. cbn [length app]. rewrite (HA 1%nat) by (cbn; lia).
      assert (HDe : wentry_ok (n_entry nd)) by (apply (HE (fe_node f)); exists nd; auto).
      apply (find_describes_iff m (n_entry nd) _ _ _ HM HDe) in HD. subst x.
      match goal with |- context [find_loop _ b m accept f 0 live ?l] =>
        assert (EL : exists sub lv, find_loop (length (n_subs nd)) b m accept f 0 live l = (Ok tt, sub, lv, l ++ rest)) end.
      { apply (find_loop_ok f nd accept Hn (n_subs nd) [] live _ _ eq_refl). exists rest. split; [reflexivity|]. split; [exact HF|].
        intros i Hi. apply HA. cbn [app length] in *. lia. }
      destruct EL as (sub & lv & EL). rewrite EL. eauto.
  - split.
    + intros (live' & H). destruct (wfilldir b accept DOT 2 _ []) as [l1| | |] eqn:E; try discriminate.
      unfold wfilldir in E. destruct (dokan_max_path b <? 2); [discriminate|].
      destruct (entry_values m (fe_node f)) as [v| | |] eqn:Ev; try discriminate.
      apply entry_values_at in Ev as (d & (nd & Hnd & _) & _). congruence.
    + intros ((nd & x & rest & Hn' & _) & _). congruence.
Qed.

Lemma find_in_live accept f live : snd (fst (find_in b m accept f live)) = live - 1.
Proof.
  clear HE HM Htr t.
  unfold find_in.
  destruct (wfilldir b accept DOT 2 _ []) as [l1| | |]; try (cbn; lia).
  destruct (wfilldir b accept DOTS 3 _ l1) as [l2| | |]; try (cbn; lia).
  destruct (number_of_sub_entries m f) as [n| | |]; try (cbn; lia).
  destruct (find_loop _ b m accept f 0 live l2) as [[[r sub] lv] l] eqn:E. cbn [fst snd].
  apply find_loop_live in E. lia.
Qed.

(** An item that cannot be listed hides those after it. *)
Lemma find_loop_stops f nd j post : nth_error (tr_nodes t) (fe_node f) = Some nd ->
  forall mid pre0 live l xs, n_subs nd = pre0 ++ mid ++ j :: post -> Forall2 (find_lists m t) mid xs ->
  find_loop (length (mid ++ j :: post)) b m (fun _ => true) f (Z.of_nat (length pre0)) live l =
  find_loop (length (j :: post)) b m (fun _ => true) f (Z.of_nat (length (pre0 ++ mid))) live (l ++ xs).
Proof.
  intros Hn. induction mid as [|k mid IH]; intros pre0 live l xs Hs HF.
  - inversion HF; subst. rewrite !app_nil_r. reflexivity.
  - inversion HF as [|? x ? xs' Hx HF']; subst. change (length ((k :: mid) ++ j :: post)) with (S (length (mid ++ j :: post))).
    rewrite find_loop_unfold.
    assert (Hk : nth_error (n_subs nd) (length pre0) = Some k) by (rewrite Hs; apply nth_error_pre).
    rewrite (wsub_entry_at f nd (length pre0) k Hn Hk).
    pose proof Hx as (d & n & g & HN & _).
    assert (Ew : witem_file_name m k = Ok (c_string g, 10 * zlen n + 1)) by (apply witem_file_name_at; exists d, n, g; auto).
    rewrite Ew. cbn [rbind fe_name fe_node].
    rewrite (proj2 (proj2 (filldir_item (fun _ => true) k d n g l (l ++ [x]) HN)) (ex_intro _ x (conj eq_refl (conj Hx eq_refl)))).
    replace (Z.of_nat (length pre0) + 1) with (Z.of_nat (length (pre0 ++ [k]))) by (rewrite app_length; cbn; lia).
    replace (live + 1 - 1) with live by lia.
    rewrite (IH (pre0 ++ [k]) live (l ++ [x]) xs'); [|rewrite <- app_assoc; exact Hs|exact HF'].
    rewrite <- !app_assoc. reflexivity.
Qed.

Lemma find_stops f nd x0 pre j post xs live :
  nth_error (tr_nodes t) (fe_node f) = Some nd -> find_describes (mt_time m) (n_entry nd) [46] [46] x0 ->
  n_subs nd = pre ++ j :: post -> Forall2 (find_lists m t) pre xs ->
  (witem_file_name m j = Err ->
   find_in b m (fun _ => true) f live = (DFails GenericFailure, live - 1, x0 :: dots_entry :: xs)) /\
  (forall d n g, named_item m t j d n g -> 25 < zlen n ->
   (db_long_paths b = false ->
    find_in b m (fun _ => true) f live = (DFails GenericFailure, live - 1, x0 :: dots_entry :: xs)) /\
   (db_long_paths b = true -> zlen n <= 3276 -> fst (fst (find_in b m (fun _ => true) f live)) = DUndefined)).
Proof.
  intros Hn HD Hs HF.
  assert (HDe : wentry_ok (n_entry nd)) by (apply (HE (fe_node f)); exists nd; auto).
  apply (find_describes_iff m (n_entry nd) _ _ _ HM HDe) in HD. subst x0.
  assert (HI : forall r, find_loop (length (j :: post)) b m (fun _ => true) f (Z.of_nat (length pre)) live
                (set_find_data [46] [46] (values_of m (n_entry nd)) :: dots_entry :: xs) = r ->
    find_in b m (fun _ => true) f live =
    match r with (q, sub, live', l) => (d_on_error q GenericFailure, live' - held sub - 1, l) end).
  { intros r <-. unfold find_in, number_of_sub_entries. rewrite Htr. unfold get_number_of_sub_items, sub_nodes.
    rewrite (dot_entry nd _ _ Hn), dots_entry_ok, Hn. cbn [rbind app].
    replace (Z.to_nat (zlen (n_subs nd))) with (length (pre ++ j :: post)) by (rewrite Hs; unfold zlen; lia).
    change 0 with (Z.of_nat (length (@nil nat))).
    rewrite (find_loop_stops f nd j post Hn pre [] live _ xs Hs HF). reflexivity. }
  assert (Hj : nth_error (n_subs nd) (length pre) = Some j) by (rewrite Hs; apply nth_error_pre).
  specialize (HI _ eq_refl). cbn [length] in HI. rewrite find_loop_unfold, (wsub_entry_at f nd (length pre) j Hn Hj) in HI.
  split.
  - intros Hjn. rewrite Hjn in HI. cbn [rbind d_on_error held] in HI. rewrite HI. f_equal. f_equal. lia.
  - intros d n g HN H25.
    assert (Ew : witem_file_name m j = Ok (c_string g, 10 * zlen n + 1)) by (apply witem_file_name_at; exists d, n, g; auto).
    rewrite Ew in HI. cbn [rbind fe_name fe_node] in HI.
    rewrite (proj1 (filldir_item (fun _ => true) j d n g _ [] HN)) in HI.
    replace (zlen n <=? 25) with false in HI by (symmetry; apply Z.leb_gt; lia).
    split; intros Eb; rewrite Eb in HI.
    + cbn [d_on_error held] in HI. rewrite HI. f_equal. f_equal. lia.
    + intros Hl. replace (3276 <? zlen n) with false in HI by (symmetry; apply Z.ltb_ge; lia). rewrite HI. reflexivity.
Qed.

(** * What the listing names is found *)
Lemma wlisted_is_found css ns fs k nd pre j post d cs n f :
  wfile_names_of m css ns fs -> wwalk m t ns = Ok (Some k) ->
  nth_error (tr_nodes t) k = Some nd -> n_subs nd = pre ++ j :: post -> named_item m t j d n f ->
  text (mt_codec m) cs n -> cs <> [] -> Forall (fun c => c <> 0 /\ c <> 92) cs ->
  una_utf16_compare (mt_una m) n (de_name d) (v_byte_order (mt_volume m)) = Ok true ->
  Forall (name_differs (fun x => una_utf16_compare (mt_una m) n x (v_byte_order (mt_volume m))) t) pre ->
  zlen (wmount_path (fs ++ [f])) < SSIZE_MAX / 2 ->
  wfile_names_of m (css ++ [cs]) (ns ++ [n]) (fs ++ [f]) /\ wwalk m t (ns ++ [n]) = Ok (Some j).
Proof.
  intros (HT & HC & HF & Hl) Hw Hn Hs (Hd & En & Ef) Ht Hne H0 Hcmp Hdiff Hl'. split.
  { split; [apply Forall2_app; auto|]. split; [apply Forall_snoc; auto|]. split; [apply Forall2_app; auto|exact Hl']. }
  unfold wwalk in *. rewrite lookup_snoc, Hw. unfold sub_node_by_utf16_name, sub_nodes. rewrite Hn. cbn [rbind].
  rewrite Hs. eapply loop_finds; eauto.
Qed.
End Mounted.

(** * Reading *)
Lemma read_file_fuse rd m f size offset :
  fst (read_file rd m (Some f) size offset) =
  match fst (fuse_read rd m f size offset) with
  | Done l => DDone l
  | Fails n => DFails (if n =? EINVAL then BadArguments else ReadFault)
  | Undefined => DUndefined
  end /\
  snd (read_file rd m (Some f) size offset) = Some (snd (fuse_read rd m f size offset)).
Proof.
  unfold read_file, fuse_read. destruct (INT_MAX <? size); [split; reflexivity|].
  destruct (entry_read rd m f size offset) as [r f']. split; [|reflexivity]. destruct r; reflexivity.
Qed.
