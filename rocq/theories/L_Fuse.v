(** Lemmas on the mounted file. *)
From Coq Require Import ZArith List Bool Lia Arith.
From Verif Require Import Base Spec_IO M_Table M_Load M_Stream M_Tree M_Open M_Item M_Mount M_Fuse
  Spec_Stream Spec_Content Spec_Tree Spec_Item Spec_Mount Spec_Fuse L_Base L_Stream L_Stream2 L_Stream3 L_Item L_Mount.
Import ListNotations.
Open Scope Z_scope.

(** * Paths *)
Lemma last_slash_at (pre name : list Z) n : ~ In 47 name ->
  (length pre <= n <= length (pre ++ 47%Z :: name))%nat ->
  last_slash (pre ++ 47 :: name) n = Ok (zlen pre).
Proof.
  intros Hno. induction n as [|n IH]; intros Hn.
  - destruct pre; [reflexivity|cbn in Hn; lia].
  - cbn [last_slash]. destruct (Nat.eq_dec (length pre) (S n)) as [E|E].
    + rewrite <- app_assoc. cbn [app].
      replace (Z.of_nat (S n)) with (zlen pre) by (unfold zlen; lia).
      rewrite arr_get_app. cbn [rbind]. change (47 =? SLASH) with true. reflexivity.
    + assert (Hc : exists c, arr_get ((pre ++ 47 :: name) ++ [0]) (Z.of_nat (S n)) = Ok c /\ c <> 47).
      { rewrite <- app_assoc. cbn [app].
        destruct (znth_some (pre ++ 47 :: name ++ [0]) (Z.of_nat (S n))) as (c & Hc).
        { rewrite app_length in Hn. cbn [length] in Hn.
          rewrite zlen_app', zlen_cons, zlen_app'. unfold zlen. cbn [length]. lia. }
        exists c. split; [apply arr_get_ok, Hc|].
        rewrite znth_app_r in Hc by (unfold zlen; lia).
        unfold znth in Hc. destruct (Z.of_nat (S n) - zlen pre <? 0) eqn:El; [discriminate|].
        replace (Z.to_nat (Z.of_nat (S n) - zlen pre)) with (S (n - length pre)) in Hc by (unfold zlen; lia).
        cbn [nth_error] in Hc. apply nth_error_In, in_app_or in Hc as [Hc|[<-|[]]]; [|lia].
        intros ->. exact (Hno Hc). }
      destruct Hc as (c & -> & Hc). cbn [rbind].
      replace (c =? SLASH) with false by (symmetry; apply Z.eqb_neq; exact Hc).
      apply IH. lia.
Qed.

Lemma slice_whole {A} (l : list A) : slice l 0 (zlen l) = l.
Proof. unfold slice, zlen. rewrite Nat2Z.id. apply firstn_all. Qed.

Lemma entry_by_path_at m pre name : ~ In 47 name -> pre = [] \/ name <> [] ->
  zlen (pre ++ 47 :: name) < SSIZE_MAX ->
  entry_by_path m (pre ++ 47 :: name) =
  do o <- mount_item_by_path (mt_una m) (mt_codec m) (v_byte_order (mt_volume m)) (mt_tree m) (pre ++ 47 :: name);
  Ok (option_map (fun k => {| fe_node := k; fe_name := name; fe_cursor := 0 |}) o).
Proof.
  intros Hno Hne Hl. set (path := pre ++ 47 :: name) in *. unfold entry_by_path.
  assert (Hz : zlen path = zlen pre + 1 + zlen name) by (unfold path; rewrite zlen_app', zlen_cons; lia).
  pose proof (zlen_pos pre). pose proof (zlen_pos name).
  replace (zlen path =? 0) with false by (symmetry; apply Z.eqb_neq; lia).
  destruct (arr_get_in path (zlen path - 1)) as (c & Hc); [lia|]. rewrite Hc. cbn [rbind].
  assert (Hlast : (2 <=? zlen path) && (c =? SLASH) = false).
  { destruct (2 <=? zlen path) eqn:E2; [|reflexivity]. apply Z.leb_le in E2. cbn [andb]. apply Z.eqb_neq.
    intros ->. apply arr_get_ok in Hc. unfold path in Hc. rewrite znth_app_r in Hc by (fold path; lia). fold path in Hc.
    unfold znth in Hc. destruct (zlen path - 1 - zlen pre <? 0) eqn:El; [discriminate|].
    destruct name as [|x name].
    - destruct Hne as [->|]; [|congruence]. cbn in E2. lia.
    - replace (Z.to_nat (zlen path - 1 - zlen pre)) with (S (length name)) in Hc
        by (rewrite Hz, zlen_cons; unfold zlen; lia).
      cbn [nth_error] in Hc. apply nth_error_In in Hc. apply Hno. exact Hc. }
  rewrite Hlast. unfold path at 1. rewrite last_slash_at by (auto; fold path; unfold zlen in *; lia).
  cbn [rbind]. rewrite slice_whole.
  destruct (mount_item_by_path _ _ _ _ path) as [[k|]| | |]; cbn [rbind option_map]; try reflexivity.
  replace (zlen path - (zlen pre + 1)) with (zlen name) by lia.
  unfold SSIZE_MAX in *. unfold u64. rewrite Z.mod_small by lia.
  replace (9223372036854775807 - 1 <? zlen name) with false by (symmetry; apply Z.ltb_ge; lia).
  replace (zlen path + 1 <? zlen pre + 1 + zlen name) with false by (symmetry; apply Z.ltb_ge; lia).
  do 3 f_equal. unfold slice, path, zlen. replace (Z.to_nat (Z.of_nat (length pre) + 1)) with (length pre + 1)%nat by lia.
  replace (pre ++ 47 :: name) with ((pre ++ [47]) ++ name) by (rewrite <- app_assoc; reflexivity).
  rewrite skipn_app, app_length. cbn [length]. rewrite Nat.sub_diag. cbn [skipn].
  rewrite skipn_all2 by (rewrite app_length; cbn; lia). cbn [app]. rewrite Nat2Z.id. apply firstn_all.
Qed.

Lemma path_of_snoc a ns n : path_of a (ns ++ [n]) = path_of a ns ++ a :: n.
Proof. induction ns as [|x ns IH]; cbn [path_of app]; [rewrite app_nil_r; reflexivity|]. rewrite IH, <- app_assoc. reflexivity. Qed.

Lemma mount_path_snoc fs f : mount_path (fs ++ [f]) = path_of 47 fs ++ 47 :: f.
Proof. rewrite <- path_of_snoc. destruct fs; reflexivity. Qed.

Lemma file_name_good cd cs n f : codec_ok cd -> text cd cs n -> cs <> [] -> Forall (fun c => c <> 0) cs ->
  mount_file_name cd n = Ok f -> ~ In 47 f /\ f <> [] /\ c_string f = f.
Proof.
  intros OK Ht Hne H0 Hf.
  assert (Hl : zlen n <= 922337203685477580).
  { pose proof (file_names_len cd [n] [f] (Forall2_cons _ _ Hf (Forall2_nil _))) as HF. inversion HF; assumption. }
  destruct (name_of_text cd cs n OK Ht Hne H0 Hl) as (f1 & E1 & _ & Hf1). rewrite Hf in E1. injection E1 as <-.
  destruct (file_name_ok cd cs n OK Ht Hne H0 Hl) as (f2 & E2 & HF & _). rewrite Hf in E2. injection E2 as <-.
  split; [|split].
  - intros Hin. rewrite Forall_forall in HF. apply HF in Hin. lia.
  - intros ->. pose proof (text_nonempty cd cs n OK Ht Hne). destruct n; [congruence|].
    rewrite zlen_cons, zlen_nil in Hf1. pose proof (zlen_pos n). lia.
  - apply c_string_all. eapply Forall_impl; [|exact HF]. cbn. intros; lia.
Qed.

Lemma Forall2_snoc {A B} (R : A -> B -> Prop) l m : Forall2 R l m -> l <> [] ->
  exists l' x m' y, l = l' ++ [x] /\ m = m' ++ [y] /\ Forall2 R l' m' /\ R x y.
Proof.
  induction 1 as [|a b l m Hab H IH]; [congruence|]. intros _. destruct l as [|a' l].
  - inversion H; subst. exists [], a, [], b. repeat split; auto.
  - destruct IH as (l' & x & m' & y & -> & -> & H' & Hxy); [congruence|].
    exists (a :: l'), x, (b :: m'), y. repeat split; auto.
Qed.

Lemma Forall2_same_length {A B} (R : A -> B -> Prop) l m : Forall2 R l m -> length l = length m.
Proof. induction 1; cbn; congruence. Qed.

Lemma Forall_snoc {A} (P : A -> Prop) l x : Forall P (l ++ [x]) <-> Forall P l /\ P x.
Proof. rewrite Forall_app. split; [intros [H1 H2]; inversion H2; auto|intros [H1 H2]; auto]. Qed.

Lemma entry_path m t css ns fs : mount_ok m -> mt_tree m = Some t -> file_names_of m css ns fs ->
  entry_by_path m (mount_path fs) =
  do o <- walk m t ns;
  Ok (option_map (fun k => {| fe_node := k; fe_name := last fs []; fe_cursor := 0 |}) o).
Proof.
  intros HM Htr (HT & HC & HF & Hl).
  destruct fs as [|f0 fs0].
  - inversion HF; subst. cbn [mount_path] in *. change [47] with ([] ++ 47 :: @nil Z).
    rewrite entry_by_path_at by (auto; cbn; unfold SSIZE_MAX; lia). cbn [app last walk lookup_names rbind option_map].
    assert (mount_item_by_path (mt_una m) (mt_codec m) (v_byte_order (mt_volume m)) (mt_tree m) [47] = Ok (Some O)) as ->;
      [|reflexivity].
    unfold mount_item_by_path.
    pose proof (to_slash (mt_codec m) (mo_codec m HM) 1 [] [] 2 []) as Hs.
    assert (E : copy_to_item_path (mt_codec m) [47] = Ok ([92], 2)).
    { unfold copy_to_item_path. change (zlen [47]) with 1. cbn [Z.eqb orb]. cbn -[to_loop]. 
      cbn [app] in Hs. change (zlen (@nil Z)) with 0 in Hs. cbn [length]. rewrite Hs by (cbn; lia). reflexivity. }
    rewrite E. cbn [rbind]. rewrite Htr. reflexivity.
  - set (fs := f0 :: fs0) in *. assert (Hne : fs <> []) by (unfold fs; congruence). clearbody fs. clear f0 fs0.
    assert (Hns : ns <> []) by (intros ->; inversion HF; congruence).
    assert (Hcs : css <> []) by (intros ->; inversion HT; subst; congruence).
    pose proof (mount_lookup (mt_una m) (mt_codec m) (v_byte_order (mt_volume m)) t css ns fs
                  (mo_codec m HM) (mo_char m HM) HT HC HF Hne) as Hlook.
    assert (Hp : mount_path fs = path_of 47 fs) by (destruct fs; [congruence|reflexivity]).
    rewrite Hp in Hl. specialize (Hlook Hl). unfold walk. rewrite <- Hlook.
    destruct (Forall2_snoc _ _ _ HT Hcs) as (css' & cs & ns' & n & -> & -> & _ & Htx).
    destruct (Forall2_snoc _ _ _ HF Hns) as (ns1 & n1 & fs' & f & E1 & -> & _ & Hf).
    apply app_inj_tail in E1 as [-> ->]. apply Forall_snoc in HC as [_ [Hc1 Hc2]].
    destruct (file_name_good (mt_codec m) cs n1 f (mo_codec m HM) Htx Hc1) as (G1 & G2 & _); [|exact Hf|].
    { eapply Forall_impl; [|exact Hc2]. cbn. intros; lia. }
    rewrite Hp in *. rewrite path_of_snoc in *.
    rewrite (entry_by_path_at m (path_of 47 fs') f G1 (or_intror G2) Hl), Htr. rewrite last_last. reflexivity.
Qed.

Lemma path_of_last a ns : ns <> [] -> exists pre, path_of a ns = pre ++ a :: last ns [].
Proof.
  intros H. destruct (exists_last H) as (l & x & ->). rewrite last_last, path_of_snoc. eauto.
Qed.

Lemma trailing_slash m p : p <> [] -> zlen p < SSIZE_MAX ->
  match entry_by_path m (p ++ [47]) with Ok (Some _) => False | _ => True end.
Proof.
  intros Hne Hl. unfold entry_by_path.
  assert (Hz : zlen (p ++ [47]) = zlen p + 1) by (rewrite zlen_app'; reflexivity).
  assert (1 <= zlen p) by (destruct p; [congruence|]; rewrite zlen_cons; pose proof (zlen_pos p); lia).
  replace (zlen (p ++ [47]) =? 0) with false by (symmetry; apply Z.eqb_neq; lia).
  assert (Hc : arr_get (p ++ [47]) (zlen (p ++ [47]) - 1) = Ok 47).
  { replace (zlen (p ++ [47]) - 1) with (zlen p) by lia. apply arr_get_app. }
  rewrite Hc. cbn [rbind]. replace (2 <=? zlen (p ++ [47])) with true by (symmetry; apply Z.leb_le; lia).
  change (47 =? SLASH) with true. cbn [andb].
  replace (zlen (p ++ [47]) - 1) with (zlen p) by lia.
  change (p ++ [47]) with (p ++ 47 :: []) at 1. rewrite last_slash_at;
    [|intros []|rewrite app_length; unfold zlen; cbn; lia].
  cbn [rbind]. destruct (mount_item_by_path _ _ _ _ _) as [[k|]| | |]; cbn [rbind]; try exact I.
  replace (zlen p - (zlen p + 1)) with (-1) by lia. change (u64 (-1)) with 18446744073709551615.
  change (SSIZE_MAX - 1 <? 18446744073709551615) with true. exact I.
Qed.

(** * Stat structures *)
Lemma split_time_ok t : same_sign t (split_time t).
Proof.
  unfold same_sign, split_time. cbn [fst snd]. pose proof (Z.quot_rem' t 1000000000).
  pose proof (Z.rem_bound_abs t 1000000000 ltac:(lia)). pose proof (Z.rem_sign_mul t 1000000000 ltac:(lia)).
  lia.
Qed.

Lemma same_sign_unique t x y : same_sign t x -> same_sign t y -> x = y.
Proof.
  unfold same_sign. destruct x as [a b], y as [c d]. cbn [fst snd]. intros (E1 & B1 & S1) (E2 & B2 & S2).
  assert (0 < t /\ 0 <= b /\ 0 <= d \/ t < 0 /\ b <= 0 /\ d <= 0 \/ t = 0) as HS by nia.
  assert (a = c) by lia. f_equal; lia.
Qed.

Lemma file_mode_dir ty : ty = 1 \/ ty = 5 -> file_mode ty = 16749.
Proof. intros [-> | ->]; reflexivity. Qed.

Lemma file_mode_file ty : ty <> 1 -> ty <> 5 -> file_mode ty = 33060.
Proof.
  intros H1 H5. unfold file_mode, mount_is_directory.
  apply Z.eqb_neq in H1, H5. rewrite H1, H5. reflexivity.
Qed.

Lemma mount_time_unix t : 0 <= t < 18446744073709551616 ->
  (fits (unix_time t) -> exists r, mount_time t = Ok r /\ s64 r = unix_time t) /\
  (~ fits (unix_time t) -> mount_time t = Undef).
Proof.
  intros Ht. unfold unix_time, fits. destruct (t =? 0) eqn:E.
  - apply Z.eqb_eq in E. subst t. split; [intros _; exists 0; split; reflexivity|lia].
  - apply Z.eqb_neq in E. split; intros Hv.
    + eexists. split; [apply mount_time_fits; [lia|reflexivity|exact Hv]|apply s64_of_u64; exact Hv].
    + eapply mount_time_overflow; [lia|reflexivity|exact Hv].
Qed.

Lemma describes_unique tm d s s' : describes tm d s -> describes tm d s' -> s = s'.
Proof.
  intros H H'. destruct (Z.eq_dec (de_type d) 1) as [E1|E1]; [|destruct (Z.eq_dec (de_type d) 5) as [E5|E5]].
  all: pose proof (ds_size _ _ _ H); pose proof (ds_size _ _ _ H');
    pose proof (same_sign_unique _ _ _ (ds_atime _ _ _ H) (ds_atime _ _ _ H'));
    pose proof (same_sign_unique _ _ _ (ds_ctime _ _ _ H) (ds_ctime _ _ _ H'));
    pose proof (same_sign_unique _ _ _ (ds_mtime _ _ _ H) (ds_mtime _ _ _ H')).
  1: pose proof (ds_directory _ _ _ H (or_introl E1)); pose proof (ds_directory _ _ _ H' (or_introl E1)).
  2: pose proof (ds_directory _ _ _ H (or_intror E5)); pose proof (ds_directory _ _ _ H' (or_intror E5)).
  3: pose proof (ds_file _ _ _ H E1 E5); pose proof (ds_file _ _ _ H' E1 E5).
  all: destruct s, s'; cbn in *; intuition congruence.
Qed.

Section Mounted.
Variable m : mounted.
Variable t : tree.
Hypothesis HM : mount_ok m.
Hypothesis Htr : mt_tree m = Some t.
Hypothesis HE : forall k d, item_entry t k d -> entry_ok d.

Lemma entry_value_at k d : entry_value m k = Ok d <-> item_entry t k d.
Proof. unfold entry_value. rewrite Htr. apply node_value_entry. Qed.

Lemma entry_stat_fits k d : item_entry t k d -> fits (unix_time (de_mtime d)) ->
  exists s, entry_stat m k = Ok s /\ describes (mt_time m) d s.
Proof.
  intros Hk Hfits. pose proof (HE k d Hk) as [Hsz Hmt]. pose proof (mo_time m HM) as Hnow.
  apply (proj2 (entry_value_at k d)) in Hk. unfold entry_stat. rewrite Hk. cbn [rbind].
  destruct (proj1 (mount_time_unix (de_mtime d) Hmt) Hfits) as (r & Hr & Es). rewrite Hr. cbn [rbind].
  unfold set_stat_info. unfold is_u32 in Hsz.
  replace (9223372036854775807 <? de_size d) with false by (symmetry; apply Z.ltb_ge; lia).
  eexists. split; [reflexivity|].
  assert (Enow : s64 (mt_time m) = mt_time m).
  { unfold s64, INT64_MAX. rewrite Z.mod_small by lia. replace (mt_time m <=? 9223372036854775807) with true by (symmetry; apply Z.leb_le; lia). reflexivity. }
  constructor; cbn [st_size st_mode st_nlink st_atime st_ctime st_mtime].
  - reflexivity.
  - intros Hd. rewrite (file_mode_dir _ Hd). split; reflexivity.
  - intros H1 H5. rewrite (file_mode_file _ H1 H5). split; reflexivity.
  - rewrite Enow. apply split_time_ok.
  - rewrite Enow. apply split_time_ok.
  - rewrite Es. apply split_time_ok.
Qed.

Lemma entry_stat_overflow k d : item_entry t k d -> ~ fits (unix_time (de_mtime d)) -> entry_stat m k = Undef.
Proof.
  intros Hk Hfits. pose proof (HE k d Hk) as [Hsz Hmt].
  apply (proj2 (entry_value_at k d)) in Hk. unfold entry_stat. rewrite Hk. cbn [rbind].
  rewrite (proj2 (mount_time_unix (de_mtime d) Hmt) Hfits). reflexivity.
Qed.

Lemma fits_dec x : fits x \/ ~ fits x.
Proof. unfold fits. lia. Qed.

Lemma entry_stat_ok k s : entry_stat m k = Ok s <->
  exists d, item_entry t k d /\ fits (unix_time (de_mtime d)) /\ describes (mt_time m) d s.
Proof.
  split.
  - intros H. unfold entry_stat in H. destruct (entry_value m k) as [d| | |] eqn:E; try discriminate.
    apply entry_value_at in E. exists d. split; [exact E|].
    destruct (fits_dec (unix_time (de_mtime d))) as [F|F].
    + split; [exact F|]. destruct (entry_stat_fits k d E F) as (s' & Es & D).
      unfold entry_stat in Es. rewrite (proj2 (entry_value_at k d) E) in Es. rewrite H in Es. injection Es as <-. exact D.
    + pose proof (entry_stat_overflow k d E F) as C. unfold entry_stat in C.
      rewrite (proj2 (entry_value_at k d) E), H in C. discriminate C.
  - intros (d & E & F & D). destruct (entry_stat_fits k d E F) as (s' & Es & D').
    rewrite Es. f_equal. exact (describes_unique _ _ _ _ D' D).
Qed.

(** * The listing of a directory *)
Lemma item_entry_fun k d d' : item_entry t k d -> item_entry t k d' -> d = d'.
Proof. intros (n & E & <-) (n' & E' & <-). congruence. Qed.

Lemma lists_iff j x : lists m t j x <-> item_file_name m j = Ok (fst x) /\ entry_stat m j = Ok (snd x).
Proof.
  split.
  - intros (d & n & f & Ed & En & Ef & Ex & F & D). split.
    + unfold item_file_name. rewrite (proj2 (entry_value_at j d) Ed). cbn [rbind]. rewrite En, Ef, Ex. reflexivity.
    + apply entry_stat_ok. eauto.
  - intros [H1 H2]. apply entry_stat_ok in H2 as (d & Ed & F & D). unfold item_file_name in H1.
    rewrite (proj2 (entry_value_at j d) Ed) in H1. cbn [rbind] in H1.
    destruct (mt_name m (de_name d) _) as [n|] eqn:En; [|discriminate].
    destruct (mount_file_name (mt_codec m) n) as [f| | |] eqn:Ef; try discriminate.
    cbn [rbind] in H1. injection H1 as Ex. exists d, n, f. auto 10.
Qed.

Lemma sub_entry_at f nd i j : nth_error (tr_nodes t) (fe_node f) = Some nd ->
  nth_error (n_subs nd) i = Some j ->
  sub_entry m f (Z.of_nat i) =
  do name <- item_file_name m j; Ok {| fe_node := j; fe_name := name; fe_cursor := 0 |}.
Proof.
  intros Hn Hj. unfold sub_entry. rewrite Htr. unfold get_sub_item, sub_nodes. rewrite Hn. cbn [rbind].
  unfold znth. replace (Z.of_nat i <? 0) with false by (symmetry; apply Z.ltb_ge; lia).
  rewrite Nat2Z.id, Hj. reflexivity.
Qed.

Lemma readdir_loop_unfold n accept f i l :
  readdir_loop (S n) m accept f i l =
  match (do g <- sub_entry m f i; filldir accept (fe_name g) (entry_stat m (fe_node g)) l) with
  | Ok l' => readdir_loop n m accept f (i + 1) l'
  | Err => (Err, l)
  | Undef => (Undef, l)
  | NoFuel => (NoFuel, l)
  end.
Proof. reflexivity. Qed.

Lemma nth_error_pre {A} (pre : list A) j post : nth_error (pre ++ j :: post) (length pre) = Some j.
Proof. induction pre; cbn; auto. Qed.

Lemma loop_ok f nd accept : nth_error (tr_nodes t) (fe_node f) = Some nd -> forall rest pre l l',
  n_subs nd = pre ++ rest ->
  (readdir_loop (length rest) m accept f (Z.of_nat (length pre)) l = (Ok tt, l') <->
   exists xs, l' = l ++ xs /\ Forall2 (lists m t) rest xs /\
     forall i, (length l <= i < length l')%nat -> accept i = true).
Proof.
  intros Hn. induction rest as [|j rest IH]; intros pre l l' Hs.
  - cbn [length readdir_loop]. split.
    + intros E. apply pair_equal_spec in E as [_ ->]. exists []. rewrite app_nil_r. repeat split; auto. intros; lia.
    + intros (xs & -> & HF & _). inversion HF; subst. rewrite app_nil_r. reflexivity.
  - cbn [length]. rewrite readdir_loop_unfold.
    assert (Hj : nth_error (n_subs nd) (length pre) = Some j) by (rewrite Hs; apply nth_error_pre).
    rewrite (sub_entry_at f nd (length pre) j Hn Hj).
    assert (IH' := IH (pre ++ [j])). rewrite <- app_assoc in IH'. cbn [app] in IH'.
    rewrite app_length in IH'. cbn [length] in IH'.
    replace (Z.of_nat (length pre) + 1) with (Z.of_nat (length pre + 1)) by lia.
    split.
    + intros H. destruct (item_file_name m j) as [name| | |] eqn:En; cbn [rbind] in H; try discriminate.
      cbn [fe_name fe_node] in H. unfold filldir in H.
      destruct (entry_stat m j) as [s| | |] eqn:Es; cbn [rbind] in H; try discriminate.
      destruct (accept (length l)) eqn:Ea; [|discriminate].
      apply (IH' _ _ Hs) in H as (xs & -> & HF & HA).
      exists ((name, s) :: xs). split; [rewrite <- app_assoc; reflexivity|]. split.
      * constructor; [|exact HF]. apply lists_iff. auto.
      * intros i Hi. destruct (Nat.eq_dec i (length l)) as [->|]; [exact Ea|]. apply HA.
        rewrite !app_length in *. cbn [length] in *. lia.
    + intros (xs & -> & HF & HA). inversion HF as [|? x ? xs' Hx HF']; subst. destruct x as [name s].
      apply lists_iff in Hx as [En Es]. cbn [fst snd] in En, Es. rewrite En. cbn [rbind fe_name fe_node].
      unfold filldir. rewrite Es. cbn [rbind].
      rewrite (HA (length l)) by (rewrite app_length; cbn; lia).
      apply (IH' _ _ Hs). exists xs'. rewrite <- app_assoc. split; [reflexivity|]. split; [exact HF'|].
      intros i Hi. apply HA. rewrite !app_length in *. cbn [length] in *. lia.
Qed.

Lemma readdir_iff accept f l :
  fuse_readdir m accept f = (Done tt, l) <->
  full_listing m t (fe_node f) l /\ forall i, (i < length l)%nat -> accept i = true.
Proof.
  unfold fuse_readdir, number_of_sub_entries. rewrite Htr. unfold get_number_of_sub_items, sub_nodes.
  split.
  - unfold filldir at 1. destruct (entry_stat m (fe_node f)) as [s0| | |] eqn:Es; cbn [rbind]; try discriminate.
    cbn [length]. destruct (accept 0%nat) eqn:E0; [|discriminate]. cbn [app].
    unfold filldir. cbn [set_stat_info rbind]. unfold set_stat_info. cbn [rbind].
    change (9223372036854775807 <? 0) with false. cbn [rbind length].
    destruct (accept 1%nat) eqn:E1; [|discriminate]. cbn [app].
    destruct (nth_error (tr_nodes t) (fe_node f)) as [nd|] eqn:Hn; cbn [rbind]; [|discriminate].
    replace (Z.to_nat (zlen (n_subs nd))) with (length (n_subs nd)) by (unfold zlen; lia).
    destruct (readdir_loop _ m accept f 0 _) as [r l'] eqn:EL.
    intros H. apply pair_equal_spec in H as [H <-]. destruct r as [[]| | |]; try discriminate.
    apply (proj1 (loop_ok f nd accept Hn (n_subs nd) [] _ _ eq_refl)) in EL as (xs & -> & HF & HA).
    cbn [app] in *.
    apply entry_stat_ok in Es as (d & Ed & F & D).
    destruct Ed as (nd' & En' & <-). rewrite Hn in En'. injection En' as <-.
    split.
    + exists nd, s0, xs. split; [exact Hn|]. split; [reflexivity|]. split; [exact F|]. split; [exact D|exact HF].
    + intros [|[|i]] Hi; auto. apply HA. cbn [length] in *. lia.
  - intros ((nd & s0 & rest & Hn & -> & F & D & HF) & HA).
    assert (Es : entry_stat m (fe_node f) = Ok s0).
    { apply entry_stat_ok. exists (n_entry nd). split; [exists nd; auto|auto]. }
    rewrite Es. unfold filldir at 1. cbn [rbind length]. rewrite (HA 0%nat) by (cbn; lia). cbn [app].
    unfold filldir, set_stat_info. change (9223372036854775807 <? 0) with false. cbn [rbind length].
    rewrite (HA 1%nat) by (cbn; lia). cbn [app]. rewrite Hn. cbn [rbind].
    replace (Z.to_nat (zlen (n_subs nd))) with (length (n_subs nd)) by (unfold zlen; lia).
    match goal with |- context [readdir_loop _ m accept f 0 ?l] =>
      assert (EL : readdir_loop (length (n_subs nd)) m accept f 0 l = (Ok tt, l ++ rest)) end.
    { apply (loop_ok f nd accept Hn (n_subs nd) [] _ _ eq_refl). exists rest. split; [reflexivity|]. split; [exact HF|].
      intros i Hi. apply HA. cbn [app length] in *. lia. }
    rewrite EL.
    reflexivity.
Qed.

(** A sub item without a name ends the listing. *)
Lemma loop_stops f nd accept pre j post : nth_error (tr_nodes t) (fe_node f) = Some nd ->
  item_file_name m j = Err -> forall mid pre0 l xs, n_subs nd = pre0 ++ mid ++ j :: post -> pre = pre0 ++ mid ->
  Forall2 (lists m t) mid xs -> (forall i, accept i = true) ->
  readdir_loop (length (mid ++ j :: post)) m accept f (Z.of_nat (length pre0)) l = (Err, l ++ xs).
Proof.
  intros Hn Hj. induction mid as [|k mid IH]; intros pre0 l xs Hs Hp HF HA.
  - inversion HF; subst. rewrite app_nil_r. cbn [app length] in *. rewrite readdir_loop_unfold.
    assert (Hk : nth_error (n_subs nd) (length pre0) = Some j) by (rewrite Hs; apply nth_error_pre).
    rewrite (sub_entry_at f nd (length pre0) j Hn Hk), Hj. reflexivity.
  - inversion HF as [|? x ? xs' Hx HF']; subst. destruct x as [name s]. cbn [app length] in *.
    rewrite readdir_loop_unfold.
    assert (Hk : nth_error (n_subs nd) (length pre0) = Some k) by (rewrite Hs; apply nth_error_pre).
    rewrite (sub_entry_at f nd (length pre0) k Hn Hk).
    apply lists_iff in Hx as [En Es]. cbn [fst snd] in En, Es. rewrite En. cbn [rbind fe_name fe_node].
    unfold filldir. rewrite Es. cbn [rbind]. rewrite HA.
    replace (Z.of_nat (length pre0) + 1) with (Z.of_nat (length (pre0 ++ [k]))) by (rewrite app_length; cbn; lia).
    rewrite (IH (pre0 ++ [k]) _ xs'); auto; rewrite <- ?app_assoc; cbn [app]; auto.
Qed.

Lemma readdir_stops f nd s0 pre j post xs :
  nth_error (tr_nodes t) (fe_node f) = Some nd -> fits (unix_time (de_mtime (n_entry nd))) ->
  describes (mt_time m) (n_entry nd) s0 -> n_subs nd = pre ++ j :: post -> Forall2 (lists m t) pre xs ->
  item_file_name m j = Err ->
  fuse_readdir m (fun _ => true) f = (Fails EIO, ([46], s0) :: ([46; 46], stat_zero) :: xs).
Proof.
  intros Hn F D Hs HF Hj. unfold fuse_readdir, number_of_sub_entries. rewrite Htr.
  unfold get_number_of_sub_items, sub_nodes.
  assert (Es : entry_stat m (fe_node f) = Ok s0).
  { apply entry_stat_ok. exists (n_entry nd). split; [exists nd; auto|auto]. }
  rewrite Es. unfold filldir at 1. cbn [rbind app].
  unfold filldir, set_stat_info. change (9223372036854775807 <? 0) with false. cbn [rbind app]. rewrite Hn. cbn [rbind].
  replace (Z.to_nat (zlen (n_subs nd))) with (length (pre ++ j :: post)) by (rewrite Hs; unfold zlen; lia).
  change 0 with (Z.of_nat (length (@nil nat))).
  rewrite (loop_stops f nd (fun _ => true) pre j post Hn Hj pre [] _ xs); auto.
Qed.

(** * What the listing names is found *)
Lemma lookup_snoc by_name ns n : forall k,
  lookup_names by_name k (ns ++ [n]) =
  match lookup_names by_name k ns with Ok (Some k') => by_name k' n | r => r end.
Proof.
  induction ns as [|x ns IH]; intros k; cbn [app lookup_names].
  - destruct (by_name k n) as [[|]| | |]; reflexivity.
  - destruct (by_name k x) as [[k'|]| | |]; auto.
Qed.

Lemma loop_finds compare pre j post d : Forall (name_differs compare t) pre -> item_entry t j d ->
  compare (de_name d) = Ok true -> sub_node_loop t compare (pre ++ j :: post) = Ok (Some j).
Proof.
  intros HF Hd Hc. induction HF as [|k pre (dk & Hk & Hck) _ IH]; cbn [app sub_node_loop].
  - rewrite (proj2 (node_value_entry t j d) Hd). cbn [rbind]. rewrite Hc. reflexivity.
  - rewrite (proj2 (node_value_entry t k dk) Hk). cbn [rbind]. rewrite Hck. cbn [rbind]. exact IH.
Qed.

Lemma listed_is_found css ns fs k nd pre j post d cs n f :
  file_names_of m css ns fs -> walk m t ns = Ok (Some k) ->
  nth_error (tr_nodes t) k = Some nd -> n_subs nd = pre ++ j :: post -> item_entry t j d ->
  mt_name m (de_name d) (v_byte_order (mt_volume m)) = Some n ->
  text (mt_codec m) cs n -> cs <> [] -> Forall (fun c => c <> 0 /\ c <> 92) cs ->
  mount_file_name (mt_codec m) n = Ok f ->
  una_utf8_compare (mt_una m) n (de_name d) (v_byte_order (mt_volume m)) = Ok true ->
  Forall (name_differs (fun x => una_utf8_compare (mt_una m) n x (v_byte_order (mt_volume m))) t) pre ->
  zlen (mount_path (fs ++ [f])) < SSIZE_MAX ->
  file_names_of m (css ++ [cs]) (ns ++ [n]) (fs ++ [f]) /\ walk m t (ns ++ [n]) = Ok (Some j) /\
  forall accept h l, fe_node h = k -> fuse_readdir m accept h = (Done tt, l) ->
    exists s, nth_error l (2 + length pre) = Some (f, s) /\ fuse_getattr m (mount_path (fs ++ [f])) = Done s.
Proof.
  intros (HT & HC & HF & Hl) Hw Hn Hs Hd En Ht Hne H0 Ef Hcmp Hdiff Hl'.
  assert (HN : file_names_of m (css ++ [cs]) (ns ++ [n]) (fs ++ [f])).
  { split; [apply Forall2_app; auto|]. split; [apply Forall_snoc; auto|]. split; [apply Forall2_app; auto|exact Hl']. }
  assert (HW : walk m t (ns ++ [n]) = Ok (Some j)).
  { unfold walk in *. rewrite lookup_snoc, Hw. unfold sub_node_by_utf8_name, sub_nodes. rewrite Hn. cbn [rbind].
    rewrite Hs. eapply loop_finds; eauto. }
  split; [exact HN|]. split; [exact HW|]. intros accept h l Hh HR.
  apply readdir_iff in HR as [(nd' & s0 & rest & Hn' & -> & _ & _ & HL) _]. rewrite Hh, Hn in Hn'. injection Hn' as <-.
  rewrite Hs in HL. apply Forall2_app_inv_l in HL as (xs & ys & HL1 & HL2 & ->).
  inversion HL2 as [|? x ? ys' Hx _]; subst. destruct x as [name s].
  pose proof Hx as Hx'. apply lists_iff in Hx' as [_ Es]. cbn [snd] in Es.
  destruct Hx as (d' & n' & f' & Ed' & En' & Ef' & Ex & _ & _). cbn [fst] in Ex.
  rewrite (item_entry_fun j d' d Ed' Hd) in *. rewrite En in En'. injection En' as <-. rewrite Ef in Ef'. injection Ef' as <-.
  assert (H00 : Forall (fun c => c <> 0) cs) by (eapply Forall_impl; [|exact H0]; cbn; intros; lia).
  destruct (file_name_good (mt_codec m) cs n f (mo_codec m HM) Ht Hne H00 Ef) as (_ & _ & Ec).
  exists s. split.
  - cbn [Nat.add nth_error]. rewrite (Forall2_same_length _ _ _ HL1), nth_error_pre. rewrite Ex, Ec. reflexivity.
  - unfold fuse_getattr. rewrite (entry_path m t _ _ _ HM Htr HN), HW. cbn [rbind option_map fe_node].
    rewrite Es. reflexivity.
Qed.

Lemma getattr_exact css ns fs : file_names_of m css ns fs ->
  (forall k d, walk m t ns = Ok (Some k) -> item_entry t k d -> fits (unix_time (de_mtime d)) ->
     exists s, fuse_getattr m (mount_path fs) = Done s /\ describes (mt_time m) d s) /\
  (forall k d, walk m t ns = Ok (Some k) -> item_entry t k d -> ~ fits (unix_time (de_mtime d)) ->
     fuse_getattr m (mount_path fs) = Undefined) /\
  (walk m t ns = Ok None \/ walk m t ns = Err -> fuse_getattr m (mount_path fs) = Fails ENOENT).
Proof.
  intros HN. unfold fuse_getattr. rewrite (entry_path m t css ns fs HM Htr HN).
  split; [|split].
  - intros k d Hw Hk F. rewrite Hw. cbn [rbind option_map fe_node].
    destruct (entry_stat_fits k d Hk F) as (s & Es & D). rewrite Es. exists s. split; [reflexivity|exact D].
  - intros k d Hw Hk F. rewrite Hw. cbn [rbind option_map fe_node]. rewrite (entry_stat_overflow k d Hk F). reflexivity.
  - intros [Hw | Hw]; rewrite Hw; reflexivity.
Qed.
End Mounted.

(** * Reading *)
Lemma slice_beyond {A} (s : list A) c n : zlen s <= c -> slice s c n = [].
Proof. intros H. unfold slice, zlen in *. rewrite skipn_all2 by lia. apply firstn_nil. Qed.

Lemma slice_clip {A} (s : list A) c n : 0 <= c -> zlen s - c <= n -> slice s c n = slice s c (zlen s - c).
Proof.
  intros Hc H. unfold slice, zlen in *.
  rewrite (firstn_all2 (n := Z.to_nat n)) by (rewrite skipn_length; lia).
  rewrite firstn_all2 by (rewrite skipn_length; lia). reflexivity.
Qed.

Lemma read_buffer_slice rd v d s c n cap t l c' t' :
  is_stream rd v d s -> 0 <= n -> stream_read_buffer rd v d c n cap t = (Ok (l, c'), t') ->
  l = slice s c n /\ c' = c + zlen l.
Proof.
  intros (HV & HD & Hsh & HB & f & HS & (Hty & Hlen & Hby)) Hn H.
  pose proof (read_buffer_basic _ _ _ _ _ _ _ _ _ _ HD Hn H) as (_ & Hc & _ & Ha & ->).
  pose proof (read_buffer_position _ _ _ _ _ _ _ _ _ _ _ HS HV HD Hn Hsh H) as Hpos.
  unfold read_amount in Ha. split; [|reflexivity].
  destruct (de_size d <=? c) eqn:Ec; [apply Z.leb_le in Ec|apply Z.leb_gt in Ec].
  - rewrite slice_beyond by lia. destruct l; [reflexivity|]. rewrite zlen_cons in Ha. pose proof (zlen_pos l). lia.
  - assert (Hs : slice s c n = slice s c (zlen l)).
    { destruct (Z_le_gt_dec n (zlen s - c)); [f_equal; lia|]. rewrite (slice_clip s c n) by lia. f_equal. lia. }
    rewrite Hs. apply znth_ext; [rewrite zlen_slice by lia; lia|]. intros i Hi.
    destruct (znth_some l i) as (b & Hb); [lia|].
    destruct (znth_some s (c + i)) as (b' & Hb'); [lia|].
    rewrite znth_slice by lia. rewrite Hb, Hb'. f_equal.
    destruct (Hpos i b Hb) as (p & Hp & Hfp). destruct (Hby _ _ Hb') as (p' & Hp' & Hfp').
    rewrite (stream_position_fun _ _ _ _ _ Hp Hp') in Hfp. congruence.
Qed.

Lemma read_buffer_full rd v d s c n t :
  is_readable_stream rd v d s -> 0 <= c -> 0 < n <= SSIZE_MAX -> few_sectors v d n ->
  exists t', stream_read_buffer rd v d c n n t = (Ok (slice s c n, c + zlen (slice s c n)), t').
Proof.
  intros (HV & HD & Hsh & HB & HI & f & HS & HT & HC) Hc Hn Hfew. pose proof HC as (Hty & Hlen & Hby).
  destruct (Z_lt_le_dec c (de_size d)) as [L|L].
  - destruct (read_buffer_complete f rd v d c n n t) as (data & t' & Hr & Hdl); auto; try lia.
    + destruct (HI c) as (Hq & _); [lia|]. exact Hq.
    + destruct (HI (c + Z.min n (de_size d - c) - 1)) as (_ & Hq); [lia|]. exact Hq.
    + intros i Hi. destruct (znth_some s i) as (b & Hb); [lia|].
      destruct (Hby _ _ Hb) as (p & Hp & Hfp). exists p. split; auto. apply znth_range in Hfp. lia.
    + destruct (read_buffer_slice rd v d s c n n t data _ _ ltac:(unfold is_stream; eauto 10) ltac:(lia) Hr) as [<- <-].
      eauto.
  - exists t. rewrite slice_beyond by lia. rewrite zlen_nil, Z.add_0_r. unfold stream_read_buffer.
    rewrite Hty. change (negb (2 =? TYPE_STREAM)) with false. cbn [negb].
    replace (c <? 0) with false by (symmetry; apply Z.ltb_ge; lia).
    replace (SSIZE_MAX <? n) with false by (symmetry; apply Z.ltb_ge; lia).
    replace (de_size d <=? c) with true by (symmetry; apply Z.leb_le; lia). reflexivity.
Qed.

Section Reads.
Variable m : mounted.
Variable t : tree.
Hypothesis Htr : mt_tree m = Some t.

Lemma seek_set d c o : stream_seek_offset d c o SEEK_SET =
  if negb (de_type d =? TYPE_STREAM) then Err else if c <? 0 then Err else if o <? 0 then Err else Ok o.
Proof. reflexivity. Qed.

Lemma fuse_read_node rd f size offset : fe_node (snd (fuse_read rd m f size offset)) = fe_node f /\
  fe_name (snd (fuse_read rd m f size offset)) = fe_name f.
Proof.
  unfold fuse_read, entry_read. destruct (INT_MAX <? size); [auto|].
  destruct (entry_value m (fe_node f)) as [d| | |]; auto.
  destruct (negb (de_type d =? TYPE_STREAM)); [auto|].
  destruct (stream_read_at _ _ _ _ _ _ _ _) as [[r c] tr]. auto.
Qed.

Lemma read_buffer_cursor rd v d c n cap tr l c' tr' : 0 <= c ->
  stream_read_buffer rd v d c n cap tr = (Ok (l, c'), tr') -> 0 <= c'.
Proof.
  intros Hc H. unfold stream_read_buffer in H.
  destruct (negb (de_type d =? TYPE_STREAM)); [discriminate|]. destruct (c <? 0); [discriminate|].
  destruct (SSIZE_MAX <? n); [discriminate|].
  destruct (de_size d <=? c); [unfold iret in H; injection H as _ <- _; exact Hc|].
  set (n' := if (de_size d <? n) || _ then _ else n) in H. clearbody n'. unfold ibind in H.
  destruct (io_read_stream rd v d c n' cap tr) as [[data| | |] tr1]; try discriminate.
  destruct (zlen data =? n'); [|discriminate]. unfold iret in H. injection H as _ <- _.
  pose proof (zlen_pos data). lia.
Qed.

Lemma fuse_read_cursor rd f size offset : 0 <= fe_cursor f ->
  0 <= fe_cursor (snd (fuse_read rd m f size offset)).
Proof.
  intros Hc. unfold fuse_read, entry_read. destruct (INT_MAX <? size); [auto|].
  destruct (entry_value m (fe_node f)) as [d| | |]; auto.
  destruct (negb (de_type d =? TYPE_STREAM)) eqn:Et; [auto|]. unfold stream_read_at. rewrite seek_set, Et.
  replace (fe_cursor f <? 0) with false by (symmetry; apply Z.ltb_ge; lia).
  destruct (offset <? 0) eqn:Eo; [exact Hc|]. apply Z.ltb_ge in Eo.
  destruct (stream_read_buffer rd (mt_volume m) d offset size size []) as [[[l c']| | |] tr] eqn:E; try exact Eo.
  exact (read_buffer_cursor _ _ _ _ _ _ _ _ _ _ Eo E).
Qed.

Lemma fuse_read_cursor_free rd f g size offset : fe_node f = fe_node g -> 0 <= fe_cursor f -> 0 <= fe_cursor g ->
  fst (fuse_read rd m f size offset) = fst (fuse_read rd m g size offset).
Proof.
  intros En Hf Hg. unfold fuse_read, entry_read. destruct (INT_MAX <? size); [auto|]. rewrite En.
  destruct (entry_value m (fe_node g)) as [d| | |]; auto.
  destruct (negb (de_type d =? TYPE_STREAM)); [auto|].
  destruct (read_at_history_free rd (mt_volume m) d (fe_cursor f) (fe_cursor g) offset size size [] Hf Hg) as [E _].
  destruct (stream_read_at rd (mt_volume m) d (fe_cursor f) offset size size []) as [[r c] tr].
  destruct (stream_read_at rd (mt_volume m) d (fe_cursor g) offset size size []) as [[r' c'] tr'].
  cbn [fst] in *. congruence.
Qed.

Lemma value_of_item k d : item_entry t k d -> entry_value m k = Ok d.
Proof. intros H. unfold entry_value. rewrite Htr. apply node_value_entry, H. Qed.

Lemma fuse_read_full rd f d s size offset :
  item_entry t (fe_node f) d -> is_readable_stream rd (mt_volume m) d s ->
  0 <= fe_cursor f -> 0 <= offset -> 0 < size <= INT_MAX -> few_sectors (mt_volume m) d size ->
  fuse_read rd m f size offset =
  (Done (slice s offset size),
   {| fe_node := fe_node f; fe_name := fe_name f; fe_cursor := offset + zlen (slice s offset size) |}).
Proof.
  intros Hd Hs Hc Ho Hsz Hfew. unfold fuse_read, entry_read. rewrite (value_of_item _ _ Hd).
  replace (INT_MAX <? size) with false by (symmetry; apply Z.ltb_ge; lia).
  pose proof Hs as (_ & _ & _ & _ & _ & fl & _ & _ & (Hty & _)).
  unfold stream_read_at. rewrite seek_set. rewrite Hty. change (negb (2 =? TYPE_STREAM)) with false. cbn [negb].
  replace (fe_cursor f <? 0) with false by (symmetry; apply Z.ltb_ge; lia).
  replace (offset <? 0) with false by (symmetry; apply Z.ltb_ge; lia).
  destruct (read_buffer_full rd (mt_volume m) d s offset size [] Hs Ho) as (t' & E);
    [unfold INT_MAX, SSIZE_MAX in *; lia|exact Hfew|].
  rewrite E. reflexivity.
Qed.

Lemma fuse_read_sound rd f d s size offset l f' :
  item_entry t (fe_node f) d -> is_stream rd (mt_volume m) d s -> 0 <= size ->
  fuse_read rd m f size offset = (Done l, f') -> 0 <= offset /\ size <= INT_MAX /\ l = slice s offset size.
Proof.
  intros Hd Hs Hsz H. unfold fuse_read, entry_read in H. rewrite (value_of_item _ _ Hd) in H.
  destruct (INT_MAX <? size) eqn:Em; [discriminate|]. apply Z.ltb_ge in Em.
  destruct (negb (de_type d =? TYPE_STREAM)) eqn:Et; [discriminate|].
  unfold stream_read_at in H. rewrite seek_set, Et in H.
  destruct (fe_cursor f <? 0); [discriminate|]. destruct (offset <? 0) eqn:Eo; [discriminate|]. apply Z.ltb_ge in Eo.
  destruct (stream_read_buffer rd (mt_volume m) d offset size size []) as [[[l1 c]| | |] tr] eqn:E; try discriminate.
  cbn [on_error] in H. apply pair_equal_spec in H as [H _]. injection H as ->.
  split; [exact Eo|]. split; [exact Em|]. exact (proj1 (read_buffer_slice _ _ _ _ _ _ _ _ _ _ _ Hs Hsz E)).
Qed.

Lemma fuse_read_other rd f d size offset : item_entry t (fe_node f) d ->
  (INT_MAX < size -> fst (fuse_read rd m f size offset) = Fails EINVAL) /\
  (size <= INT_MAX -> de_type d <> 2 \/ offset < 0 -> fst (fuse_read rd m f size offset) = Fails EIO) /\
  (0 <= size -> volume_ok (mt_volume m) -> dirent_ok d -> few_sectors (mt_volume m) d size ->
   fst (fuse_read rd m f size offset) <> Undefined).
Proof.
  intros Hd. unfold fuse_read, entry_read. rewrite (value_of_item _ _ Hd). split; [|split].
  - intros H. replace (INT_MAX <? size) with true by (symmetry; apply Z.ltb_lt; lia). reflexivity.
  - intros H Hor. replace (INT_MAX <? size) with false by (symmetry; apply Z.ltb_ge; lia).
    destruct (negb (de_type d =? TYPE_STREAM)) eqn:Et; [reflexivity|].
    destruct Hor as [Hty|Ho]; [apply Z.eqb_neq in Hty; unfold TYPE_STREAM in Et; rewrite Hty in Et; discriminate|].
    unfold stream_read_at. rewrite seek_set, Et.
    replace (offset <? 0) with true by (symmetry; apply Z.ltb_lt; lia).
    destruct (fe_cursor f <? 0); reflexivity.
  - intros Hsz HV HD Hfew. destruct (INT_MAX <? size) eqn:Em; [discriminate|].
    destruct (negb (de_type d =? TYPE_STREAM)) eqn:Et; [discriminate|].
    unfold stream_read_at. rewrite seek_set, Et. destruct (fe_cursor f <? 0); [discriminate|].
    destruct (offset <? 0); [discriminate|].
    pose proof (read_buffer_defined rd (mt_volume m) d offset size size [] HV HD ltac:(lia) Hfew) as Hdef.
    destruct (stream_read_buffer rd (mt_volume m) d offset size size []) as [[[l1 c]| | |] tr]; cbn in *; try discriminate; destruct Hdef.
Qed.

Lemma cat_from rd d s n : is_readable_stream rd (mt_volume m) d s -> 0 < n <= INT_MAX -> few_sectors (mt_volume m) d n ->
  forall fuel f o, item_entry t (fe_node f) d -> 0 <= fe_cursor f -> 0 <= o ->
    (length (skipn (Z.to_nat o) s) < fuel)%nat ->
    cat fuel (fun f o => fuse_read rd m f n o) f o = Some (skipn (Z.to_nat o) s).
Proof.
  intros Hs Hn Hfew. induction fuel as [|fuel IH]; intros f o Hd Hc Ho Hfu; [lia|].
  cbn [cat]. rewrite (fuse_read_full rd f d s n o Hd Hs Hc Ho Hn Hfew).
  remember (skipn (Z.to_nat o) s) as r eqn:Er. unfold slice. rewrite <- Er.
  destruct r as [|x r].
  - rewrite firstn_nil. reflexivity.
  - destruct (Z.to_nat n) as [|k] eqn:Ek; [lia|]. cbn [firstn]. set (l := x :: firstn k r).
    pose proof (zlen_pos l). assert (Hl : zlen l = 1 + zlen (firstn k r)) by apply zlen_cons. pose proof (zlen_pos (firstn k r)).
    assert (Hsk : skipn (Z.to_nat (o + zlen l)) s = skipn (length l) (x :: r)).
    { rewrite Er. rewrite <- (firstn_skipn (Z.to_nat o) s) at 1. rewrite skipn_app.
      assert (Ho' : (Z.to_nat o < length s)%nat).
      { destruct (le_lt_dec (length s) (Z.to_nat o)) as [C|C]; [|exact C]. rewrite skipn_all2 in Er by exact C. discriminate. }
      rewrite skipn_all2 by (rewrite firstn_length; lia). cbn [app]. rewrite firstn_length. f_equal. unfold zlen. lia. }
    rewrite IH; cbn [fe_node fe_cursor]; auto; try lia.
    + rewrite Hsk. cbn [option_map]. f_equal. unfold l. cbn [app length skipn]. f_equal.
      rewrite firstn_length. destruct (le_lt_dec k (length r)) as [L|L].
      * rewrite Nat.min_l by exact L. apply firstn_skipn.
      * rewrite Nat.min_r by lia. rewrite firstn_all2 by lia. rewrite skipn_all, app_nil_r. reflexivity.
    + rewrite Hsk, skipn_length. unfold l in *. cbn [length] in *. lia.
Qed.
End Reads.

(** * Histories *)
Lemma set_handle_nth l h x k : (h < length l)%nat ->
  nth_error (set_handle l h x) k = if Nat.eq_dec k h then Some x else nth_error l k.
Proof.
  intros Hh. unfold set_handle. destruct (Nat.eq_dec k h) as [->|Hne].
  - rewrite nth_error_app2 by (rewrite firstn_length; lia). rewrite firstn_length, Nat.min_l by lia.
    rewrite Nat.sub_diag. reflexivity.
  - destruct (lt_dec k h) as [L|L].
    + rewrite nth_error_app1 by (rewrite firstn_length; lia).
      rewrite <- (firstn_skipn h l) at 2. rewrite nth_error_app1 by (rewrite firstn_length; lia). reflexivity.
    + rewrite nth_error_app2 by (rewrite firstn_length; lia). rewrite firstn_length, Nat.min_l by lia.
      replace (k - h)%nat with (S (k - S h)) by lia. cbn [nth_error].
      rewrite <- (firstn_skipn (S h) l) at 2. rewrite nth_error_app2 by (rewrite firstn_length; lia).
      rewrite firstn_length, Nat.min_l by lia. reflexivity.
Qed.

Definition count_open (l : list (option file_entry)) : Z :=
  zlen (filter (fun x => match x with Some _ => true | None => false end) l).

Lemma count_app l l' : count_open (l ++ l') = count_open l + count_open l'.
Proof. unfold count_open. rewrite filter_app. apply zlen_app'. Qed.

Lemma count_cons x l : count_open (x :: l) = (match x with Some _ => 1 | None => 0 end) + count_open l.
Proof. unfold count_open. destruct x; cbn [filter]; [rewrite zlen_cons|]; lia. Qed.

Lemma count_split l h y : nth_error l h = Some y ->
  count_open l = count_open (firstn h l) + (match y with Some _ => 1 | None => 0 end) + count_open (skipn (S h) l).
Proof.
  intros H. apply nth_error_split in H as (a & b & -> & <-).
  rewrite count_app, count_cons. rewrite firstn_app, Nat.sub_diag, firstn_all, firstn_O, app_nil_r.
  replace (skipn (S (length a)) (a ++ y :: b)) with b; [lia|].
  replace (a ++ y :: b) with ((a ++ [y]) ++ b) by (rewrite <- app_assoc; reflexivity).
  rewrite skipn_app, skipn_all2 by (rewrite app_length; cbn; lia).
  rewrite app_length. cbn [length]. replace (S (length a) - (length a + 1))%nat with 0%nat by lia. reflexivity.
Qed.

Lemma count_set l h x y : nth_error l h = Some y ->
  count_open (set_handle l h x) =
  count_open l - (match y with Some _ => 1 | None => 0 end) + (match x with Some _ => 1 | None => 0 end).
Proof.
  intros H. rewrite (count_split l h y H). unfold set_handle. rewrite count_app, count_cons. lia.
Qed.

Definition closes (op : fuse_op) (s : fuse_state) : Z :=
  match op with
  | FuReleasedir k => match nth_error (fu_handles s) k with Some (Some _) => 1 | _ => 0 end
  | _ => 0
  end.

Lemma open_handle_live m path s :
  fu_live (snd (open_handle m path s)) - count_open (fu_handles (snd (open_handle m path s))) =
  fu_live s - count_open (fu_handles s).
Proof.
  unfold open_handle. destruct (fuse_entry m path); cbn [snd fu_live fu_handles]; try lia.
  rewrite count_app, count_cons. change (count_open []) with 0. lia.
Qed.

Lemma step_live rd m op s :
  fu_live (snd (fuse_step rd m op s)) - count_open (fu_handles (snd (fuse_step rd m op s))) =
  fu_live s - count_open (fu_handles s) + closes op s.
Proof.
  destruct op as [path|path flags|h size offset|h|path|h accept|h]; cbn [fuse_step closes].
  - cbn [snd]. lia.
  - destruct (negb (Z.land flags 3 =? 0)); [cbn [snd]; lia|]. rewrite open_handle_live. lia.
  - destruct (INT_MAX <? size); [cbn [snd]; lia|].
    destruct (nth_error (fu_handles s) h) as [[f|]|] eqn:E; try (cbn [snd]; lia).
    destruct (fuse_read rd m f size offset) as [r f']. cbn [snd fu_live fu_handles].
    rewrite (count_set _ _ _ _ E). lia.
  - destruct (nth_error (fu_handles s) h) as [[f|]|] eqn:E; cbn [snd fu_live fu_handles]; try lia.
    rewrite (count_set _ _ _ _ E). lia.
  - rewrite open_handle_live. lia.
  - destruct (nth_error (fu_handles s) h) as [[f|]|] eqn:E; cbn [snd]; lia.
  - destruct (nth_error (fu_handles s) h) as [y|] eqn:E; cbn [snd fu_live fu_handles]; [|lia].
    rewrite (count_set _ _ _ _ E). destruct y; lia.
Qed.

Lemma run_live m h : forall s rs s', fuse_run m h s = (rs, s') ->
  fu_live s' - open_handles s' = fu_live s - open_handles s + closed_directories m h s.
Proof.
  induction h as [|[rd op] h IH]; intros s rs s' H; cbn [fuse_run closed_directories] in *.
  - apply pair_equal_spec in H as [_ ->]. lia.
  - destruct (fuse_step rd m op s) as [r s1] eqn:E1. destruct (fuse_run m h s1) as [rs2 s2] eqn:E2.
    apply pair_equal_spec in H as [_ ->]. cbn [snd]. apply IH in E2.
    pose proof (step_live rd m op s) as HL. rewrite E1 in HL. cbn [snd] in HL.
    fold (closes op s). unfold open_handles in *. unfold count_open in HL. lia.
Qed.

(** The handle [k] is the open entry [f], up to the offset. *)
Definition is_open (s : fuse_state) (k : nat) (f : file_entry) : Prop :=
  exists g, nth_error (fu_handles s) k = Some (Some g) /\ fe_node g = fe_node f /\ fe_name g = fe_name f /\ 0 <= fe_cursor g.

Lemma open_handle_keeps m path s k f : is_open s k f -> is_open (snd (open_handle m path s)) k f.
Proof.
  intros (g & Hg & H). unfold open_handle. destruct (fuse_entry m path); cbn [snd]; try (exists g; auto).
  cbn [fu_handles]. split; [|exact H]. rewrite nth_error_app1; [exact Hg|]. apply nth_error_Some. congruence.
Qed.

Lemma step_keeps rd m op s k f : op <> FuRelease k -> op <> FuReleasedir k -> is_open s k f ->
  is_open (snd (fuse_step rd m op s)) k f.
Proof.
  intros H1 H2 Hk. destruct op as [path|path flags|h size offset|h|path|h accept|h]; cbn [fuse_step].
  - exact Hk.
  - destruct (negb (Z.land flags 3 =? 0)); [exact Hk|]. apply open_handle_keeps, Hk.
  - destruct (INT_MAX <? size); [exact Hk|].
    destruct (nth_error (fu_handles s) h) as [[g|]|] eqn:E; try exact Hk.
    destruct (fuse_read rd m g size offset) as [r g'] eqn:Er.
    destruct Hk as (g0 & Hg & En & Em & Ec). unfold is_open. cbn [snd fu_handles].
    assert (Hh : (h < length (fu_handles s))%nat) by (apply nth_error_Some; congruence).
    destruct (Nat.eq_dec k h) as [Ekh|Hne].
    + subst h. rewrite E in Hg. injection Hg as ->. exists g'. rewrite set_handle_nth by exact Hh.
      destruct (Nat.eq_dec k k); [|congruence].
      pose proof (fuse_read_node m rd g0 size offset) as [HA HB]. pose proof (fuse_read_cursor m rd g0 size offset Ec) as HC.
      rewrite Er in HA, HB, HC. cbn [snd] in HA, HB, HC. repeat split; congruence.
    + exists g0. rewrite set_handle_nth by exact Hh. destruct (Nat.eq_dec k h); [congruence|]. auto.
  - destruct (nth_error (fu_handles s) h) as [[g|]|] eqn:E; try exact Hk.
    destruct Hk as (g0 & Hg & H). exists g0. cbn [snd fu_handles].
    rewrite set_handle_nth by (apply nth_error_Some; congruence).
    destruct (Nat.eq_dec k h); [congruence|]. auto.
  - apply open_handle_keeps, Hk.
  - destruct (nth_error (fu_handles s) h) as [[g|]|]; exact Hk.
  - destruct (nth_error (fu_handles s) h) as [g|] eqn:E; try exact Hk.
    destruct Hk as (g0 & Hg & H). exists g0. cbn [snd fu_handles].
    rewrite set_handle_nth by (apply nth_error_Some; congruence).
    destruct (Nat.eq_dec k h); [congruence|]. auto.
Qed.

Lemma run_keeps m k f h : keeps_open k h -> forall s rs s', is_open s k f -> fuse_run m h s = (rs, s') -> is_open s' k f.
Proof.
  induction 1 as [|[rd op] h [H1 H2] _ IH]; intros s rs s' Hk H; cbn [fuse_run] in H.
  - apply pair_equal_spec in H as [_ <-]. exact Hk.
  - destruct (fuse_step rd m op s) as [r s1] eqn:E1. destruct (fuse_run m h s1) as [rs2 s2] eqn:E2.
    apply pair_equal_spec in H as [_ <-]. refine (IH s1 rs2 s2 _ E2).
    pose proof (step_keeps rd m op s k f H1 H2 Hk) as HK. rewrite E1 in HK. exact HK.
Qed.

Lemma open_step rd m op s k s' path : (exists flags, op = FuOpen path flags) \/ op = FuOpendir path ->
  fuse_step rd m op s = (RHandle k, s') ->
  exists f, fuse_entry m path = Done f /\ fe_cursor f = 0 /\ nth_error (fu_handles s') k = Some (Some f).
Proof.
  intros Hop H.
  assert (Ho : open_handle m path s = (RHandle k, s')).
  { destruct Hop as [[flags ->] | ->]; cbn [fuse_step] in H; [|exact H].
    destruct (negb (Z.land flags 3 =? 0)); [discriminate|exact H]. }
  unfold open_handle in Ho. destruct (fuse_entry m path) as [f| |] eqn:Ef; try discriminate.
  apply pair_equal_spec in Ho as [Ek <-]. injection Ek as <-. exists f. split; [reflexivity|]. split.
  - unfold fuse_entry in Ef. destruct (entry_by_path m path) as [[g|]| | |] eqn:Eg; try discriminate.
    injection Ef as ->. unfold entry_by_path in Eg. destruct (zlen path =? 0); [discriminate|].
    destruct (arr_get path (zlen path - 1)) as [c| | |]; try discriminate. cbn [rbind] in Eg.
    destruct (last_slash _ _) as [i| | |]; try discriminate. cbn [rbind] in Eg.
    destruct (mount_item_by_path _ _ _ _ _) as [[j|]| | |]; try discriminate. cbn [rbind] in Eg.
    destruct (SSIZE_MAX - 1 <? _); [discriminate|]. destruct (zlen path + 1 <? _); [discriminate|].
    injection Eg as <-. reflexivity.
  - cbn [fu_handles]. rewrite nth_error_app2, Nat.sub_diag by lia. reflexivity.
Qed.

Lemma readdir_node m accept f g : fe_node f = fe_node g -> fuse_readdir m accept f = fuse_readdir m accept g.
Proof.
  intros E. unfold fuse_readdir, number_of_sub_entries. rewrite E.
  assert (EL : forall n i l, readdir_loop n m accept f i l = readdir_loop n m accept g i l).
  { induction n as [|n IH]; intros i l; cbn [readdir_loop]; [reflexivity|]. unfold sub_entry. rewrite E.
    destruct (rbind _ _); auto. }
  destruct (filldir accept DOT _ []); auto. destruct (filldir accept DOTS _ _); auto.
  destruct (match mt_tree m with Some t => _ | None => _ end); auto. rewrite EL. reflexivity.
Qed.

Lemma answers_stable rd0 m op s k s1 path h rs s2 :
  (exists flags, op = FuOpen path flags) \/ op = FuOpendir path ->
  fuse_step rd0 m op s = (RHandle k, s1) -> keeps_open k h -> fuse_run m h s1 = (rs, s2) ->
  exists f, fuse_entry m path = Done f /\
    (forall rd size offset,
       fst (fuse_step rd m (FuRead k size offset) s2) =
       match fst (fuse_read rd m f size offset) with
       | Done l => RBytes l | Fails n => RErrno n | Undefined => RUndef end) /\
    (forall rd accept,
       fst (fuse_step rd m (FuReaddir k accept) s2) =
       match fuse_readdir m accept f with
       | (Done _, l) => RListing l | (Fails n, l) => RPartial n l | (Undefined, _) => RUndef end).
Proof.
  intros Hop H1 Hk H2. destruct (open_step _ _ _ _ _ _ _ Hop H1) as (f & Ef & Ec & En). exists f. split; [exact Ef|].
  assert (H0 : is_open s1 k f) by (exists f; repeat split; auto; lia).
  destruct (run_keeps m k f h Hk s1 rs s2 H0 H2) as (g & Eg & Egn & _ & Hc).
  split.
  - intros rd size offset. cbn [fuse_step]. destruct (INT_MAX <? size) eqn:Em.
    + unfold fuse_read. rewrite Em. reflexivity.
    + rewrite Eg. rewrite (fuse_read_cursor_free m rd f g) by (auto; lia).
      destruct (fuse_read rd m g size offset) as [r g']. reflexivity.
  - intros rd accept. cbn [fuse_step]. rewrite Eg. cbn [fst]. rewrite (readdir_node m accept g f Egn). reflexivity.
Qed.
