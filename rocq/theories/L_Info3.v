(** Lemmas on what olecfinfo prints: the listing of the items. *)
From Coq Require Import String ZArith List Bool Lia Arith Permutation.
From Verif Require Import Base Spec_IO M_Table M_Header M_Load M_Stream M_Tree M_Open M_Item M_Mount M_File
  M_Prop M_PyProp M_Info Spec_Stream Spec_Content Spec_Tree Spec_Prop Spec_PyProp Spec_Info Spec_Export
  L_Base L_Tree L_Tree2 L_Tree3 L_Open L_Open2 L_Session L_Export3 L_Info L_Info2.
From Verif Require L_Free.
Import ListNotations.
Open Scope Z_scope.

Scheme listed_mut := Induction for listed Sort Prop
  with listed_all_mut := Induction for listed_all Sort Prop.
Scheme pictured_mut := Induction for pictured Sort Prop
  with pictured_all_mut := Induction for pictured_all Sort Prop.

(** * Numbers *)
Lemma read_digits_app l n c : read_digits l = Some n -> 48 <= c <= 57 ->
  read_digits (l ++ [c]) = Some (10 * n + (c - 48)).
Proof.
  intros H Hc. unfold read_digits in *. rewrite fold_left_app, H. cbn [fold_left].
  rewrite (proj2 (Z.leb_le 48 c)), (proj2 (Z.leb_le c 57)) by lia. reflexivity.
Qed.

Lemma digits_read fuel : forall n, 0 <= n < 10 ^ Z.of_nat fuel -> (0 < fuel)%nat ->
  digits fuel n <> [] /\ Forall (fun c => 48 <= c <= 57) (digits fuel n) /\
  read_digits (digits fuel n) = Some n.
Proof.
  induction fuel as [|fuel IH]; intros n Hn Hf; [lia|].
  cbn [digits]. pose proof (Z.mod_pos_bound n 10 ltac:(lia)) as Hm.
  destruct (Z.ltb_spec n 10) as [L|L].
  - cbn [app]. split; [discriminate|]. split; [constructor; [lia|constructor]|].
    rewrite Z.mod_small by lia. unfold read_digits. cbn [fold_left].
    rewrite (proj2 (Z.leb_le 48 _)), (proj2 (Z.leb_le (48 + n) 57)) by lia. cbn [andb]. f_equal. lia.
  - destruct fuel as [|fuel]; [cbn in Hn; lia|].
    assert (Hd : 0 <= n / 10 < 10 ^ Z.of_nat (S fuel)).
    { split; [apply Z.div_pos; lia|]. apply Z.div_lt_upper_bound; [lia|].
      rewrite (Nat2Z.inj_succ (S fuel)), Z.pow_succ_r in Hn by lia. lia. }
    destruct (IH (n / 10) Hd ltac:(lia)) as (H1 & H2 & H3).
    split; [destruct (digits (S fuel) (n / 10)); discriminate|].
    split; [apply Forall_app; split; [exact H2|constructor; [lia|constructor]]|].
    rewrite (read_digits_app _ _ _ H3) by lia. f_equal. pose proof (Z.div_mod n 10). lia.
Qed.

Lemma integer_reads z : - 10 ^ 20 < z < 10 ^ 20 -> reads (integer z) z.
Proof.
  intros Hz. unfold integer. destruct (Z.ltb_spec z 0) as [L|L].
  - destruct (digits_read 20 (- z)) as (H1 & _ & H3); [change (Z.of_nat 20) with 20; lia|lia|].
    cbn [reads]. auto.
  - destruct (digits_read 20 z) as (H1 & H2 & H3); [change (Z.of_nat 20) with 20; lia|lia|].
    destruct (digits 20 z) as [|c l]; [congruence|]. inversion H2 as [|? ? Hc _]; subst.
    unfold reads. cbv beta iota.
    assert (c = 45 -> False) by lia.
    destruct c as [|c|c]; try exact H3. 
    repeat (destruct c as [c|c|]; try exact H3). lia.
Qed.

Lemma reads_fun l z z' : reads l z -> reads l z' -> z = z'.
Proof.
  unfold reads. destruct l as [|c l]; [tauto|].
  assert (H : forall l, read_digits l = Some z -> read_digits l = Some z' -> z = z') by (intros; congruence).
  assert (H' : forall l, read_digits l = Some (- z) -> read_digits l = Some (- z') -> z = z').
  { intros l' A B. assert (- z = - z') by congruence. lia. }
  destruct c as [|c|c]; try apply H.
  repeat (destruct c as [c|c|]; try apply H). intros [_ A] [_ B]. eauto.
Qed.

(** * Names *)
Lemma control_shown lib c : is_byte c ->
  (if is_control lib c then str "\x" ++ print_hex 2 c else [c]) = shown_char (il_signed lib) c.
Proof.
  intros Hc. unfold is_byte in Hc. unfold is_control, shown_char.
  replace (((if il_signed lib then if c <? 128 then c else c - 256 else c) <? 32)
           || ((if il_signed lib then if c <? 128 then c else c - 256 else c) =? 127))
    with ((c <? 32) || (c =? 127) || il_signed lib && (127 <? c)).
  - rewrite hex2 by exact Hc. reflexivity.
  - destruct (il_signed lib); [|now rewrite orb_false_r]. cbn [andb].
    destruct (Z.ltb_spec c 128), (Z.ltb_spec 127 c); lia.
Qed.

Lemma name_prints lib s rest : Forall is_byte s -> forall fuel i,
  (i <= length s)%nat -> (length s - i < fuel)%nat ->
  prints (name_loop lib fuel (s ++ 0 :: rest) (Z.of_nat i) (zlen s))
    [Some (shown_name (il_signed lib) (skipn i s))].
Proof.
  intros HB. induction fuel as [|fuel IH]; intros i Hi Hf; [lia|].
  cbn [name_loop]. destruct (Z.ltb_spec (Z.of_nat i) (zlen s)) as [L|L].
  - unfold zlen in L. destruct (nth_error s i) as [c|] eqn:Ec.
    2:{ apply nth_error_None in Ec. lia. }
    eapply prints_lift.
    { unfold arr_get. rewrite (znth_of_nat _ i c); [reflexivity|].
      rewrite nth_error_app1 by (apply nth_error_Some; congruence). exact Ec. }
    cbv beta.
    assert (Hc : is_byte c) by (rewrite Forall_forall in HB; apply HB; eapply nth_error_In; eauto).
    assert (Es : skipn i s = c :: skipn (S i) s).
    { clear - Ec. revert s Ec. induction i as [|i IH]; intros [|x s] Ec; try discriminate.
      - cbn in Ec. injection Ec as <-. reflexivity.
      - cbn [nth_error] in Ec. cbn [skipn]. rewrite (IH s Ec). reflexivity. }
    rewrite Es. unfold shown_name. cbn [map concat]. fold (shown_name (il_signed lib) (skipn (S i) s)).
    apply (prints_same _ ([Some (shown_char (il_signed lib) c)] ++
                          [Some (shown_name (il_signed lib) (skipn (S i) s))])).
    + cbn. now rewrite !app_nil_r.
    + apply prints_bind.
      * rewrite <- control_shown by exact Hc. destruct (is_control lib c); apply prints_print.
      * replace (Z.of_nat i + 1) with (Z.of_nat (S i)) by lia. apply IH; lia.
  - unfold zlen in L. assert (i = length s) by lia. subst i. rewrite skipn_all.
    apply (prints_same _ []); [reflexivity|apply prints_ret].
Qed.

Lemma indent_spaces level : indent level = repeat 32 (2 * level).
Proof.
  unfold indent. induction level as [|n IH]; [reflexivity|]. cbn [repeat concat]. rewrite IH.
  replace (2 * S n)%nat with (S (S (2 * n))) by lia. reflexivity.
Qed.

(** * The listing *)
Section Listing.
Variables (lib : infolib) (text : list Z -> fv_encoding -> option (list Z))
  (empty : fv_type -> option (list Z)) (names : list Z -> endian -> option (list Z))
  (date : Z -> option (list Z)).
Hypothesis HL : infolib_ok lib text empty names date.
Variables (e : endian) (t : tree).
Hypothesis HT : tree_shape t.

Let piece := item_piece (il_signed lib) names e t.

Lemma item_prints : forall fuel k level, (k < length (tr_nodes t))%nat ->
  (length (tr_nodes t) - k <= fuel)%nat ->
  exists L, listed t level k L /\ prints (item_fprint lib fuel e t k level) (map piece L).
Proof.
  induction fuel as [|fuel IH]; intros k level Hk Hf; [lia|].
  destruct (nth_error (tr_nodes t) k) as [n|] eqn:En; [|apply nth_error_None in En; lia].
  assert (Hsub : forall pre subs, n_subs n = pre ++ subs ->
    exists L, listed_all t (S level) subs L /\
      prints (sub_items_fprint k t (fun j => item_fprint lib fuel e t j (S level)) (length subs) (zlen pre))
        (map piece L)).
  { intros pre subs. revert pre. induction subs as [|j subs IHs]; intros pre Es.
    - exists []. split; [constructor|apply prints_ret].
    - assert (Hj : item_sub t k j) by (exists n; rewrite Es; split; [exact En|apply in_or_app; right; left; reflexivity]).
      pose proof (ts_later _ HT _ _ Hj) as Hlt.
      destruct (IH j (S level)) as (L1 & H1 & P1); [lia|lia|].
      destruct (IHs (pre ++ [j])) as (L2 & H2 & P2); [now rewrite <- app_assoc|].
      exists (L1 ++ L2). split; [constructor; assumption|]. cbn [length sub_items_fprint].
      eapply prints_lift.
      { unfold get_sub_item, sub_nodes. rewrite En. cbn [rbind]. rewrite Es.
        unfold zlen. rewrite (znth_of_nat _ (length pre) j); [reflexivity|].
        rewrite nth_error_app2, Nat.sub_diag by lia. reflexivity. }
      cbv beta. rewrite map_app. apply prints_bind; [exact P1|].
      rewrite zlen_app in P2. exact P2. }
  destruct (Hsub [] (n_subs n) eq_refl) as (L & HLs & HP).
  exists ((level, k) :: L). split; [econstructor; eauto|].
  cbn [item_fprint map]. eapply prints_lift.
  { unfold node_value. rewrite En. reflexivity. }
  cbv beta. pose proof (ik_name _ _ _ _ _ HL (de_name (n_entry n)) e) as HN.
  unfold piece at 1. unfold item_piece. cbn [snd fst]. rewrite En.
  destruct (names (de_name (n_entry n)) e) as [s|]; cbn [option_map].
  - destruct HN as (Hs & HBs & Hz & rest & Hc).
    eapply prints_lift; [rewrite Hz; reflexivity|]. cbv beta.
    eapply prints_lift; [rewrite Hc; reflexivity|]. cbv beta.
    replace (u64 (zlen s + 1 - 1)) with (zlen s).
    2:{ assert (0 <= zlen s) by (unfold zlen; lia). unfold u64. unfold SSIZE_MAX in Hs.
        rewrite Z.mod_small by lia. lia. }
    apply (prints_same _ ([Some (indent level)] ++ ([Some (shown_name (il_signed lib) (skipn 0 s))] ++
      ([Some (str " (" ++ integer (de_size (n_entry n)) ++ str " bytes)" ++ [NL])] ++ map piece L)))).
    + unfold item_line. rewrite indent_spaces, !str_text. cbn [app printed fst snd skipn]. f_equal.
      flat. reflexivity.
    + apply prints_bind; [apply prints_print|]. apply prints_bind.
      * apply (name_prints lib s rest HBs _ 0%nat); [lia|]. rewrite app_length. cbn. lia.
      * apply prints_bind; [apply prints_print|]. eapply prints_lift.
        { unfold get_number_of_sub_items, sub_nodes. rewrite En. reflexivity. }
        cbv beta. unfold zlen. rewrite Nat2Z.id. exact HP.
  - apply (prints_same _ [None]); [reflexivity|]. destruct HN as [Hz|(m & Hz & Hc)].
    + apply prints_lift_err. now rewrite Hz.
    + eapply prints_lift; [rewrite Hz; reflexivity|]. cbv beta. apply prints_lift_err. now rewrite Hc.
Qed.

End Listing.

(** ** Each item once *)
Section Once.
Variable t : tree.
Hypothesis HT : tree_shape t.

Inductive below : nat -> nat -> Prop :=
| below_same k : below k k
| below_step k j m : below k j -> item_sub t j m -> below k m.

Lemma below_le k j : below k j -> (k <= j)%nat.
Proof.
  induction 1 as [|k j m _ IH Hs]; [lia|]. pose proof (ts_later _ HT _ _ Hs). lia.
Qed.

Lemma below_first k c j : item_sub t k c -> below c j -> below k j.
Proof.
  intros Hs Hb. induction Hb; [eapply below_step; [apply below_same|exact Hs]|].
  eapply below_step; eauto.
Qed.

Lemma below_cases k j : below k j -> k = j \/ exists c, item_sub t k c /\ below c j.
Proof.
  induction 1 as [|k j m Hb IH Hs]; [now left|]. right. destruct IH as [->|(c & Hc & Hcb)].
  - exists m. split; [exact Hs|apply below_same].
  - exists c. split; [exact Hc|eapply below_step; eauto].
Qed.

Lemma below_chain a b j : below a j -> below b j -> below a b \/ below b a.
Proof.
  intros Ha. revert b. induction Ha as [a|a j m Ha IH Hs]; intros b Hb.
  - now right.
  - inversion Hb as [|? j' ? Hb' Hs']; subst.
    + left. eapply below_step; eauto.
    + rewrite (ts_one _ HT _ _ _ Hs' Hs) in Hb'. auto.
Qed.

Lemma below_apart k a b j : item_sub t k a -> item_sub t k b -> below a j -> below b j -> a = b.
Proof.
  assert (G : forall a b, item_sub t k a -> item_sub t k b -> below a b -> a = b).
  { intros x y Hx Hy Hb. inversion Hb as [|? j' ? Hb' Hs']; subst; [reflexivity|].
    rewrite (ts_one _ HT _ _ _ Hs' Hy) in Hb'. pose proof (below_le _ _ Hb').
    pose proof (ts_later _ HT _ _ Hx). lia. }
  intros H1 H2 H3 H4. destruct (below_chain a b j H3 H4) as [H|H]; [eauto|symmetry; eauto].
Qed.

Lemma listed_below : forall level k L, listed t level k L ->
  forall j, In j (map snd L) <-> below k j.
Proof.
  intros level k L H.
  induction H as [level k n l Hn Hl IH|level|level k ks l ls H1 IH1 H2 IH2]
    using listed_mut with (P0 := fun level ks L _ =>
      forall j, In j (map snd L) <-> exists k, In k ks /\ below k j).
  - intros j. cbn [map snd In]. rewrite IH. split.
    + intros [->|(c & Hc & Hb)]; [apply below_same|].
      apply (below_first k c j); [exists n; auto|exact Hb].
    + intros Hb. apply below_cases in Hb as [->|(c & (n' & Hn' & Hc) & Hb)]; [now left|].
      right. exists c. assert (n' = n) by congruence. subst n'. auto.
  - intros j. cbn. split; [tauto|]. intros (k & [] & _).
  - intros j. rewrite map_app, in_app_iff, IH1, IH2. split.
    + intros [Hb|(c & Hc & Hb)]; [exists k|exists c]; cbn; auto.
    + intros (c & [->|Hc] & Hb); [now left|]. right. eauto.
Qed.

Lemma listed_nodup : forall level k L, listed t level k L -> NoDup (map snd L).
Proof.
  intros level k L H.
  induction H as [level k n l Hn Hl IH|level|level k ks l ls H1 IH1 H2 IH2]
    using listed_mut with (P0 := fun level ks L (_ : listed_all t level ks L) =>
      forall p, (forall k, In k ks -> item_sub t p k) -> NoDup ks ->
        NoDup (map snd L) /\ forall j, In j (map snd L) -> exists k, In k ks /\ below k j).
  - destruct (IH k) as (HN & Hb).
    + intros c Hc. exists n. auto.
    + eapply ts_nodup; eauto.
    + cbn [map snd]. constructor; [|exact HN]. intros Hin. destruct (Hb _ Hin) as (c & Hc & Hcb).
      pose proof (below_le _ _ Hcb). assert (Hs : item_sub t k c) by (exists n; auto).
      pose proof (ts_later _ HT _ _ Hs). lia.
  - intros p _ _. split; [constructor|]. intros j [].
  - intros p Hp HN. inversion HN as [|? ? Hk HN']; subst.
    destruct (IH2 p) as (N2 & B2); [intros; apply Hp; now right|exact HN'|].
    rewrite map_app. split.
    + apply L_Free.NoDup_app_intro; [exact IH1|exact N2|]. intros j Hj1 Hj2.
      apply (listed_below _ _ _ H1) in Hj1. destruct (B2 _ Hj2) as (c & Hc & Hcb).
      assert (k = c).
      { apply (below_apart p k c j); auto; apply Hp; [now left|now right]. }
      subst c. auto.
    + intros j. rewrite in_app_iff. intros [Hj|Hj].
      * exists k. split; [now left|]. now apply (listed_below _ _ _ H1).
      * destruct (B2 _ Hj) as (c & Hc & Hcb). exists c. split; [now right|exact Hcb].
Qed.
End Once.

Lemma listed_unique t : forall level k L, listed t level k L -> forall L', listed t level k L' -> L = L'.
Proof.
  intros level k L H.
  induction H as [level k n l Hn Hl IH|level|level k ks l ls H1 IH1 H2 IH2]
    using listed_mut with (P0 := fun level ks L (_ : listed_all t level ks L) =>
      forall L', listed_all t level ks L' -> L = L').
  - intros L' H'. inversion H' as [? ? n' l' Hn' Hl']; subst. assert (n' = n) by congruence. subst n'.
    now rewrite (IH _ Hl').
  - intros L' H'. inversion H'. reflexivity.
  - intros L' H'. inversion H'; subst. f_equal; auto.
Qed.

(** All items of the tree of a file are below the root. *)
Lemma opened_below u rd o t tr : una_ok u -> io_bytes rd -> open_read u rd [] = (Ok o, t) ->
  o_tree o = Some tr -> forall j, (j < length (tr_nodes tr))%nat -> below tr 0 j.
Proof.
  intros Hu HB HO Ht. destruct (opened_made u rd Hu HB o t HO tr Ht) as (root & HM).
  pose proof (made_wf u _ _ root tr HM) as W.
  induction j as [j IH] using (well_founded_induction lt_wf). intros Hj.
  destruct j as [|j]; [apply below_same|].
  destruct (nth_error (vw (final tr)) (S j)) as [[d q]|] eqn:En.
  2:{ apply nth_error_None in En. rewrite vw_length in En.
      change (tr_nodes tr) with (t_nodes (final tr)) in Hj. lia. }
  destruct (wf_parent _ _ W _ _ _ (Nat.lt_0_succ j) En) as (p & -> & Hp).
  apply below_step with p; [apply IH; lia|].
  destruct (nth_error (tr_nodes tr) p) as [n|] eqn:Ep; [|apply nth_error_None in Ep; lia].
  eapply sub_vw; eauto. exists (n_entry n), n. auto.
Qed.

Lemma opened_listed u rd o t tr level L : una_ok u -> io_bytes rd -> open_read u rd [] = (Ok o, t) ->
  o_tree o = Some tr -> listed tr level 0 L ->
  Permutation (map snd L) (seq 0 (length (tr_nodes tr))).
Proof.
  intros Hu HB HO Ht HL. pose proof (opened_shape u rd o t tr Hu HB HO Ht) as HS.
  apply NoDup_Permutation.
  - exact (listed_nodup tr HS level 0%nat L HL).
  - apply seq_NoDup.
  - intros j. rewrite (listed_below tr _ _ _ HL), in_seq. split.
    + intros Hb. split; [lia|]. cbn. apply below_cases in Hb as [<-|(c & Hc & Hb)].
      * inversion HL as [? ? n l Hn]; subst. apply nth_error_Some. congruence.
      * inversion Hb as [|? m ? Hb' Hs]; subst; eapply ts_later; eauto.
    + intros [_ Hj]. cbn in Hj. eapply opened_below; eauto.
Qed.
