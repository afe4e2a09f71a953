(** Lemmas on the lookup of items. *)
From Coq Require Import ZArith List Bool Lia ZifyBool ZifyNat Sorted.
From Verif Require Import Base Spec_Stream Spec_Load Spec_Tree Spec_Item L_Base M_Table M_Load M_Tree M_Item
  L_Load L_Load2 L_Tree L_Tree2 L_Tree3.
Import ListNotations.
Open Scope Z_scope.

(** * By index *)
Section Index.
  Variable u : una.
  Variable e : endian.
  Variable l : list dirent.
  Variable root : dirent.
  Variable tr : tree.
  Hypothesis HM : tree_made u e l root tr.

  Lemma sub_index k d : item_entry tr k d ->
    exists n, get_number_of_sub_items tr k = Ok n /\ 0 <= n /\
      (forall i, 0 <= i < n -> exists j s, get_sub_item tr k i = Ok j /\ item_sub tr k j /\ item_entry tr j s) /\
      (forall i, i < 0 \/ n <= i -> get_sub_item tr k i = Err) /\
      (forall j, item_sub tr k j -> exists i, 0 <= i < n /\ get_sub_item tr k i = Ok j) /\
      (forall i1 i2 j1 j2 s1 s2, i1 < i2 -> get_sub_item tr k i1 = Ok j1 -> get_sub_item tr k i2 = Ok j2 ->
         item_entry tr j1 s1 -> item_entry tr j2 s2 -> de_id s1 < de_id s2).
  Proof.
    intros (nd & Hn & Hd). destruct (made_sorted u e l root tr HM k nd Hn) as (ds & HF & HS).
    unfold get_number_of_sub_items, get_sub_item, sub_nodes. rewrite Hn. cbn [rbind].
    exists (zlen (n_subs nd)). split; auto. split; [apply zlen_nonneg|].
    assert (Hget : forall i j, match znth (n_subs nd) i with Some j => Ok j | None => Err end = Ok j -> znth (n_subs nd) i = Some j).
    { intros i j. destruct (znth (n_subs nd) i); congruence. }
    assert (Hnth : forall i j, znth (n_subs nd) i = Some j -> 0 <= i /\ nth_error (n_subs nd) (Z.to_nat i) = Some j).
    { intros i j H. unfold znth in H. destruct (i <? 0) eqn:E; [discriminate|]. split; [lia|auto]. }
    assert (HF2 : forall m j, nth_error (n_subs nd) m = Some j -> exists s, nth_error ds m = Some s /\ item_entry tr j s).
    { clear - HF. induction HF as [|j s js ss Hj _ IH]; intros [|m] j' H; try discriminate.
      - injection H as <-. exists s. split; auto.
      - apply IH. exact H. }
    split; [|split; [|split]].
    - intros i Hi. destruct (znth_some (n_subs nd) i Hi) as (j & Hj). rewrite Hj.
      destruct (Hnth _ _ Hj) as [_ Hj']. destruct (HF2 _ _ Hj') as (s & _ & Hs).
      exists j, s. split; auto. split; auto. exists nd. split; auto. eapply nth_error_In; eauto.
    - intros i Hi. destruct (znth (n_subs nd) i) as [j|] eqn:E; auto. apply znth_range in E. lia.
    - intros j (nd' & Hn' & Hj). assert (nd' = nd) by congruence. subst. apply In_nth_error in Hj as (m & Hm).
      exists (Z.of_nat m). assert (m < length (n_subs nd))%nat by (apply nth_error_Some; congruence).
      split; [unfold zlen; lia|]. unfold znth. destruct (Z.of_nat m <? 0) eqn:E; [lia|]. now rewrite Nat2Z.id, Hm.
    - intros i1 i2 j1 j2 s1 s2 Hi H1 H2 E1 E2. apply Hget in H1, H2.
      destruct (Hnth _ _ H1) as [P1 N1]. destruct (Hnth _ _ H2) as [P2 N2].
      destruct (HF2 _ _ N1) as (x1 & X1 & Y1). destruct (HF2 _ _ N2) as (x2 & X2 & Y2).
      assert (x1 = s1) by (destruct E1 as (? & ? & ?), Y1 as (? & ? & ?); congruence).
      assert (x2 = s2) by (destruct E2 as (? & ? & ?), Y2 as (? & ? & ?); congruence). subst x1 x2.
      assert (Hlt : (Z.to_nat i1 < Z.to_nat i2)%nat) by lia.
      revert X1 X2 Hlt HS. generalize (Z.to_nat i1) (Z.to_nat i2). clear.
      induction ds as [|d ds IH]; intros [|m1] [|m2] X1 X2 Hlt HS; try discriminate; try lia.
      + injection X1 as ->. inversion HS as [|? ? _ Hall]; subst.
        cbn in X2; exact (proj1 (Forall_forall _ _) Hall _ (nth_error_In _ _ X2)).
      + inversion HS; subst. apply (IH m1 m2); auto. lia.
  Qed.
End Index.

(** * By name *)
Lemma node_value_entry t k d : node_value t k = Ok d <-> item_entry t k d.
Proof.
  unfold node_value, item_entry. destruct (nth_error (tr_nodes t) k) as [n|].
  - split; [intros [= <-]; eauto|intros (? & [= <-] & <-); auto].
  - split; [discriminate|intros (? & ? & _); discriminate].
Qed.

Lemma sub_node_loop_cases t compare subs :
  (forall n, defined (compare n)) -> Forall (fun j => exists d, item_entry t j d) subs ->
  (sub_node_loop t compare subs = Ok None /\ Forall (name_differs compare t) subs) \/
  (exists pre j post, subs = pre ++ j :: post /\ Forall (name_differs compare t) pre /\
     ((name_equals compare t j /\ sub_node_loop t compare subs = Ok (Some j)) \/
      (name_fails compare t j /\ sub_node_loop t compare subs = Err))).
Proof.
  intros Hc. induction 1 as [|j subs (d & Hd) _ IH]; [left; split; [reflexivity|constructor]|].
  cbn [sub_node_loop]. rewrite (proj2 (node_value_entry t j d) Hd). cbn [rbind].
  pose proof (Hc (de_name d)) as Hdef.
  destruct (compare (de_name d)) as [b| | |] eqn:E; try (exfalso; exact Hdef); cbn [rbind].
  - destruct b.
    + right. exists [], j, subs. split; auto. split; [constructor|]. left. split; auto. exists d. auto.
    + assert (Hdf : name_differs compare t j) by (exists d; auto).
      destruct IH as [[H1 H2]|(pre & j' & post & H1 & H2 & H3)].
      * left. split; auto.
      * right. exists (j :: pre), j', post. split; [now subst|]. split; auto.
  - right. exists [], j, subs. split; auto. split; [constructor|]. right. split; auto. exists d. auto.
Qed.

(** * By path *)
Section Path.
  Variable char : list Z -> Z -> res (Z * Z).

  Lemma is_text_len n : is_text char n -> 0 <= zlen n.
  Proof. intros _. apply zlen_nonneg. Qed.

  Hypothesis Hsep : is_char char [92] 92.

  Lemma segment_text fuel : forall pre name post,
    is_text char name -> (length name < fuel)%nat ->
    (post = [] /\ path_segment fuel char (pre ++ name ++ post) (zlen pre) = Ok (zlen (pre ++ name), false)) \/
    (exists rest, post = 92 :: rest /\
       path_segment fuel char (pre ++ name ++ post) (zlen pre) = Ok (zlen (pre ++ name) + 1, true)) \/
    (exists x rest, post = x :: rest /\ x <> 92).
  Proof.
    intros pre name post Ht. revert fuel pre.
    induction Ht as [|units c rest (Hne & Hch) Hc1 Hc2 Ht IH]; intros fuel pre Hf.
    - rewrite app_nil_r. cbn [app]. destruct post as [|x rest].
      + left. split; auto. destruct fuel as [|fuel]; [cbn in Hf; lia|]. cbn [path_segment].
        rewrite app_nil_r. destruct (_ <? _) eqn:E; [lia|reflexivity].
      + destruct (Z.eq_dec x 92) as [->|Hx]; [|right; right; eauto].
        right; left. exists rest. split; auto. destruct fuel as [|fuel]; [cbn in Hf; lia|]. cbn [path_segment].
        destruct (_ <? _) eqn:E; [|rewrite zlen_app, zlen_cons in E; pose proof (zlen_nonneg rest); lia].
        destruct Hsep as [_ Hs]. specialize (Hs pre rest). cbn [app] in Hs. rewrite Hs. cbn [rbind].
        change (92 =? SEPARATOR) with true. cbn [orb]. change (zlen [92]) with 1. reflexivity.
    - assert (Hul : (1 <= length units)%nat) by (destruct units; [congruence|cbn; lia]).
      rewrite app_length in Hf.
      destruct fuel as [|fuel]; [lia|].
      specialize (IH fuel (pre ++ units) ltac:(lia)).
      rewrite <- !app_assoc in IH. 
      assert (Hstep : path_segment (S fuel) char (pre ++ (units ++ rest) ++ post) (zlen pre)
                    = path_segment fuel char (pre ++ units ++ rest ++ post) (zlen (pre ++ units))).
      { cbn [path_segment]. rewrite <- app_assoc.
        destruct (zlen pre <? zlen (pre ++ units ++ rest ++ post)) eqn:E.
        2: { rewrite !zlen_app in E. pose proof (zlen_nonneg rest). pose proof (zlen_nonneg post).
             assert (1 <= zlen units) by (unfold zlen; lia). lia. }
        rewrite Hch. cbn [rbind]. change SEPARATOR with 92.
        destruct ((c =? 92) || (c =? 0)) eqn:E2; [lia|]. now rewrite zlen_app. }
      rewrite Hstep. exact IH.
  Qed.

  Variable by_name : nat -> list Z -> res (option nat).

  Lemma zlen_small (s : list Z) : 0 <= zlen s. Proof. apply zlen_nonneg. Qed.

  Lemma path_loop_names names : forall fuel pre k trailing,
    Forall (is_name char) names -> names <> [] -> (length names < fuel)%nat ->
    (trailing = [] \/ trailing = [92]) ->
    zlen (pre ++ join names ++ trailing) < 18446744073709551616 ->
    path_loop fuel char by_name (pre ++ join names ++ trailing) (zlen pre) k = lookup_names by_name k names.
  Proof.
    induction names as [|n names IH]; intros fuel pre k trailing HF Hne Hfu Htr Hsz; [congruence|].
    destruct fuel as [|fuel]; [lia|].
    inversion HF as [|x y [Ht Hn0] HF']; subst.
    assert (Hn1 : 1 <= zlen n) by (destruct n; [congruence|rewrite zlen_cons; pose proof (zlen_nonneg n); lia]).
    set (post := match names with [] => trailing | _ => 92 :: join names ++ trailing end).
    assert (Hs : pre ++ join (n :: names) ++ trailing = pre ++ n ++ post).
    { unfold post. destruct names as [|n2 names]; cbn [join]; [reflexivity|]. now rewrite <- app_assoc. }
    rewrite Hs in *. cbn [path_loop].
    pose proof (zlen_nonneg pre) as Hp0. pose proof (zlen_nonneg post) as Hq0.
    rewrite !zlen_app in Hsz.
    destruct (zlen pre <? zlen (pre ++ n ++ post)) eqn:E; [|rewrite !zlen_app in E; lia].
    assert (Hfuel : (length n < length (pre ++ n ++ post) + 1)%nat) by (rewrite !app_length; lia).
    assert (Hslice : slice (pre ++ n ++ post) (zlen pre) (zlen n) = n).
    { replace (zlen pre) with (zlen pre + 0) by lia. rewrite slice_app_r by lia.
      unfold slice. cbn [Z.to_nat skipn].
      replace (Z.to_nat (zlen n)) with (length n) by (unfold zlen; lia).
      rewrite firstn_app, Nat.sub_diag, firstn_all. cbn [firstn]. apply app_nil_r. }
    destruct (segment_text (length (pre ++ n ++ post) + 1) pre n post Ht Hfuel)
      as [[Hpost Hseg]|[(rest & Hpost & Hseg)|(x & rest & Hpost & Hx)]].
    - rewrite Hseg. cbn [rbind]. rewrite zlen_app.
      replace (zlen pre + zlen n - (zlen pre + 0)) with (zlen n) by lia.
      unfold u64. rewrite Z.mod_small by lia. destruct (zlen n =? 0) eqn:E0; [lia|]. rewrite Hslice.
      assert (names = []) as -> by (unfold post in Hpost; destruct names; [reflexivity|discriminate]).
      cbn [lookup_names]. destruct (by_name k n) as [[k'|]| | |]; cbn [rbind]; auto.
      destruct fuel as [|fuel]; [cbn in Hfu; lia|]. cbn [path_loop]. rewrite Hpost, app_nil_r, ?zlen_app.
      rewrite Z.ltb_irrefl. reflexivity.
    - rewrite Hseg. cbn [rbind]. rewrite zlen_app.
      replace (zlen pre + zlen n + 1 - (zlen pre + 1)) with (zlen n) by lia.
      unfold u64. rewrite Z.mod_small by lia. destruct (zlen n =? 0) eqn:E0; [lia|]. rewrite Hslice.
      cbn [lookup_names]. destruct (by_name k n) as [[k'|]| | |]; cbn [rbind]; auto.
      assert (Hz : zlen pre + zlen n + 1 = zlen (pre ++ n ++ [92])).
      { rewrite !zlen_app. change (zlen [92]) with 1. lia. }
      rewrite Hz.
      destruct names as [|n2 names].
      + unfold post in Hpost. assert (rest = []) as -> by (destruct Htr as [->| ->]; congruence).
        subst post. rewrite Hpost. destruct fuel as [|fuel]; [cbn in Hfu; lia|]. cbn [path_loop lookup_names].
        rewrite Z.ltb_irrefl. reflexivity.
      + assert (Hr : rest = join (n2 :: names) ++ trailing) by (unfold post in Hpost; congruence).
        assert (He : pre ++ n ++ post = (pre ++ n ++ [92]) ++ join (n2 :: names) ++ trailing).
        { rewrite Hpost, Hr. rewrite <- !app_assoc. reflexivity. }
        rewrite He. apply IH; auto; [discriminate|cbn in *; lia|].
        rewrite <- He, !zlen_app. lia.
    - exfalso. unfold post in Hpost. destruct names; [destruct Htr as [->| ->]|]; congruence.
  Qed.

  Lemma path_names names leading trailing k :
    Forall (is_name char) names -> names <> [] -> (leading = [] \/ leading = [92]) -> (trailing = [] \/ trailing = [92]) ->
    2 <= zlen (leading ++ join names ++ trailing) < 18446744073709551616 ->
    hd 0 (join names) <> 92 ->
    sub_item_by_path char by_name (leading ++ join names ++ trailing) k = lookup_names by_name k names.
  Proof.
    intros HF Hne Hl Ht Hsz Hhd. unfold sub_item_by_path.
    set (s := leading ++ join names ++ trailing) in *.
    destruct ((zlen s =? 0) || (zlen s =? 1)) eqn:E; [lia|].
    assert (Hidx : (match znth s 0 with Some c => if c =? SEPARATOR then 1 else 0 | None => 0 end) = zlen leading).
    { change SEPARATOR with 92. destruct Hl as [->| ->].
      - assert (Hj : join names <> []).
        { inversion HF as [|n ns [_ H1] _]; subst; [congruence|]. destruct n; [congruence|]. destruct ns; discriminate. }
        unfold s. cbn [app]. destruct (join names) as [|c r]; [congruence|]. cbn in Hhd |- *.
        destruct (c =? 92) eqn:E1; [lia|reflexivity].
      - reflexivity. }
    rewrite Hidx. apply path_loop_names; auto.
    - assert (Hlen : forall ns, Forall (is_name char) ns -> (length ns <= length (join ns))%nat).
      { clear. induction 1 as [|n ns [_ Hn] _ IH]; [cbn; lia|].
        assert (1 <= length n)%nat by (destruct n; [congruence|cbn; lia]).
        destruct ns as [|n2 ns]; [cbn; lia|]. change (join (n :: n2 :: ns)) with (n ++ 92 :: join (n2 :: ns)). rewrite app_length. cbn [length] in IH |- *. lia. }
      specialize (Hlen names HF). unfold s. rewrite !app_length. lia.
    - unfold s in Hsz. lia.
  Qed.

  Lemma path_empty_segment pre k fuel trailing : path_loop (S fuel) char by_name (pre ++ 92 :: trailing) (zlen pre) k = Ok None.
  Proof.
    cbn [path_loop]. pose proof (zlen_nonneg trailing).
    destruct (_ <? _) eqn:E; [|rewrite zlen_app, zlen_cons in E; lia].
    destruct (segment_text (length (pre ++ 92 :: trailing) + 1) pre [] (92 :: trailing) (it_nil char))
      as [[Hpost _]|[(rest & Hpost & Hseg)|(x & rest & Hpost & Hx)]]; [cbn; lia|discriminate| |congruence].
    cbn [app] in Hseg. rewrite app_nil_r in Hseg. rewrite Hseg. cbn [rbind].
    replace (zlen pre + 1 - (zlen pre + 1)) with 0 by lia. reflexivity.
  Qed.
End Path.

Lemma one_char_path char by_name c k : sub_item_by_path char by_name [c] k = Ok (Some k).
Proof. reflexivity. Qed.

Lemma path_segment_defined char s : char_ok char -> forall fuel i,
  0 <= i <= zlen s -> zlen s - i < Z.of_nat fuel ->
  path_segment fuel char s i = Err \/
  exists i' b, path_segment fuel char s i = Ok (i', b) /\ i <= i' <= zlen s /\ (i < zlen s -> i < i').
Proof.
  intros Hc. induction fuel as [|fuel IH]; intros i Hi Hf; [lia|]. cbn [path_segment].
  destruct (i <? zlen s) eqn:E; [|right; exists i, false; repeat split; lia].
  destruct (Hc s i ltac:(lia)) as [->|(c & i' & -> & Hi')]; cbn [rbind]; [now left|].
  destruct (_ || _); [right; exists i', true; repeat split; lia|].
  destruct (IH i' ltac:(lia) ltac:(lia)) as [H|(i2 & b & H & H2 & _)]; [now left|].
  right. exists i2, b. split; auto. lia.
Qed.

Lemma path_loop_defined (valid : nat -> Prop) char by_name s : char_ok char ->
  (forall k n, valid k -> defined (by_name k n) /\ forall j, by_name k n = Ok (Some j) -> valid j) ->
  forall fuel i k, valid k -> 0 <= i <= zlen s -> zlen s - i < Z.of_nat fuel ->
    defined (path_loop fuel char by_name s i k) /\
    forall j, path_loop fuel char by_name s i k = Ok (Some j) -> valid j.
Proof.
  intros Hc Hb. induction fuel as [|fuel IH]; intros i k Hk Hi Hf; [lia|]. cbn [path_loop].
  destruct (i <? zlen s) eqn:E; [|split; [exact I|intros j [= <-]; auto]].
  destruct (path_segment_defined char s Hc (length s + 1) i Hi) as [->|(i' & b & -> & H1 & H2)];
    cbn [rbind]; [unfold zlen in *; lia|split; [exact I|discriminate]|].
  cbn zeta. destruct (_ =? 0); [split; [exact I|discriminate]|].
  destruct (Hb k (slice s i (u64 (i' - (i + (if b then 1 else 0))))) Hk) as [Hd Hv].
  destruct (by_name k _) as [[k'|]| | |]; cbn [rbind]; try (split; [exact Hd|discriminate]).
  apply IH; [|lia|lia]. now apply Hv.
Qed.

Lemma sub_item_by_path_defined (valid : nat -> Prop) char by_name s k : char_ok char ->
  (forall k n, valid k -> defined (by_name k n) /\ forall j, by_name k n = Ok (Some j) -> valid j) ->
  valid k ->
  defined (sub_item_by_path char by_name s k) /\
  forall j, sub_item_by_path char by_name s k = Ok (Some j) -> valid j.
Proof.
  intros Hc Hb Hk. unfold sub_item_by_path.
  destruct (_ || _) eqn:E; [split; [exact I|intros j [= <-]; auto]|].
  pose proof (zlen_nonneg s). apply (path_loop_defined valid); auto;
    destruct (znth s 0) as [c|]; try destruct (c =? SEPARATOR); unfold zlen in *; lia.
Qed.

(** The first unit of a name is not the separator. *)
Lemma is_name_head char name : is_char char [92] 92 -> is_name char name -> hd 0 name <> 92.
Proof.
  intros [_ Hs] [Ht Hne]. destruct Ht as [|units c rest [Hu Hc] H92 H0 _]; [congruence|].
  destruct units as [|x units]; [congruence|]. cbn. intros ->.
  specialize (Hs [] (units ++ rest)). specialize (Hc [] rest). cbn in Hs, Hc. rewrite Hs in Hc. congruence.
Qed.

Lemma join_head names : names <> [] -> Forall (fun n => n <> []) names -> hd 0 (join names) = hd 0 (hd [] names).
Proof.
  intros Hne HF. destruct names as [|n names]; [congruence|]. inversion HF as [|? ? Hn _]; subst.
  destruct names; [reflexivity|]. change (join (n :: l :: names)) with (n ++ 92 :: join (l :: names)).
  destruct n; [congruence|reflexivity].
Qed.

Lemma path_names_all char : is_char char [92] 92 ->
  forall by_name names leading trailing k,
    Forall (is_name char) names -> names <> [] ->
    leading = [] \/ leading = [92] -> trailing = [] \/ trailing = [92] ->
    2 <= zlen (leading ++ join names ++ trailing) < 18446744073709551616 ->
    sub_item_by_path char by_name (leading ++ join names ++ trailing) k = lookup_names by_name k names.
Proof.
  intros Hs by_name names leading trailing k HF Hne Hl Ht Hlen. apply path_names; auto.
  rewrite join_head; auto.
  - destruct names as [|n names]; [congruence|]. inversion HF; subst. eapply is_name_head; eauto.
  - eapply Forall_impl; [|exact HF]. intros a [_ H]; exact H.
Qed.
