(** Properties of the item tree of an opened file and of lookups in it:
    C22-C24, C26-C30. *)
From Coq Require Import ZArith List Bool Lia ZifyBool Sorted Relations.
From Verif Require Import Base Spec_IO Spec_Stream Spec_Load Spec_Open Spec_Tree Spec_Item L_Base M_Table M_Header M_Load
  M_Stream M_Tree M_Open M_Item L_Tree L_Tree2 L_Tree3 L_Tree4 L_Open L_Open2 L_Exact L_Item L_Session L_Depth X_File.
Import ListNotations.
Open Scope Z_scope.

(** C22 *)
Theorem C22_entries_once :
  forall u rd o t tr, una_ok u -> io_bytes rd -> open_read u rd [] = (Ok o, t) -> o_tree o = Some tr ->
    NoDup (map de_id (tree_entries tr)) /\ NoDup (tree_entries tr) /\ incl (tree_entries tr) (o_entries o).
Proof.
  intros u rd o t tr Hu HB HO Ht. destruct (opened_made u rd Hu HB o t HO tr Ht) as (root & HM).
  destruct (opened_entries u rd Hu HB o t HO) as (He & _).
  pose proof (made_nodup u _ _ He root tr HM) as Hn. split; auto. split; [eapply NoDup_map_inv; eauto|].
  eapply made_incl; eauto.
Qed.
Print Assumptions C22_entries_once.

Example C22_case : exists o t tr, xf_open Big = (Ok o, t) /\ o_tree o = Some tr /\
  map de_id (tree_entries tr) = [0; 2; 1; 4; 5].
Proof. eexists. eexists. eexists. split; [vm_compute; reflexivity|]. split; vm_compute; reflexivity. Qed.

(** C23 *)
Theorem C23_sub_items :
  forall u rd o t tr root, una_ok u -> io_bytes rd -> open_read u rd [] = (Ok o, t) -> o_tree o = Some tr ->
    first_root (o_entries o) root -> de_id root = 0 ->
    item_entry tr 0 root /\
    (forall d, In d (tree_entries tr) <-> below (o_entries o) root d) /\
    (forall k d s, item_entry tr k d ->
       ((exists j, item_sub tr k j /\ item_entry tr j s) <-> sub_item (o_entries o) d s)).
Proof.
  intros u rd o t tr root Hu HB HO Ht Hr H0. destruct (opened_made u rd Hu HB o t HO tr Ht) as (root' & HM).
  assert (root' = root) by (eapply opened_root_unique; eauto). subst root'.
  split; [eapply made_root; eauto|]. split; [intros d; eapply made_below; eauto|].
  intros k d s Hk. eapply made_subs; eauto.
Qed.
Print Assumptions C23_sub_items.

(** The root of the tree is the first entry of type 5. *)
Theorem C23_root :
  forall u rd o t tr, una_ok u -> io_bytes rd -> open_read u rd [] = (Ok o, t) -> o_tree o = Some tr ->
    exists root, first_root (o_entries o) root /\ item_entry tr 0 root.
Proof.
  intros u rd o t tr Hu HB HO Ht. destruct (opened_root u rd Hu HB o t HO tr Ht) as (root & H1 & H2 & _). eauto.
Qed.
Print Assumptions C23_root.

(** If the root is not in slot 0 the tree has no other item. *)
Theorem C23_root_elsewhere :
  forall u rd o t tr root, una_ok u -> io_bytes rd -> open_read u rd [] = (Ok o, t) -> o_tree o = Some tr ->
    first_root (o_entries o) root -> de_id root <> 0 -> tree_entries tr = [root].
Proof.
  intros u rd o t tr root Hu HB HO Ht Hr H0. destruct (opened_made u rd Hu HB o t HO tr Ht) as (root' & HM).
  assert (root' = root) by (eapply opened_root_unique; eauto). subst root'. eapply made_other; eauto.
Qed.
Print Assumptions C23_root_elsewhere.

(** A file with other slots. *)
Definition slots_file (slots : list (list Z)) : list Z := xf_file_of Little xf_sat (concat slots).
Definition slots_open (slots : list (list Z)) := open_read xf_una (file_reader (slots_file slots)) [].
Definition slot_root := xf_slot Little [82] 5 FREE FREE 2 3 192.

Example C23_case :
  exists o t tr, xf_open Little = (Ok o, t) /\ o_tree o = Some tr /\
    (exists d s, item_entry tr 0 d /\ first_root (o_entries o) d /\ de_id d = 0 /\
       sub_item (o_entries o) d s /\ de_id s = 4).
Proof.
  eexists. eexists. eexists. split; [vm_compute; reflexivity|]. split; [reflexivity|].
  eexists. eexists. split; [eexists; split; reflexivity|].
  split; [split; [reflexivity|]; exists []; eexists; split; [reflexivity|constructor]|].
  split; [reflexivity|].
  split; [eexists; split; [left; reflexivity|apply rt_step; right; left; reflexivity]|reflexivity].
Qed.

(** Root in slot 1, sub link to the stream in slot 2: one item. *)
Example C23_case_elsewhere :
  exists o t tr root,
    slots_open [zeros 128; slot_root; xf_slot Little [99; 100] 2 FREE FREE FREE 4 600; zeros 640] = (Ok o, t) /\
    o_tree o = Some tr /\ tree_entries tr = [root] /\ de_sub root = 2 /\ length (o_entries o) = 2%nat.
Proof.
  eexists. eexists. eexists. eexists. split; [vm_compute; reflexivity|]. split; [reflexivity|].
  split; [reflexivity|]. split; reflexivity.
Qed.

(** C24 *)
Theorem C24_sub_item_order :
  forall u rd o t tr k d,
    una_ok u -> io_bytes rd -> open_read u rd [] = (Ok o, t) -> o_tree o = Some tr -> item_entry tr k d ->
    exists n, get_number_of_sub_items tr k = Ok n /\ 0 <= n /\
      (forall i, 0 <= i < n ->
         exists j s, get_sub_item tr k i = Ok j /\ item_sub tr k j /\ item_entry tr j s) /\
      (forall i, i < 0 \/ n <= i -> get_sub_item tr k i = Err) /\
      (forall j, item_sub tr k j -> exists i, 0 <= i < n /\ get_sub_item tr k i = Ok j) /\
      (forall i1 i2 j1 j2 s1 s2, i1 < i2 ->
         get_sub_item tr k i1 = Ok j1 -> get_sub_item tr k i2 = Ok j2 ->
         item_entry tr j1 s1 -> item_entry tr j2 s2 -> de_id s1 < de_id s2).
Proof.
  intros u rd o t tr k d Hu HB HO Ht. destruct (opened_made u rd Hu HB o t HO tr Ht) as (root & HM).
  exact (sub_index u _ _ root tr HM k d).
Qed.
Print Assumptions C24_sub_item_order.

Example C24_case : exists o t tr, xf_open Little = (Ok o, t) /\ o_tree o = Some tr /\
  get_number_of_sub_items tr 0 = Ok 3 /\
  map (get_sub_item tr 0) [-1; 0; 1; 2; 3] = [Err; Ok 2%nat; Ok 1%nat; Ok 3%nat; Err].
Proof.
  eexists. eexists. eexists. split; [vm_compute; reflexivity|]. split; [reflexivity|]. split; reflexivity.
Qed.

(** C26 *)
Theorem C26_named_twice :
  forall u rd o t root d1 k1 d2 k2 s1 s2,
    una_ok u -> io_bytes rd -> open_read u rd [] = (Ok o, t) ->
    let l := o_entries o in
    first_root l root -> de_id root = 0 -> de_sub root <> FREE ->
    reachable l root d1 -> reachable l root d2 -> (d1, k1) <> (d2, k2) ->
    In s1 (link_targets l d1 k1) -> In s2 (link_targets l d2 k2) -> s1 <> s2.
Proof.
  intros u rd o t root d1 k1 d2 k2 s1 s2 Hu HB HO l Hr H0 Hs R1 R2 Hne I1 I2 Heq.
  pose proof (opened_tree u rd Hu HB o t HO) as Hc. destruct (opened_entries u rd Hu HB o t HO) as (He & _).
  apply find_root_first in Hr. fold l in Hc, He.
  destruct (o_tree o) as [tr|] eqn:Et.
  - refine (named_twice_fails u _ l root Hu He Hr H0 d1 k1 d2 k2 s1 s2 R1 R2 Hne I1 I2 _ tr Hc). congruence.
  - unfold create_tree in Hc. destruct l as [|x l0] eqn:El; [discriminate Hr|]. rewrite Hr in Hc.
    change UNUSED with FREE in Hc. destruct (de_sub root =? FREE) eqn:E; [lia|].
    destruct (process_entry _ _ _ _ _ _ _ _); discriminate.
Qed.
Print Assumptions C26_named_twice.

Theorem C26_root_named :
  forall u rd o t root d k,
    una_ok u -> io_bytes rd -> open_read u rd [] = (Ok o, t) ->
    let l := o_entries o in
    first_root l root -> de_id root = 0 -> de_sub root <> FREE ->
    reachable l root d -> ~ In root (link_targets l d k).
Proof.
  intros u rd o t root d k Hu HB HO l Hr H0 Hs R Hin.
  pose proof (opened_tree u rd Hu HB o t HO) as Hc. destruct (opened_entries u rd Hu HB o t HO) as (He & _).
  apply find_root_first in Hr. fold l in Hc, He.
  destruct (o_tree o) as [tr|] eqn:Et.
  - exact (root_named_fails u _ l root Hu He Hr H0 d k R Hin tr Hc).
  - unfold create_tree in Hc. destruct l as [|x l0] eqn:El; [discriminate Hr|]. rewrite Hr in Hc.
    change UNUSED with FREE in Hc. destruct (de_sub root =? FREE) eqn:E; [lia|].
    destruct (process_entry _ _ _ _ _ _ _ _); discriminate.
Qed.
Print Assumptions C26_root_named.

(** Exactly the links that unfold to a finite tree of distinct entries are
    accepted. *)
Theorem C26_links_exact :
  forall u e l, una_ok u -> entries_ok l -> ((exists o, create_tree u e l = Ok o) <-> links_ok u e l).
Proof. exact links_ok_exact. Qed.
Print Assumptions C26_links_exact.

(** The next link of "st" names "ab", which the previous link of "cd" names;
    the next link of "ab" names "cd", a cycle; either makes open fail.  The
    same file without them is [C23_case]. *)
Example C26_case :
  fst (slots_open
    [slot_root; xf_slot Little [97; 98] 2 FREE FREE FREE 0 70;
     xf_slot Little [99; 100] 2 1 4 FREE 4 600; zeros 128;
     xf_slot Little [115; 116] 1 FREE 1 FREE 0 0; zeros 384]) = Err /\
  fst (slots_open
    [slot_root; xf_slot Little [97; 98] 2 FREE 2 FREE 0 70;
     xf_slot Little [99; 100] 2 1 4 FREE 4 600; zeros 128;
     xf_slot Little [115; 116] 1 FREE FREE FREE 0 0; zeros 384]) = Err /\
  exists o, fst (slots_open
    [slot_root; xf_slot Little [97; 98] 2 FREE FREE FREE 0 70;
     xf_slot Little [99; 100] 2 1 4 FREE 4 600; zeros 128;
     xf_slot Little [115; 116] 1 FREE FREE FREE 0 0; zeros 384]) = Ok o.
Proof. split; [vm_compute; reflexivity|]. split; [vm_compute; reflexivity|]. eexists. vm_compute. reflexivity. Qed.

(** C27 *)
Theorem C27_dangling_next :
  forall u rd o t root d,
    una_ok u -> io_bytes rd -> open_read u rd [] = (Ok o, t) ->
    let l := o_entries o in
    first_root l root -> de_id root = 0 -> de_sub root <> FREE ->
    reachable l root d -> ~ dangling_next l d.
Proof.
  intros u rd o t root d Hu HB HO l Hr H0 Hs R Hin.
  pose proof (opened_tree u rd Hu HB o t HO) as Hc. destruct (opened_entries u rd Hu HB o t HO) as (He & _).
  apply find_root_first in Hr. fold l in Hc, He.
  destruct (o_tree o) as [tr|] eqn:Et.
  - exact (dangling_next_fails u _ l root Hu He Hr H0 d R Hin tr Hc).
  - unfold create_tree in Hc. destruct l as [|x l0] eqn:El; [discriminate Hr|]. rewrite Hr in Hc.
    change UNUSED with FREE in Hc. destruct (de_sub root =? FREE) eqn:E; [lia|].
    destruct (process_entry _ _ _ _ _ _ _ _); discriminate.
Qed.
Print Assumptions C27_dangling_next.

(** Dropping previous and sub links that name nothing changes neither whether
    a tree is made nor its shape. *)
Theorem C27_dangling_ignored :
  forall u e l, entries_ok l -> Forall (fun d => de_id d <> FREE) l ->
    create_tree u e (map (drop_dangling l) l) =
    rmap (option_map (map_tree (drop_dangling l))) (create_tree u e l).
Proof. exact create_tree_drop. Qed.
Print Assumptions C27_dangling_ignored.

Example C27_case :
  let slots ab cd st := [slot_root; ab; cd; zeros 128; st; zeros 384] in
  let ab prev next sub := xf_slot Little [97; 98] 2 prev next sub 0 70 in
  let cd := xf_slot Little [99; 100] 2 1 4 FREE 4 600 in
  let st := xf_slot Little [115; 116] 1 FREE FREE FREE 0 0 in
  let shape r := match r with Ok o => option_map (fun tr => map n_subs (tr_nodes tr)) (o_tree o) | _ => None end in
  shape (fst (slots_open (slots (ab FREE FREE FREE) cd st))) = Some [[2; 1; 3]%nat; []; []; []] /\
  shape (fst (slots_open (slots (ab 3 FREE FREE) cd st))) = Some [[2; 1; 3]%nat; []; []; []] /\
  shape (fst (slots_open (slots (ab FREE FREE 77) cd st))) = Some [[2; 1; 3]%nat; []; []; []] /\
  fst (slots_open (slots (ab FREE 3 FREE) cd st)) = Err.
Proof. cbv zeta. split; [vm_compute; reflexivity|]. split; [vm_compute; reflexivity|]. split; vm_compute; reflexivity. Qed.

(** C28 *)
Theorem C28_path_is_names :
  forall u e tr k names leading trailing,
    is_char (una_utf8_char u) [92] 92 ->
    Forall (is_name (una_utf8_char u)) names -> names <> [] ->
    leading = [] \/ leading = [92] -> trailing = [] \/ trailing = [92] ->
    2 <= zlen (leading ++ join names ++ trailing) < 18446744073709551616 ->
    sub_item_by_utf8_path u e tr k (leading ++ join names ++ trailing) =
    lookup_names (sub_node_by_utf8_name u e tr) k names.
Proof. intros u e tr k names leading trailing H. now apply path_names_all. Qed.
Print Assumptions C28_path_is_names.

Theorem C28_path_is_names_utf16 :
  forall u e tr k names leading trailing,
    is_char (una_utf16_char u) [92] 92 ->
    Forall (is_name (una_utf16_char u)) names -> names <> [] ->
    leading = [] \/ leading = [92] -> trailing = [] \/ trailing = [92] ->
    2 <= zlen (leading ++ join names ++ trailing) < 18446744073709551616 ->
    sub_item_by_utf16_path u e tr k (leading ++ join names ++ trailing) =
    lookup_names (sub_node_by_utf16_name u e tr) k names.
Proof. intros u e tr k names leading trailing H. now apply path_names_all. Qed.
Print Assumptions C28_path_is_names_utf16.

(** The lookup of any path on an opened file returns, with an item of the
    tree if with any. *)
Theorem C28_paths_defined :
  forall u rd o t tr k d s,
    una_ok u -> char_ok (una_utf8_char u) -> char_ok (una_utf16_char u) ->
    io_bytes rd -> open_read u rd [] = (Ok o, t) -> o_tree o = Some tr -> item_entry tr k d ->
    let e := fh_byte_order (o_header o) in
    (defined (sub_item_by_utf8_path u e tr k s) /\
     forall j, sub_item_by_utf8_path u e tr k s = Ok (Some j) -> exists d', item_entry tr j d') /\
    (defined (sub_item_by_utf16_path u e tr k s) /\
     forall j, sub_item_by_utf16_path u e tr k s = Ok (Some j) -> exists d', item_entry tr j d').
Proof.
  intros u rd o t tr k d s Hu C8 C16 HB HO Ht Hk e. assert (Hv : valid_item tr k) by (exists d; auto). split.
  - exact (utf8_path_defined u rd Hu HB o t HO tr k s Ht Hv C8).
  - exact (utf16_path_defined u rd Hu HB o t HO tr k s Ht Hv C16).
Qed.
Print Assumptions C28_paths_defined.

Lemma xf_char_is units c : units = [c] -> 0 <= c < 128 -> is_char xf_char units c.
Proof.
  intros -> Hc. split; [discriminate|]. intros pre post. unfold xf_char, znth.
  pose proof (zlen_nonneg pre). destruct (zlen pre <? 0) eqn:E; [lia|].
  unfold zlen. rewrite Nat2Z.id. rewrite nth_error_app2 by lia. rewrite Nat.sub_diag. cbn.
  destruct (c <? 128) eqn:E2; [reflexivity|lia].
Qed.
Lemma xf_name l : l <> [] -> Forall (fun c => 0 < c < 92) l \/ Forall (fun c => 92 < c < 128) l -> is_name xf_char l.
Proof.
  intros Hne H. split; auto. clear Hne. 
  assert (H' : Forall (fun c => 0 < c < 128 /\ c <> 92) l).
  { destruct H as [H|H]; (eapply Forall_impl; [|exact H]); cbn; intros; lia. }
  clear H. induction H' as [|c l Hc _ IH]; [constructor|].
  change (c :: l) with ([c] ++ l). apply it_char with c; auto; try lia. apply xf_char_is; auto. lia.
Qed.

Example C28_case :
  is_char (una_utf8_char xf_una) [92] 92 /\
  Forall (is_name (una_utf8_char xf_una)) [[115; 116]; [120; 121]] /\
  [] ++ join [[115; 116]; [120; 121]] ++ [92] = [115; 116; 92; 120; 121; 92] /\
  exists o t tr, xf_open Little = (Ok o, t) /\ o_tree o = Some tr /\
    sub_item_by_utf8_path xf_una Little tr 0 [115; 116; 92; 120; 121; 92] = Ok (Some 4%nat) /\
    sub_item_by_utf8_path xf_una Little tr 0 [115; 116; 92; 120; 122] = Ok None.
Proof.
  split; [apply xf_char_is; [reflexivity|lia]|].
  split; [constructor; [|constructor; [|constructor]]; (apply xf_name; [discriminate|]); right; repeat constructor|].
  split; [reflexivity|].
  eexists. eexists. eexists. split; [vm_compute; reflexivity|]. split; [reflexivity|]. split; vm_compute; reflexivity.
Qed.

Lemma xf_char_ok : char_ok xf_char.
Proof.
  intros s i Hi. unfold xf_char. destruct (znth_some s i Hi) as (c & ->). destruct (c <? 128); [|now left].
  right. exists c, (i + 1). split; [reflexivity|lia].
Qed.

(** C29 *)
Theorem C29_one_character :
  forall u e tr k c,
    sub_item_by_utf8_path u e tr k [c] = Ok (Some k) /\ sub_item_by_utf16_path u e tr k [c] = Ok (Some k).
Proof. intros. split; reflexivity. Qed.
Print Assumptions C29_one_character.

(** A sub item "a" exists: "a" is the root, "\a" the sub item. *)
Example C29_case :
  exists o t tr,
    slots_open [xf_slot Little [82] 5 FREE FREE 1 3 192; xf_slot Little [97] 2 FREE FREE FREE 0 70; zeros 768] = (Ok o, t) /\
    o_tree o = Some tr /\
    sub_node_by_utf8_name xf_una Little tr 0 [97] = Ok (Some 1%nat) /\
    sub_item_by_utf8_path xf_una Little tr 0 [97] = Ok (Some 0%nat) /\
    sub_item_by_utf8_path xf_una Little tr 0 [92; 97] = Ok (Some 1%nat) /\
    item_by_utf8_path xf_una Little (o_tree o) [122] = Ok (Some 0%nat).
Proof.
  eexists. eexists. eexists. split; [vm_compute; reflexivity|]. split; [reflexivity|]. repeat split; vm_compute; reflexivity.
Qed.

(** C30 *)
Theorem C30_first_match :
  forall u rd o t tr k d name,
    una_ok u -> io_bytes rd -> open_read u rd [] = (Ok o, t) -> o_tree o = Some tr -> item_entry tr k d ->
    let e := fh_byte_order (o_header o) in
    let compare n := una_utf8_compare u name n e in
    let r := sub_node_by_utf8_name u e tr k name in
    exists n, get_number_of_sub_items tr k = Ok n /\
    ((r = Ok None /\
      forall i, 0 <= i < n -> exists j, get_sub_item tr k i = Ok j /\ name_differs compare tr j) \/
     (exists i j, 0 <= i < n /\ get_sub_item tr k i = Ok j /\
       (forall i', 0 <= i' < i -> exists j', get_sub_item tr k i' = Ok j' /\ name_differs compare tr j') /\
       ((name_equals compare tr j /\ r = Ok (Some j)) \/ (name_fails compare tr j /\ r = Err)))).
Proof.
  intros u rd o t tr k d name Hu HB HO Ht Hk e compare r.
  destruct (lookup_cases u rd Hu HB o t HO tr k d compare Ht Hk) as (subs & Hs & _ & HC).
  { intros n. apply (uo_utf8 u Hu). }
  cbn zeta in HC. change (rbind (sub_nodes tr k) (sub_node_loop tr compare)) with r in HC.
  exists (zlen subs). split; [unfold get_number_of_sub_items; now rewrite Hs|].
  assert (Hget : forall i j, znth subs i = Some j -> get_sub_item tr k i = Ok j).
  { intros i j H. unfold get_sub_item. rewrite Hs. cbn [rbind]. now rewrite H. }
  destruct HC as [[Hr HF]|(pre & j & post & Hsub & HF & Hj)].
  - left. split; auto. intros i Hi. destruct (znth_some subs i Hi) as (j & Hj). exists j. split; auto.
    rewrite Forall_forall in HF. apply HF. unfold znth in Hj. destruct (i <? 0); [discriminate|].
    eapply nth_error_In; eauto.
  - right. exists (zlen pre), j. pose proof (zlen_nonneg pre). pose proof (zlen_nonneg post).
    assert (Hz : zlen subs = zlen pre + (1 + zlen post)) by (rewrite Hsub, zlen_app, zlen_cons; lia).
    split; [lia|]. split.
    { apply Hget. rewrite Hsub. unfold znth. destruct (zlen pre <? 0) eqn:E; [lia|]. unfold zlen. rewrite Nat2Z.id.
      rewrite nth_error_app2 by lia. now rewrite Nat.sub_diag. }
    split; [|exact Hj].
    intros i' Hi'. destruct (znth_some pre i' Hi') as (j' & Hj'). exists j'. split.
    { apply Hget. rewrite Hsub. unfold znth in *. destruct (i' <? 0); [discriminate|].
      rewrite nth_error_app1; auto. apply nth_error_Some. congruence. }
    rewrite Forall_forall in HF. apply HF. unfold znth in Hj'. destruct (i' <? 0); [discriminate|].
    eapply nth_error_In; eauto.
Qed.
Print Assumptions C30_first_match.

Theorem C30_encodings_agree :
  forall u e tr k name8 name16,
    (forall n, una_utf8_compare u name8 n e = una_utf16_compare u name16 n e) ->
    sub_node_by_utf8_name u e tr k name8 = sub_node_by_utf16_name u e tr k name16.
Proof.
  intros u e tr k name8 name16 H. unfold sub_node_by_utf8_name, sub_node_by_utf16_name.
  destruct (sub_nodes tr k) as [subs| | |]; [|reflexivity..]. cbn [rbind].
  induction subs as [|j subs IH]; [reflexivity|]. cbn [sub_node_loop]. destruct (node_value tr j) as [d| | |]; [|reflexivity..].
  cbn [rbind]. rewrite H. destruct (una_utf16_compare u name16 (de_name d) e) as [[]| | |]; cbn [rbind]; auto.
Qed.
Print Assumptions C30_encodings_agree.

(** Two sub items of the same name: the one with the lower identifier. *)
Example C30_case :
  exists o t tr,
    slots_open [slot_root; xf_slot Little [97; 98] 2 FREE FREE FREE 0 70;
      xf_slot Little [97; 98] 2 1 FREE FREE 4 600; zeros 640] = (Ok o, t) /\
    o_tree o = Some tr /\
    sub_node_by_utf8_name xf_una Little tr 0 [97; 98] = Ok (Some 2%nat) /\
    (exists d, item_entry tr 2 d /\ de_id d = 1) /\
    sub_node_by_utf8_name xf_una Little tr 0 [97; 99] = Ok None.
Proof.
  eexists. eexists. eexists. split; [vm_compute; reflexivity|]. split; [reflexivity|].
  split; [vm_compute; reflexivity|]. split; [|vm_compute; reflexivity].
  eexists. split; [eexists; split; reflexivity|reflexivity].
Qed.

(** C49: [process_entry] with the fuel [n] is the function with [n] levels of
    recursion; [NoFuel] is what it gives when they do not suffice. *)
Theorem C49_depth_at_most :
  forall u e l root, una_ok u -> entries_ok l -> find_root l = Some root -> de_id root = 0 ->
    defined (process_entry (length l + 1) u e 0 l (start_state root) 0 root).
Proof. exact depth_bound. Qed.
Print Assumptions C49_depth_at_most.

Theorem C49_depth_reached :
  forall n u e, (2 <= n)%nat -> Z.of_nat n <= 262400 ->
    length (line n) = n /\
    (exists tr, create_tree u e (line n) = Ok (Some tr)) /\
    forall levels, (levels < n)%nat ->
      process_entry levels u e 0 (line n) (start_state (line_entry n 0)) 0 (line_entry n 0) = NoFuel.
Proof.
  intros n u e H2 Hn. split; [unfold line; now rewrite map_length, seq_length|]. apply line_depth; auto. unfold FREE. lia.
Qed.
Print Assumptions C49_depth_reached.

Example C49_case : length (line 3) = 3%nat /\ map de_sub (line 3) = [1; 2; FREE].
Proof. split; reflexivity. Qed.
