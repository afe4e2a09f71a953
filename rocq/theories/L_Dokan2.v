(** Lemmas on the callbacks of a mounted file on Windows, and their
    histories. *)
From Coq Require Import ZArith List Bool Lia Arith.
From Verif Require Import Base Spec_IO M_Table M_Load M_Stream M_Tree M_Open M_Item M_Mount M_WMount M_Fuse M_Dokan
  Spec_Stream Spec_Content Spec_Tree Spec_Item Spec_Mount Spec_WMount Spec_Fuse Spec_Dokan
  L_Base L_Load L_Open L_Open2 L_Session L_Stream L_Stream2 L_Stream3 L_Tree L_Tree2 L_Tree3 L_Item L_Mount L_WMount L_Fuse L_Fuse2 L_Dokan.
Import ListNotations.
Open Scope Z_scope.

(** * No callback is undefined *)
Section Mount.
Variable b : dokan_build.
Variable m : mounted.
Variable o : opened.
Variable rd0 : reader.
Variable t0 : trace.
Hypothesis HO : wmount_of m o rd0 t0.
Variable tr : tree.
Hypothesis Ht : o_tree o = Some tr.

Lemma is_wmount_ok : wmount_ok m.
Proof. exact (proj1 HO). Qed.

Lemma wtree_is : mt_tree m = Some tr.
Proof. destruct HO as (_ & _ & _ & _ & _ & E). congruence. Qed.

Lemma witem_dirent k d : item_entry tr k d -> dirent_ok d.
Proof.
  destruct HO as (_ & Hu & HB & H & _ & _). intros Hk. destruct (opened_made _ rd0 Hu HB o t0 H tr Ht) as (root & HMa).
  destruct (opened_entries _ rd0 Hu HB o t0 H) as (_ & Hd & _).
  apply (proj1 (Forall_forall _ _) Hd). apply (made_incl _ _ _ root tr HMa).
  destruct Hk as (n & Hn & <-). unfold tree_entries. apply in_map. eapply nth_error_In; eauto.
Qed.

Lemma wentries_in_range k d : item_entry tr k d -> wentry_ok d.
Proof.
  intros Hk. pose proof (do_size d (witem_dirent k d Hk)) as Hs.
  destruct HO as (_ & Hu & HB & H & _ & _).
  pose proof (opened_item_times _ rd0 o t0 tr k d Hu HB H Ht Hk (opened_times _ rd0 o t0 Hu HB H)) as (H1 & H2).
  split; [exact Hs|]. split; assumption.
Qed.

Lemma wvolume_in_range : volume_ok (mt_volume m).
Proof. destruct HO as (_ & Hu & HB & H & -> & _). eapply opened_volume_ok; eauto. Qed.

Lemma witem_by_path_defined p :
  defined (wmount_item_by_path (mt_una m) (mt_codec m) (v_byte_order (mt_volume m)) (mt_tree m) p) /\
  forall k, wmount_item_by_path (mt_una m) (mt_codec m) (v_byte_order (mt_volume m)) (mt_tree m) p = Ok (Some k) ->
    valid_item tr k.
Proof.
  unfold wmount_item_by_path. rewrite wtree_is. destruct (wto_safe (mt_codec m) p (wo_codec m is_wmount_ok)) as [Hd _].
  destruct (wcopy_to_item_path (mt_codec m) p) as [[ip sz]| | |]; cbn [rbind] in *; [|split; [exact I|discriminate]|destruct Hd..].
  destruct HO as (_ & Hu & HB & H & Ev & _).
  destruct (opened_root _ rd0 Hu HB o t0 H tr Ht) as (root & _ & Hr & _).
  assert (Hc : char_ok (una_utf16_char (mt_una m))) by (rewrite (wo_char m is_wmount_ok); exact (co_decode _ (wo_codec m is_wmount_ok))).
  pose proof (utf16_path_defined _ rd0 Hu HB o t0 H tr 0%nat (c_string ip) Ht (ex_intro _ root Hr) Hc) as HP.
  rewrite Ev. exact HP.
Qed.

Lemma last_backslash_range p n : (Z.of_nat n <= zlen p) -> exists i, last_backslash p n = Ok i /\ 0 <= i <= Z.of_nat n.
Proof.
  induction n as [|n IH]; intros Hn; cbn [last_backslash]; [exists 0; split; [reflexivity|lia]|].
  destruct (arr_get_in (p ++ [0]) (Z.of_nat (S n))) as (c & ->); [rewrite zlen_app'; change (zlen [0]) with 1; lia|].
  cbn [rbind]. destruct (c =? WSEP); [eexists; split; [reflexivity|lia]|].
  destruct IH as (i & -> & Hi); [lia|]. exists i. split; [reflexivity|lia].
Qed.

Lemma wentry_by_path_defined p : defined (wentry_by_path m p) /\
  forall f, wentry_by_path m p = Ok (Some f) -> valid_item tr (fe_node f) /\ fe_cursor f = 0.
Proof.
  unfold wentry_by_path. destruct (zlen p =? 0) eqn:E0; [split; [exact I|discriminate]|]. apply Z.eqb_neq in E0.
  pose proof (zlen_pos p).
  destruct (arr_get_in p (zlen p - 1)) as (c & ->); [lia|]. cbn [rbind].
  set (len := if (2 <=? zlen p) && (c =? WSEP) then zlen p - 1 else zlen p).
  assert (Hlen : 0 <= len <= zlen p) by (unfold len; destruct ((2 <=? zlen p) && (c =? WSEP)); lia). clearbody len.
  destruct (last_backslash_range p (Z.to_nat len)) as (i & -> & Hi); [lia|]. cbn [rbind].
  destruct (witem_by_path_defined (slice p 0 len)) as [Hd Hk].
  destruct (wmount_item_by_path _ _ _ _ (slice p 0 len)) as [[k|]| | |]; cbn [rbind] in *;
    try (split; [exact I|discriminate]); [|destruct Hd..].
  destruct (SSIZE_MAX - 1 <? u64 (len - (i + 1))) eqn:E1; [split; [exact I|discriminate]|]. apply Z.ltb_ge in E1.
  destruct (zlen p + 1 <? i + 1 + u64 (len - (i + 1))) eqn:E2; [exfalso; apply Z.ltb_lt in E2|].
  - rewrite Z2Nat.id in Hi by lia. unfold u64, SSIZE_MAX in *. destruct (Z.eq_dec i len) as [->|].
    + replace (len - (len + 1)) with (-1) in E1 by lia. change (-1 mod 18446744073709551616) with 18446744073709551615 in E1. lia.
    + pose proof (Z.mod_le (len - (i + 1)) 18446744073709551616). lia.
  - split; [exact I|]. intros f [= <-]. split; [exact (Hk k eq_refl)|reflexivity].
Qed.

Lemma values_defined k : valid_item tr k -> exists d, item_entry tr k d /\ entry_values m k = Ok (values_of m d).
Proof.
  intros (d & Hk). exists d. split; [exact Hk|].
  apply (entry_values_at m tr wtree_is). exists d. auto.
Qed.

Lemma information_defined p i : get_file_information m p i <> DUndefined.
Proof.
  unfold get_file_information. destruct (wentry_by_path_defined p) as [Hd Hk].
  destruct (wentry_by_path m p) as [[f|]| | |]; try discriminate; try destruct Hd.
  destruct (values_defined (fe_node f)) as (d & _ & ->); [apply Hk; reflexivity|discriminate].
Qed.

Lemma wname_defined k : valid_item tr k -> defined (witem_file_name m k).
Proof.
  intros (d & Hk). unfold witem_file_name, entry_value. rewrite wtree_is, (proj2 (node_value_entry tr k d) Hk). cbn [rbind].
  destruct (mt_name m (de_name d) _) as [n|]; [|exact I].
  destruct (wfrom_safe (mt_codec m) n (wo_codec m is_wmount_ok)) as [Hd _].
  destruct (wcopy_from_item_path (mt_codec m) n) as [[f sz]| | |]; cbn [rbind] in *; try exact I; destruct Hd.
Qed.

Hypothesis HS : db_long_paths b = false \/ short_names m tr.

Lemma find_loop_defined accept f nd : nth_error (tr_nodes tr) (fe_node f) = Some nd ->
  forall n i live l, Z.of_nat n + i = zlen (n_subs nd) -> 0 <= i ->
  defined (fst (fst (fst (find_loop n b m accept f i live l)))).
Proof.
  intros Hn. induction n as [|n IH]; intros i live l Hi H0; [exact I|]. rewrite find_loop_unfold.
  destruct (znth_some (n_subs nd) i) as (j & Hj); [lia|].
  assert (Hv : valid_item tr j).
  { destruct HO as (_ & Hu & HB & H & _ & _).
    pose proof (opened_subs_valid _ rd0 Hu HB o t0 H tr (fe_node f) nd Ht Hn) as HSv.
    exact (Forall_znth _ _ _ _ HSv Hj). }
  assert (Hjn : nth_error (n_subs nd) (Z.to_nat i) = Some j).
  { unfold znth in Hj. destruct (i <? 0); [discriminate|exact Hj]. }
  replace i with (Z.of_nat (Z.to_nat i)) at 1 by lia.
  rewrite (wsub_entry_at m tr wtree_is f nd (Z.to_nat i) j Hn Hjn).
  pose proof (wname_defined j Hv) as Hd.
  destruct (witem_file_name m j) as [[name sz]| | |] eqn:En; cbn [rbind] in *; [|exact I|destruct Hd..].
  apply (witem_file_name_at m tr wtree_is) in En as (d & nm & g & HN & -> & ->). cbn [fe_name fe_node].
  rewrite (proj1 (filldir_item b m tr is_wmount_ok wtree_is wentries_in_range accept j d nm g l [] HN)).
  destruct (zlen nm <=? 25) eqn:E25.
  - destruct (accept (length l)); [|exact I]. apply IH; lia.
  - destruct (db_long_paths b) eqn:El; [|exact I]. exfalso. destruct HS as [E|E]; [discriminate|].
    apply Z.leb_gt in E25. destruct HN as (Hk & Hnm & _). specialize (E j d nm Hk Hnm). lia.
Qed.

Lemma find_defined accept f live : valid_item tr (fe_node f) -> fst (fst (find_in b m accept f live)) <> DUndefined.
Proof.
  intros (d & nd & Hn & Hd0). unfold find_in, number_of_sub_entries.
  rewrite (dot_entry b m tr wtree_is nd accept _ Hn). destruct (accept 0%nat); [|discriminate].
  rewrite dots_entry_ok. destruct (accept (length _)); [|discriminate]. cbn [app]. rewrite wtree_is.
  unfold get_number_of_sub_items, sub_nodes. rewrite Hn. cbn [rbind].
  match goal with |- context [find_loop ?n b m accept f 0 live ?l] =>
    pose proof (find_loop_defined accept f nd Hn n 0 live l) as HL; destruct (find_loop n b m accept f 0 live l) as [[[r sub] lv] l'] end.
  specialize (HL ltac:(pose proof (zlen_pos (n_subs nd)); lia) ltac:(lia)).
  cbn [fst] in *. destruct r; cbn in *; try discriminate; destruct HL.
Qed.

Lemma find_files_defined accept p live : fst (fst (find_files b m accept p live)) <> DUndefined.
Proof.
  unfold find_files. destruct (wentry_by_path_defined p) as [Hd Hk].
  destruct (wentry_by_path m p) as [[f|]| | |]; try discriminate; try destruct Hd.
  apply find_defined. apply (Hk f eq_refl).
Qed.

Lemma read_file_defined rd f size offset : valid_item tr (fe_node f) -> 0 <= size ->
  (4 <= v_short_sector_size (mt_volume m) \/ size <= 1073741824) -> fst (read_file rd m (Some f) size offset) <> DUndefined.
Proof.
  intros (d & Hd) Hs Hf. destruct (read_file_fuse rd m f size offset) as [-> _].
  destruct (fuse_read_other m tr wtree_is rd f d size offset Hd) as (_ & _ & H).
  assert (HU : fst (fuse_read rd m f size offset) <> Undefined).
  { apply H; auto.
    - exact wvolume_in_range.
    - exact (witem_dirent _ _ Hd).
    - destruct Hf as [Hf|Hf]; [left|right; exact Hf]. unfold stream_sector_size.
      destruct (is_short (mt_volume m) d); [exact Hf|].
      destruct (vo_ss _ wvolume_in_range) as (a & Ha & ->). pose proof (Z.pow_le_mono_r 2 7 a ltac:(lia) ltac:(lia)).
      change (2 ^ 7) with 128 in *. lia. }
  destruct (fst (fuse_read rd m f size offset)); congruence.
Qed.

Definition contexts_ok (s : dokan_state) : Prop := forall k f, dk_contexts s k = Some f -> valid_item tr (fe_node f).

Lemma set_context_at c h x k : set_context c h x k = if Nat.eqb k h then x else c k.
Proof. reflexivity. Qed.

Lemma open_context_defined path x : open_context m path x <> DUndefined /\
  forall f, open_context m path x = DDone f -> valid_item tr (fe_node f).
Proof.
  unfold open_context. destruct x; [split; discriminate|].
  destruct (wentry_by_path_defined path) as [Hd Hk].
  destruct (wentry_by_path m path) as [[f|]| | |]; try (split; discriminate); [|destruct Hd..].
  split; [discriminate|]. intros g [= <-]. apply Hk. reflexivity.
Qed.

Lemma create_defined path access disposition x : dokan_create b m path access disposition x <> DUndefined /\
  forall f, dokan_create b m path access disposition x = DDone f -> valid_item tr (fe_node f).
Proof.
  pose proof (open_context_defined path x) as H. unfold dokan_create, create_file, zw_create_file.
  destruct (db_old b);
    repeat match goal with |- context [if ?c then DFails _ else _] => destruct c; [split; discriminate|] end; exact H.
Qed.

Lemma store_ok r h s : contexts_ok s -> r <> DUndefined -> (forall f, r = DDone f -> valid_item tr (fe_node f)) ->
  fst (store_context r h s) <> DrUndef /\ contexts_ok (snd (store_context r h s)).
Proof.
  intros Hs Hr Hf. destruct r as [f|c|]; cbn [store_context fst snd]; [|split; [discriminate|exact Hs]|congruence].
  split; [discriminate|]. intros k g Hg. cbn [dk_contexts] in Hg. rewrite set_context_at in Hg.
  destruct (Nat.eqb k h); [injection Hg as <-; auto|exact (Hs k g Hg)].
Qed.

Lemma read_file_node rd x size offset g : snd (read_file rd m x size offset) = Some g ->
  exists f, x = Some f /\ fe_node g = fe_node f /\ fe_name g = fe_name f.
Proof.
  destruct x as [f|].
  - destruct (read_file_fuse rd m f size offset) as [_ ->]. intros [= <-]. exists f. split; [reflexivity|].
    apply (fuse_read_node m rd f size offset).
  - unfold read_file. destruct (INT_MAX <? size); discriminate.
Qed.

Lemma dokan_step_defined rd op h s : contexts_ok s -> wproper m ((rd, op) :: h) ->
  fst (dokan_step rd b m op s) <> DrUndef /\ contexts_ok (snd (dokan_step rd b m op s)).
Proof.
  intros Hs HP. apply Forall_inv in HP. cbn [snd] in HP.
  destruct op as [k path access disposition|k path|k|k size offset|path accept|path i|n1 n2]; cbn [dokan_step].
  - destruct (create_defined path access disposition (dk_contexts s k)) as [H1 H2]. apply store_ok; auto.
  - destruct (db_old b); [|split; [discriminate|exact Hs]].
    destruct (open_context_defined path (dk_contexts s k)) as [H1 H2]. apply store_ok; auto.
  - destruct (dk_contexts s k) eqn:E; (split; [discriminate|]); [|exact Hs].
    intros j g Hg. cbn [snd dk_contexts] in Hg. rewrite set_context_at in Hg. destruct (Nat.eqb j k); [discriminate|exact (Hs j g Hg)].
  - destruct HP as [Hsz Hf].
    assert (HR : fst (read_file rd m (dk_contexts s k) size offset) <> DUndefined).
    { destruct (dk_contexts s k) as [f|] eqn:E; [apply read_file_defined; auto; exact (Hs k f E)|].
      unfold read_file. destruct (INT_MAX <? size); discriminate. }
    pose proof (read_file_node rd (dk_contexts s k) size offset) as HN.
    destruct (read_file rd m (dk_contexts s k) size offset) as [r x]. cbn [fst snd] in *.
    split; [destruct r; congruence|]. intros j g Hg. cbn [dk_contexts] in Hg. rewrite set_context_at in Hg.
    destruct (Nat.eqb j k); [|exact (Hs j g Hg)]. destruct (HN g Hg) as (f & E & -> & _). exact (Hs k f E).
  - pose proof (find_files_defined accept path (dk_live s)) as HR.
    destruct (find_files b m accept path (dk_live s)) as [[r lv] l]. cbn [fst snd] in *. split; [destruct r; congruence|exact Hs].
  - pose proof (information_defined path i) as HR. split; [|exact Hs]. cbn [fst]. destruct (get_file_information m path i); congruence.
  - split; [discriminate|exact Hs].
Qed.

Lemma dokan_run_defined h : forall s rs s', contexts_ok s -> wproper m h -> dokan_run b m h s = (rs, s') -> ~ In DrUndef rs.
Proof.
  induction h as [|[rd op] h IH]; intros s rs s' Hs HP H; cbn [dokan_run] in H.
  - apply pair_equal_spec in H as [<- _]. intros [].
  - destruct (dokan_step_defined rd op h s Hs HP) as [H1 H2].
    destruct (dokan_step rd b m op s) as [r s1]. destruct (dokan_run b m h s1) as [rs2 s2] eqn:E2.
    apply pair_equal_spec in H as [<- _]. cbn [fst snd] in *. apply Forall_inv_tail in HP.
    intros [E|Hin]; [congruence|]. exact (IH s1 rs2 s2 H2 HP E2 Hin).
Qed.

Lemma dokan_start_ok : contexts_ok dokan_start.
Proof. intros k f H. discriminate. Qed.
End Mount.

(** * The entries that are allocated *)
Lemma open_files_set c h x n : open_files (set_context c h x) n =
  open_files c n + (if (h <? n)%nat then held (match x with Some _ => true | None => false end) -
                                           held (match c h with Some _ => true | None => false end) else 0).
Proof.
  induction n as [|n IH]; [reflexivity|]. cbn [open_files]. rewrite IH, set_context_at.
  destruct (Nat.eqb n h) eqn:E.
  - apply Nat.eqb_eq in E as ->. replace (h <? S h)%nat with true by (symmetry; apply Nat.ltb_lt; lia).
    rewrite Nat.ltb_irrefl. destruct x, (c h); cbn [held]; lia.
  - apply Nat.eqb_neq in E. replace (h <? S n)%nat with (h <? n)%nat; [lia|].
    destruct (h <? n)%nat eqn:E2; symmetry; [apply Nat.ltb_lt; apply Nat.ltb_lt in E2|apply Nat.ltb_ge; apply Nat.ltb_ge in E2]; lia.
Qed.

Lemma store_live r h s n : (h < n)%nat -> (dk_contexts s h <> None -> forall f, r <> DDone f) ->
  dk_live (snd (store_context r h s)) - open_files (dk_contexts (snd (store_context r h s))) n =
  dk_live s - open_files (dk_contexts s) n.
Proof.
  intros Hh Hr. destruct r as [f|c|]; cbn [store_context snd dk_live dk_contexts]; try reflexivity.
  rewrite open_files_set. replace (h <? n)%nat with true by (symmetry; apply Nat.ltb_lt; exact Hh).
  destruct (dk_contexts s h); [exfalso; apply (Hr ltac:(discriminate) f eq_refl)|]. cbn [held]. lia.
Qed.

Lemma open_context_fresh m path x : x <> None -> forall f, open_context m path x <> DDone f.
Proof. destruct x; [|congruence]. discriminate. Qed.

Lemma create_fresh b m path access disposition x : x <> None -> forall f, dokan_create b m path access disposition x <> DDone f.
Proof.
  intros Hx f. pose proof (open_context_fresh m path x Hx f) as H. unfold dokan_create, create_file, zw_create_file.
  destruct (db_old b); repeat match goal with |- context [if ?c then DFails _ else _] => destruct c; [discriminate|] end; exact H.
Qed.

Lemma dokan_step_live rd b m op s n : files_below n [(rd, op)] ->
  dk_live (snd (dokan_step rd b m op s)) - open_files (dk_contexts (snd (dokan_step rd b m op s))) n =
  dk_live s - open_files (dk_contexts s) n.
Proof.
  intros HB. apply Forall_inv in HB. cbn [snd] in HB.
  destruct op as [k path access disposition|k path|k|k size offset|path accept|path i|n1 n2]; cbn [dokan_step].
  - apply store_live; [exact HB|]. apply create_fresh.
  - destruct (db_old b); [|reflexivity]. apply store_live; [exact HB|]. apply open_context_fresh.
  - destruct (dk_contexts s k) eqn:E; [|reflexivity]. cbn [snd dk_live dk_contexts]. rewrite open_files_set, E.
    replace (k <? n)%nat with true by (symmetry; apply Nat.ltb_lt; exact HB). cbn [held]. lia.
  - pose proof (read_file_node m rd (dk_contexts s k) size offset) as HN.
    assert (HX : forall f, dk_contexts s k = Some f -> snd (read_file rd m (dk_contexts s k) size offset) <> None).
    { intros f E. rewrite E. destruct (read_file_fuse rd m f size offset) as [_ ->]. discriminate. }
    destruct (read_file rd m (dk_contexts s k) size offset) as [r x]. cbn [snd dk_live dk_contexts] in *. rewrite open_files_set.
    replace (k <? n)%nat with true by (symmetry; apply Nat.ltb_lt; exact HB).
    destruct x as [g|]; [destruct (HN g eq_refl) as (f & -> & _); cbn [held]; lia|].
    destruct (dk_contexts s k) as [f|]; [exfalso; exact (HX f eq_refl eq_refl)|]. cbn [held]. lia.
  - assert (HL : snd (fst (find_files b m accept path (dk_live s))) = dk_live s).
    { unfold find_files. destruct (wentry_by_path m path) as [[f|]| | |]; try reflexivity. rewrite find_in_live. lia. }
    destruct (find_files b m accept path (dk_live s)) as [[r lv] l]. cbn [fst snd dk_live dk_contexts] in *. lia.
  - reflexivity.
  - reflexivity.
Qed.

Lemma dokan_run_live b m n h : forall s rs s', files_below n h -> dokan_run b m h s = (rs, s') ->
  dk_live s' - open_files (dk_contexts s') n = dk_live s - open_files (dk_contexts s) n.
Proof.
  induction h as [|[rd op] h IH]; intros s rs s' HB H; cbn [dokan_run] in H.
  - apply pair_equal_spec in H as [_ <-]. reflexivity.
  - assert (HB1 : files_below n [(rd, op)]) by (constructor; [exact (Forall_inv HB)|constructor]).
    pose proof (dokan_step_live rd b m op s n HB1) as HS.
    destruct (dokan_step rd b m op s) as [r s1]. destruct (dokan_run b m h s1) as [rs2 s2] eqn:E2.
    apply pair_equal_spec in H as [_ <-]. cbn [snd] in HS. rewrite <- HS. apply (IH s1 rs2 s2); [exact (Forall_inv_tail HB)|exact E2].
Qed.

Lemma open_files_start n : open_files (dk_contexts dokan_start) n = 0.
Proof. induction n as [|n IH]; [reflexivity|]. cbn [open_files]. rewrite IH. reflexivity. Qed.

(** * What an open file answers *)

(** The file [k] is open on the entry [f]; the cursor may differ. *)
Definition opened_on (k : nat) (f : file_entry) (s : dokan_state) : Prop :=
  exists g, dk_contexts s k = Some g /\ fe_node g = fe_node f /\ 0 <= fe_cursor g.

Lemma store_keeps r h s k f : opened_on k f s -> (dk_contexts s h <> None -> forall g, r <> DDone g) ->
  opened_on k f (snd (store_context r h s)).
Proof.
  intros (g & Hg & H1 & H2) Hr. destruct r as [x|c|]; cbn [store_context snd]; [|exists g; auto..].
  exists g. split; [|auto]. cbn [dk_contexts]. rewrite set_context_at. destruct (Nat.eqb k h) eqn:E; [|exact Hg].
  apply Nat.eqb_eq in E as ->. exfalso. apply (Hr ltac:(congruence) x eq_refl).
Qed.

Lemma dokan_step_keeps rd b m op s k f : op <> DkClose k -> opened_on k f s -> opened_on k f (snd (dokan_step rd b m op s)).
Proof.
  intros Hop HK.
  destruct op as [j path access disposition|j path|j|j size offset|path accept|path i|n1 n2]; cbn [dokan_step].
  - apply store_keeps; [exact HK|]. apply create_fresh.
  - destruct (db_old b); [|exact HK]. apply store_keeps; [exact HK|]. apply open_context_fresh.
  - destruct (dk_contexts s j); [|exact HK]. destruct HK as (g & Hg & H1). exists g. split; [|exact H1].
    cbn [snd dk_contexts]. rewrite set_context_at. destruct (Nat.eqb k j) eqn:E; [|exact Hg].
    apply Nat.eqb_eq in E as ->. congruence.
  - destruct HK as (g & Hg & H1 & H2).
    destruct (Nat.eqb k j) eqn:E.
    + assert (Ekj := E). apply Nat.eqb_eq in E as ->. rewrite Hg. destruct (read_file_fuse rd m g size offset) as [_ HX].
      destruct (fuse_read_node m rd g size offset) as [N1 N2]. pose proof (fuse_read_cursor m rd g size offset H2) as N3.
      destruct (read_file rd m (Some g) size offset) as [r x]. cbn [snd] in HX. subst x. cbn [snd].
      exists (snd (fuse_read rd m g size offset)). cbn [dk_contexts]. rewrite set_context_at, Ekj. repeat split; [congruence|exact N3].
    + destruct (read_file rd m (dk_contexts s j) size offset) as [r x]. exists g. cbn [snd dk_contexts]. rewrite set_context_at, E. auto.
  - destruct (find_files b m accept path (dk_live s)) as [[r lv] l]. exact HK.
  - exact HK.
  - exact HK.
Qed.

Lemma dokan_run_keeps b m k f h : forall s rs s', wkeeps_open k h -> opened_on k f s -> dokan_run b m h s = (rs, s') ->
  opened_on k f s'.
Proof.
  induction h as [|[rd op] h IH]; intros s rs s' HW HK H; cbn [dokan_run] in H.
  - apply pair_equal_spec in H as [_ <-]. exact HK.
  - pose proof (dokan_step_keeps rd b m op s k f (Forall_inv HW) HK) as HS.
    destruct (dokan_step rd b m op s) as [r s1]. destruct (dokan_run b m h s1) as [rs2 s2] eqn:E2.
    apply pair_equal_spec in H as [_ <-]. exact (IH s1 rs2 s2 (Forall_inv_tail HW) HS E2).
Qed.

Lemma wentry_cursor m path f : wentry_by_path m path = Ok (Some f) -> fe_cursor f = 0.
Proof.
  unfold wentry_by_path. intros Eg. destruct (zlen path =? 0); [discriminate|].
  destruct (arr_get path (zlen path - 1)) as [c| | |]; try discriminate. cbn [rbind] in Eg.
  destruct (last_backslash _ _) as [i| | |]; try discriminate. cbn [rbind] in Eg.
  destruct (wmount_item_by_path _ _ _ _ _) as [[j|]| | |]; try discriminate. cbn [rbind] in Eg.
  destruct (SSIZE_MAX - 1 <? _); [discriminate|]. destruct (zlen path + 1 <? _); [discriminate|].
  injection Eg as <-. reflexivity.
Qed.

Lemma open_context_done m path x f : open_context m path x = DDone f -> x = None /\ wentry_by_path m path = Ok (Some f).
Proof.
  unfold open_context. destruct x; [discriminate|]. destruct (wentry_by_path m path) as [[g|]| | |]; try discriminate.
  intros [= ->]. auto.
Qed.

Lemma create_done b m path access disposition x f : dokan_create b m path access disposition x = DDone f ->
  open_context m path x = DDone f.
Proof.
  unfold dokan_create, create_file, zw_create_file. intros H. destruct (db_old b);
  repeat match type of H with (if ?c then DFails _ else _) = _ => destruct c; [discriminate H|] end; exact H.
Qed.

(** The call opens the file [k]. *)
Lemma opens_context b m rd op s k s1 path :
  (exists access disposition, op = DkCreate k path access disposition) \/ (db_old b = true /\ op = DkOpenDirectory k path) ->
  dokan_step rd b m op s = (DrDone, s1) ->
  exists f, wentry_by_path m path = Ok (Some f) /\ dk_contexts s k = None /\ dk_contexts s1 k = Some f /\ opened_on k f s1.
Proof.
  intros Hop H.
  assert (Ho : exists f, open_context m path (dk_contexts s k) = DDone f /\
                 s1 = {| dk_contexts := set_context (dk_contexts s) k (Some f); dk_live := dk_live s + 1 |}).
  { destruct Hop as [(access & disposition & ->)|[Eb ->]]; cbn [dokan_step] in H; [|rewrite Eb in H].
    - destruct (dokan_create b m path access disposition (dk_contexts s k)) as [f|c|] eqn:E; cbn [store_context] in H; try discriminate.
      apply create_done in E. exists f. split; [exact E|]. congruence.
    - destruct (open_context m path (dk_contexts s k)) as [f|c|] eqn:E; cbn [store_context] in H; try discriminate.
      exists f. split; [reflexivity|]. congruence. }
  destruct Ho as (f & Ef & ->). apply open_context_done in Ef as [E0 Ef].
  exists f. split; [exact Ef|]. split; [exact E0|].
  assert (E1 : set_context (dk_contexts s) k (Some f) k = Some f) by (rewrite set_context_at, Nat.eqb_refl; reflexivity).
  split; [exact E1|]. exists f. split; [exact E1|]. split; [reflexivity|]. rewrite (wentry_cursor _ _ _ Ef). lia.
Qed.

Lemma read_cursor_free m rd f g size offset : fe_node g = fe_node f -> 0 <= fe_cursor f -> 0 <= fe_cursor g ->
  fst (read_file rd m (Some g) size offset) = fst (read_file rd m (Some f) size offset).
Proof.
  intros E Hf Hg. destruct (read_file_fuse rd m g size offset) as [-> _]. destruct (read_file_fuse rd m f size offset) as [-> _].
  rewrite (fuse_read_cursor_free m rd f g); auto.
Qed.

Lemma dokan_answers rd0 b m op s k s1 path h rs s2 :
  (exists access disposition, op = DkCreate k path access disposition) \/ (db_old b = true /\ op = DkOpenDirectory k path) ->
  dokan_step rd0 b m op s = (DrDone, s1) -> wkeeps_open k h -> dokan_run b m h s1 = (rs, s2) ->
  exists f, wentry_by_path m path = Ok (Some f) /\
    forall rd size offset,
      fst (dokan_step rd b m (DkRead k size offset) s2) =
      match fst (read_file rd m (Some f) size offset) with
      | DDone l => DrBytes l | DFails c => DrStatus c | DUndefined => DrUndef end.
Proof.
  intros Hop H1 Hk H2. destruct (opens_context b m rd0 op s k s1 path Hop H1) as (f & Ef & _ & _ & HK).
  exists f. split; [exact Ef|]. intros rd size offset.
  destruct (dokan_run_keeps b m k f h s1 rs s2 Hk HK H2) as (g & Eg & En & Hc). cbn [dokan_step]. rewrite Eg.
  rewrite <- (read_cursor_free m rd f g size offset En) by (rewrite ?(wentry_cursor _ _ _ Ef); lia).
  destruct (read_file rd m (Some g) size offset) as [r x]. reflexivity.
Qed.

Lemma bit_test x n : 0 <= n -> (Z.land x (2 ^ n) =? 0) = negb (Z.testbit x n).
Proof.
  intros Hn. destruct (Z.testbit x n) eqn:E; cbn [negb].
  - apply Z.eqb_neq. intros H. assert (HT : Z.testbit (Z.land x (2 ^ n)) n = true)
      by (rewrite Z.land_spec, E, Z.pow2_bits_true by exact Hn; reflexivity).
    rewrite H, Z.bits_0 in HT. discriminate.
  - apply Z.eqb_eq. apply Z.bits_inj_0. intros i. rewrite Z.land_spec.
    destruct (Z.eq_dec i n) as [->|Hi]; [rewrite E; reflexivity|]. rewrite Z.pow2_bits_false by congruence. apply andb_false_r.
Qed.
