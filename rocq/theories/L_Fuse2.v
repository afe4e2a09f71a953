(** Lemmas on the mounts of opened files. *)
From Coq Require Import ZArith List Bool Lia Arith Sorted.
From Verif Require Import Base Spec_IO M_Table M_Load M_Stream M_Tree M_Open M_Item M_Mount M_Fuse
  Spec_Stream Spec_Load Spec_Open Spec_Tree Spec_Fuse L_Base L_Load L_Load2 L_Stream L_Tree L_Tree2 L_Tree3 L_Open L_Open2 L_Session L_Stream2 L_Item Spec_Item Spec_Mount L_Mount L_Fuse.
Import ListNotations.
Open Scope Z_scope.

Definition time_ok (d : dirent) : Prop :=
  0 <= de_mtime d < 18446744073709551616 /\ 0 <= de_ctime d < 18446744073709551616.

Lemma fields_times e l B n : Forall is_byte B -> zlen B = 128 * Z.of_nat n ->
  map fields_of l = slots_entries e B n -> Forall time_ok l.
Proof.
  intros HB Hl H. apply Forall_forall. intros d Hd.
  assert (Hf : In (fields_of d) (slots_entries e B n)) by (rewrite <- H; now apply in_map).
  apply slots_entries_In in Hf as (k & Hk & _ & Hf).
  assert (Hm : de_mtime d = value_at e (slot_of B k) 108 8) by (exact (f_equal ef_mtime Hf)).
  assert (Hc : de_ctime d = value_at e (slot_of B k) 100 8) by (exact (f_equal ef_ctime Hf)).
  unfold time_ok. rewrite Hm, Hc.
  assert (Hsl : zlen (slot_of B k) = 128) by (unfold slot_of; rewrite zlen_slice by lia; reflexivity).
  split.
  - apply (value_at_range e (slot_of B k) 108 8); try lia. apply Forall_slice; auto.
  - apply (value_at_range e (slot_of B k) 100 8); try lia. apply Forall_slice; auto.
Qed.

Lemma opened_item_times u rd o t tr k d : una_ok u -> io_bytes rd -> open_read u rd [] = (Ok o, t) ->
  o_tree o = Some tr -> item_entry tr k d -> Forall time_ok (o_entries o) -> time_ok d.
Proof.
  intros Hu HB HO Ht Hk HT. destruct (opened_made u rd Hu HB o t HO tr Ht) as (root & HMade).
  apply (proj1 (Forall_forall _ _) HT). apply (made_incl u _ _ root tr HMade).
  destruct Hk as (n & Hn & <-). unfold tree_entries. apply in_map. eapply nth_error_In; eauto.
Qed.

Lemma directory_times rd e ss sat first t l t' : io_bytes rd -> 128 <= ss <= 32768 -> ss = 128 * (ss / 128) ->
  directory_outcome rd e ss sat first t l t' -> Forall time_ok l.
Proof.
  intros HB Hss Hm (ids & secs & last & _ & H2 & _ & _ & Hlen & _ & _ & _ & _ & H).
  destruct (delivered_concat _ _ _ _ HB H2) as [Hb Hz].
  assert (0 <= ss / 128) by (apply Z.div_pos; lia).
  apply (fields_times e l (concat secs) (length ids * Z.to_nat (ss / 128))); auto.
  rewrite Hz. unfold zlen. rewrite Nat2Z.inj_mul, Z2Nat.id by lia. nia.
Qed.

Lemma opened_times u rd o t : una_ok u -> io_bytes rd -> open_read u rd [] = (Ok o, t) -> Forall time_ok (o_entries o).
Proof.
  intros Hu HB HO.
  destruct (opened_outcome u rd Hu HB o t HO) as (data & e & _ & _ & Hb & Ha & _ & _ & H1 & H2 & t1 & t2 & t3 & _ & _ & _ & HD & _).
  eapply directory_times; eauto.
Qed.

Lemma opened_entry_ok u rd o t tr k d : una_ok u -> io_bytes rd -> open_read u rd [] = (Ok o, t) ->
  o_tree o = Some tr -> item_entry tr k d -> entry_ok d.
Proof.
  intros Hu HB HO Ht Hk. destruct (opened_made u rd Hu HB o t HO tr Ht) as (root & HMade).
  destruct (opened_entries u rd Hu HB o t HO) as (_ & Hd & _). pose proof (opened_times u rd o t Hu HB HO) as HT.
  assert (Hin : In d (o_entries o)).
  { apply (made_incl u _ _ root tr HMade). destruct Hk as (n & Hn & <-). unfold tree_entries. apply in_map. eapply nth_error_In; eauto. }
  split; [exact (do_size d (proj1 (Forall_forall _ _) Hd d Hin))|exact (proj1 (proj1 (Forall_forall _ _) HT d Hin))].
Qed.

(** * No callback is undefined *)
Section Mount.
Variable m : mounted.
Variable o : opened.
Variable rd0 : reader.
Variable t0 : trace.
Hypothesis HO : mount_of m o rd0 t0.
Variable tr : tree.
Hypothesis Ht : o_tree o = Some tr.

Lemma is_mount_ok : mount_ok m.
Proof. exact (proj1 HO). Qed.

Lemma tree_is : mt_tree m = Some tr.
Proof. destruct HO as (_ & _ & _ & _ & _ & E). congruence. Qed.

Lemma entries_in_range k d : item_entry tr k d -> entry_ok d.
Proof. destruct HO as (_ & Hu & HB & H & _ & _). intros Hk. eapply opened_entry_ok; eauto. Qed.

Lemma volume_in_range : volume_ok (mt_volume m).
Proof. destruct HO as (_ & Hu & HB & H & -> & _). eapply opened_volume_ok; eauto. Qed.

Lemma item_dirent k d : item_entry tr k d -> dirent_ok d.
Proof.
  destruct HO as (_ & Hu & HB & H & _ & _). intros Hk. destruct (opened_made _ rd0 Hu HB o t0 H tr Ht) as (root & HMa).
  destruct (opened_entries _ rd0 Hu HB o t0 H) as (_ & Hd & _).
  apply (proj1 (Forall_forall _ _) Hd). apply (made_incl _ _ _ root tr HMa).
  destruct Hk as (n & Hn & <-). unfold tree_entries. apply in_map. eapply nth_error_In; eauto.
Qed.

Lemma item_by_path_defined p :
  defined (mount_item_by_path (mt_una m) (mt_codec m) (v_byte_order (mt_volume m)) (mt_tree m) p) /\
  forall k, mount_item_by_path (mt_una m) (mt_codec m) (v_byte_order (mt_volume m)) (mt_tree m) p = Ok (Some k) ->
    valid_item tr k.
Proof.
  unfold mount_item_by_path. rewrite tree_is. destruct (to_safe (mt_codec m) p (mo_codec m is_mount_ok)) as [Hd _].
  destruct (copy_to_item_path (mt_codec m) p) as [[ip sz]| | |]; cbn [rbind] in *; [|split; [exact I|discriminate]|destruct Hd..].
  destruct HO as (_ & Hu & HB & H & Ev & _).
  destruct (opened_root _ rd0 Hu HB o t0 H tr Ht) as (root & _ & Hr & _).
  assert (Hc : char_ok (una_utf8_char (mt_una m))) by (rewrite (mo_char m is_mount_ok); exact (co_decode _ (mo_codec m is_mount_ok))).
  pose proof (utf8_path_defined _ rd0 Hu HB o t0 H tr 0%nat (c_string ip) Ht (ex_intro _ root Hr) Hc) as HP.
  rewrite Ev. exact HP.
Qed.

Lemma last_slash_range p n : (Z.of_nat n <= zlen p) -> exists i, last_slash p n = Ok i /\ 0 <= i <= Z.of_nat n.
Proof.
  induction n as [|n IH]; intros Hn; cbn [last_slash]; [exists 0; split; [reflexivity|lia]|].
  destruct (arr_get_in (p ++ [0]) (Z.of_nat (S n))) as (c & ->); [rewrite zlen_app'; change (zlen [0]) with 1; lia|].
  cbn [rbind]. destruct (c =? SLASH); [eexists; split; [reflexivity|lia]|].
  destruct IH as (i & -> & Hi); [lia|]. exists i. split; [reflexivity|lia].
Qed.

Lemma entry_by_path_defined p : defined (entry_by_path m p) /\
  forall f, entry_by_path m p = Ok (Some f) -> valid_item tr (fe_node f) /\ fe_cursor f = 0.
Proof.
  unfold entry_by_path. destruct (zlen p =? 0) eqn:E0; [split; [exact I|discriminate]|]. apply Z.eqb_neq in E0.
  pose proof (zlen_pos p).
  destruct (arr_get_in p (zlen p - 1)) as (c & ->); [lia|]. cbn [rbind].
  set (len := if (2 <=? zlen p) && (c =? SLASH) then zlen p - 1 else zlen p).
  assert (Hlen : 0 <= len <= zlen p) by (unfold len; destruct ((2 <=? zlen p) && (c =? SLASH)); lia). clearbody len.
  destruct (last_slash_range p (Z.to_nat len)) as (i & -> & Hi); [lia|]. cbn [rbind].
  destruct (item_by_path_defined (slice p 0 len)) as [Hd Hk].
  destruct (mount_item_by_path _ _ _ _ (slice p 0 len)) as [[k|]| | |]; cbn [rbind] in *;
    try (split; [exact I|discriminate]); [|destruct Hd..].
  destruct (SSIZE_MAX - 1 <? u64 (len - (i + 1))) eqn:E1; [split; [exact I|discriminate]|]. apply Z.ltb_ge in E1.
  destruct (zlen p + 1 <? i + 1 + u64 (len - (i + 1))) eqn:E2; [exfalso; apply Z.ltb_lt in E2|].
  - rewrite Z2Nat.id in Hi by lia. unfold u64, SSIZE_MAX in *. destruct (Z.eq_dec i len) as [->|].
    + replace (len - (len + 1)) with (-1) in E1 by lia. change (-1 mod 18446744073709551616) with 18446744073709551615 in E1. lia.
    + pose proof (Z.mod_le (len - (i + 1)) 18446744073709551616). lia.
  - split; [exact I|]. intros f [= <-]. split; [exact (Hk k eq_refl)|reflexivity].
Qed.

Hypothesis HF : forall k d, item_entry tr k d -> fits (unix_time (de_mtime d)).

Lemma stat_defined k : valid_item tr k -> exists s, entry_stat m k = Ok s.
Proof.
  intros (d & Hk). destruct (entry_stat_fits m tr is_mount_ok tree_is entries_in_range k d Hk (HF k d Hk)) as (s & Es & _). eauto.
Qed.

Lemma getattr_defined p : fuse_getattr m p <> Undefined.
Proof.
  unfold fuse_getattr. destruct (entry_by_path_defined p) as [Hd Hk].
  destruct (entry_by_path m p) as [[f|]| | |]; try discriminate; try destruct Hd.
  destruct (stat_defined (fe_node f)) as (s & ->); [apply Hk; reflexivity|discriminate].
Qed.

Lemma file_name_defined k : valid_item tr k -> defined (item_file_name m k).
Proof.
  intros (d & Hk). unfold item_file_name, entry_value. rewrite tree_is, (proj2 (node_value_entry tr k d) Hk). cbn [rbind].
  destruct (mt_name m (de_name d) _) as [n|]; [|exact I]. unfold mount_file_name.
  destruct (from_safe (mt_codec m) n (mo_codec m is_mount_ok)) as [Hd _].
  destruct (copy_from_item_path (mt_codec m) n) as [[f sz]| | |]; cbn [rbind] in *; try exact I; destruct Hd.
Qed.

Lemma filldir_defined accept name s l : defined s -> defined (filldir accept name s l).
Proof.
  intros H. unfold filldir. destruct s; cbn [rbind] in *; try exact I; try destruct H.
  destruct (accept (length l)); exact I.
Qed.

Lemma loop_defined accept f nd : nth_error (tr_nodes tr) (fe_node f) = Some nd ->
  forall n i l, Z.of_nat n + i = zlen (n_subs nd) -> 0 <= i -> defined (fst (readdir_loop n m accept f i l)).
Proof.
  intros Hn. induction n as [|n IH]; intros i l Hi H0; cbn [readdir_loop]; [exact I|].
  unfold sub_entry. rewrite tree_is. unfold get_sub_item, sub_nodes. rewrite Hn. cbn [rbind].
  destruct (znth_some (n_subs nd) i) as (j & Hj); [lia|]. rewrite Hj. cbn [rbind].
  assert (Hv : valid_item tr j).
  { destruct HO as (_ & Hu & HB & H & _ & _).
    pose proof (opened_subs_valid _ rd0 Hu HB o t0 H tr (fe_node f) nd Ht Hn) as HS.
    exact (Forall_znth _ _ _ _ HS Hj). }
  pose proof (file_name_defined j Hv) as Hd.
  destruct (item_file_name m j) as [name| | |]; cbn [rbind] in *; [|exact I|destruct Hd..].
  destruct (stat_defined j Hv) as (s & Es). cbn [fe_name fe_node]. rewrite Es. unfold filldir. cbn [rbind].
  destruct (accept (length l)); [|exact I]. apply IH; lia.
Qed.

Lemma readdir_defined accept f : valid_item tr (fe_node f) -> fst (fuse_readdir m accept f) <> Undefined.
Proof.
  intros Hv. unfold fuse_readdir, number_of_sub_entries. destruct (stat_defined _ Hv) as (s & ->).
  unfold filldir at 1. cbn [rbind]. destruct (accept (length (@nil (list Z * stat)))); [|discriminate].
  cbn [app]. unfold filldir, set_stat_info. change (9223372036854775807 <? 0) with false. cbn [rbind].
  destruct (accept _); [|discriminate]. cbn [app]. rewrite tree_is.
  destruct Hv as (d & nd & Hn & _). unfold get_number_of_sub_items, sub_nodes. rewrite Hn. cbn [rbind].
  match goal with |- context [readdir_loop ?n m accept f 0 ?l] =>
    pose proof (loop_defined accept f nd Hn n 0 l) as HL; destruct (readdir_loop n m accept f 0 l) as [r l'] end.
  specialize (HL ltac:(pose proof (zlen_pos (n_subs nd)); lia) ltac:(lia)).
  cbn [fst] in *. destruct r; cbn in *; try discriminate; destruct HL.
Qed.

Lemma read_defined rd f size offset : valid_item tr (fe_node f) -> 0 <= size ->
  (4 <= v_short_sector_size (mt_volume m) \/ size <= 1073741824) -> fst (fuse_read rd m f size offset) <> Undefined.
Proof.
  intros (d & Hd) Hs Hf. destruct (fuse_read_other m tr tree_is rd f d size offset Hd) as (_ & _ & H).
  apply H; auto.
  - exact volume_in_range.
  - exact (item_dirent _ _ Hd).
  - destruct Hf as [Hf|Hf]; [left|right; exact Hf]. unfold stream_sector_size.
    destruct (is_short (mt_volume m) d); [exact Hf|].
    destruct (vo_ss _ volume_in_range) as (a & Ha & ->). pose proof (Z.pow_le_mono_r 2 7 a ltac:(lia) ltac:(lia)). change (2 ^ 7) with 128 in *. lia.
Qed.

Definition handles_ok (s : fuse_state) : Prop :=
  forall k f, nth_error (fu_handles s) k = Some (Some f) -> valid_item tr (fe_node f).

Lemma open_handle_ok path s : handles_ok s ->
  fst (open_handle m path s) <> RUndef /\ handles_ok (snd (open_handle m path s)).
Proof.
  intros Hs. unfold open_handle, fuse_entry. destruct (entry_by_path_defined path) as [Hd Hk].
  destruct (entry_by_path m path) as [[f|]| | |]; cbn [fst snd]; try (split; [discriminate|exact Hs]); [|destruct Hd..].
  split; [discriminate|]. intros k g Hg. cbn [fu_handles] in Hg.
  destruct (lt_dec k (length (fu_handles s))) as [L|L].
  - rewrite nth_error_app1 in Hg by exact L. exact (Hs k g Hg).
  - rewrite nth_error_app2 in Hg by lia. destruct (k - length (fu_handles s))%nat as [|x]; cbn in Hg; [|destruct x; discriminate].
    injection Hg as <-. apply Hk. reflexivity.
Qed.

Lemma set_none_ok s h live : handles_ok s -> (h < length (fu_handles s))%nat ->
  handles_ok {| fu_handles := set_handle (fu_handles s) h None; fu_live := live |}.
Proof.
  intros Hs Hh k g Hg. cbn [fu_handles] in Hg. rewrite set_handle_nth in Hg by exact Hh.
  destruct (Nat.eq_dec k h); [discriminate|]. exact (Hs k g Hg).
Qed.

Lemma step_defined rd op h s : handles_ok s -> proper m ((rd, op) :: h) s ->
  fst (fuse_step rd m op s) <> RUndef /\ handles_ok (snd (fuse_step rd m op s)).
Proof.
  intros Hs [Hop _]. destruct op as [path|path flags|k size offset|k|path|k accept|k]; cbn [fuse_step].
  - split; [|exact Hs]. cbn [fst]. pose proof (getattr_defined path). destruct (fuse_getattr m path); congruence.
  - destruct (negb (Z.land flags 3 =? 0)); [split; [discriminate|exact Hs]|]. apply open_handle_ok, Hs.
  - destruct Hop as (Hk & Hsz & Hf). destruct (INT_MAX <? size); [split; [discriminate|exact Hs]|].
    destruct (nth_error (fu_handles s) k) as [[f|]|] eqn:E;
      [|split; [discriminate|exact Hs]|apply nth_error_None in E; lia].
    pose proof (read_defined rd f size offset (Hs k f E) Hsz Hf) as HR.
    pose proof (fuse_read_node m rd f size offset) as [HN _].
    destruct (fuse_read rd m f size offset) as [r f']. cbn [fst snd] in *. split; [destruct r; congruence|].
    intros j g Hg. cbn [fu_handles] in Hg. rewrite set_handle_nth in Hg by exact Hk.
    destruct (Nat.eq_dec j k); [|exact (Hs j g Hg)]. injection Hg as <-. rewrite HN. exact (Hs k f E).
  - destruct (nth_error (fu_handles s) k) as [[f|]|] eqn:E;
      [split; [discriminate|apply set_none_ok; auto]|split; [discriminate|exact Hs]|apply nth_error_None in E; lia].
  - apply open_handle_ok, Hs.
  - destruct (nth_error (fu_handles s) k) as [[f|]|] eqn:E;
      [|split; [discriminate|exact Hs]|apply nth_error_None in E; lia].
    split; [|exact Hs]. cbn [fst]. pose proof (readdir_defined accept f (Hs k f E)) as HR.
    destruct (fuse_readdir m accept f) as [[]]; cbn [fst] in *; congruence.
  - destruct (nth_error (fu_handles s) k) as [f|] eqn:E; [|apply nth_error_None in E; lia].
    split; [discriminate|apply set_none_ok; auto].
Qed.

Lemma run_defined h : forall s rs s', handles_ok s -> proper m h s -> fuse_run m h s = (rs, s') ->
  ~ In RUndef rs.
Proof.
  induction h as [|[rd op] h IH]; intros s rs s' Hs HP H; cbn [fuse_run] in H.
  - apply pair_equal_spec in H as [<- _]. intros [].
  - destruct (step_defined rd op h s Hs HP) as [H1 H2].
    destruct (fuse_step rd m op s) as [r s1] eqn:E1. destruct (fuse_run m h s1) as [rs2 s2] eqn:E2.
    apply pair_equal_spec in H as [<- _]. cbn [fst snd] in *. destruct HP as [_ HP]. rewrite E1 in HP. cbn [snd] in HP.
    intros [E|Hin]; [congruence|]. exact (IH s1 rs2 s2 H2 HP E2 Hin).
Qed.

Lemma start_ok : handles_ok fuse_start.
Proof. intros k f H. destruct k; discriminate. Qed.
End Mount.
