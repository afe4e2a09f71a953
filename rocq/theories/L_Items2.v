(** Lemmas on the program that walks over a file that holds a document. *)
From Coq Require Import ZArith List Bool Lia Arith.
From Verif Require Import Base Spec_IO M_Header M_Table M_Load M_Stream M_Tree M_Open M_Item M_File M_Time M_Python M_Items
  Spec_Stream Spec_Load Spec_Open Spec_Tree Spec_Item Spec_File Spec_Python Spec_Content Spec_Write Spec_Items
  L_Base L_Stream L_Stream2 L_Stream3 L_Tree L_Tree2 L_Tree3 L_Open L_Open2 L_Item L_Session L_File L_Python L_Fuse2 L_Write3 L_Write4 L_Write6 L_Write7 Spec_Stores L_Stores2 Spec_Doc L_Doc L_Items.
Import ListNotations.
Open Scope Z_scope.

Section Walk.
Variable en : pyenv.
Variable ev : env.
Variable text : list Z -> list Z.
Hypothesis Hhost : pe_host en = Little.
Variable v : volume.
Variable t : tree.

Definition at_work (w : pyworld) : Prop := live_tree w (pw_closed w) = Some (v, t).

Definition names_readable (x : forest) : Prop := names_ok (readable_name en (v_byte_order v) text) x.
Definition short_streams (x : forest) : Prop := Forall (fun s => zlen s <= INT_MAX /\ few v (zlen s)) (streams x).

Lemma class_of d s : pe_text en (de_name d) (v_byte_order v) = Ok s -> exists c,
  item_type_object en (v_byte_order v) d = Ok c /\ (de_type d = 2 -> c <> ClassItem) /\ (de_type d <> 2 -> c = ClassItem).
Proof.
  intros Hs. unfold item_type_object, TYPE_STREAM. destruct (de_type d =? 2) eqn:E; [apply Z.eqb_eq in E|apply Z.eqb_neq in E].
  - rewrite Hs. cbn [rbind].
    destruct (zlen s + 1 =? 20); [destruct (narrow_equal _ _ _)|destruct (zlen s + 1 =? 28); [destruct (narrow_equal _ _ _)|]];
      eexists; (split; [reflexivity|]); split; intros; congruence.
  - exists ClassItem. split; [reflexivity|]. split; intros; congruence.
Qed.

(** What a step of the walk leaves. *)
Definition kept (j : nat) (w w' : pyworld) : Prop :=
  pw_state w' = pw_state w /\ pw_closed w' = pw_closed w /\ (length (pw_objects w) <= length (pw_objects w'))%nat /\
  forall i, (i < length (pw_objects w))%nat -> i <> j -> nth_error (pw_objects w') i = nth_error (pw_objects w) i.

Lemma kept_work j w w' : kept j w w' -> at_work w -> at_work w'.
Proof. intros (E1 & E2 & _) H. unfold at_work, live_tree in *. rewrite E1, E2. exact H. Qed.

Lemma next_sub w j k nd pre jn js : at_work w -> nth_error (tr_nodes t) k = Some nd -> n_subs nd = pre ++ jn :: js ->
  nth_error (pw_objects w) j = Some (OSequence (pw_closed w) k (zlen pre) (zlen (n_subs nd))) ->
  forall ndn s, nth_error (tr_nodes t) jn = Some ndn -> pe_text en (de_name (n_entry ndn)) (v_byte_order v) = Ok s ->
  exists c, (de_type (n_entry ndn) = 2 -> c <> ClassItem) /\ (de_type (n_entry ndn) <> 2 -> c = ClassItem) /\
    py_step en ev w (OnSequence j CallNext) =
    (AObject (length (pw_objects w)),
     set_objects w (replace_nth j (OSequence (pw_closed w) k (zlen (pre ++ [jn])) (zlen (n_subs nd)))
                      (pw_objects w ++ [OItem (pw_closed w) c jn 0]))).
Proof.
  intros Hw Hk Hs Hj ndn s Hn Ht. destruct (class_of (n_entry ndn) s Ht) as (c & Ec & Hc1 & Hc2). exists c.
  split; [exact Hc1|]. split; [exact Hc2|]. cbn [py_step]. rewrite Hj. cbn [sequence_step].
  pose proof (zlen_nonneg pre). pose proof (zlen_nonneg js).
  assert (El : zlen (n_subs nd) = zlen pre + 1 + zlen js) by (rewrite Hs, zlen_app, zlen_cons; lia).
  replace (zlen pre <? 0) with false by lia. replace (zlen (n_subs nd) <? 0) with false by lia.
  replace (zlen (n_subs nd) <=? zlen pre) with false by lia.
  unfold sub_item_by_index. rewrite Hw. unfold get_sub_item, sub_nodes. rewrite Hk. cbn [rbind].
  assert (Ez : znth (n_subs nd) (zlen pre) = Some jn) by (rewrite Hs, znth_app_r by lia; rewrite Z.sub_diag; reflexivity).
  rewrite Ez. unfold new_sub_item, node_value. rewrite Hn, Ec. cbn [add_object]. rewrite zlen_app. reflexivity.
Qed.

Lemma name_call w i c k cursor nd s : at_work w -> nth_error (pw_objects w) i = Some (OItem (pw_closed w) c k cursor) ->
  nth_error (tr_nodes t) k = Some nd -> pe_text en (de_name (n_entry nd)) (v_byte_order v) = Ok s -> pe_decodes en s = true ->
  py_step en ev w (OnItem i CallName) = (AText s, w).
Proof.
  intros Hw Hi Hk Ht Hd. cbn [py_step]. rewrite Hi. unfold item_step_py. rewrite Hw. unfold node_value. rewrite Hk, Ht, Hd. reflexivity.
Qed.

Lemma ctime_call w i c k cursor nd : at_work w -> nth_error (pw_objects w) i = Some (OItem (pw_closed w) c k cursor) ->
  nth_error (tr_nodes t) k = Some nd -> 0 <= de_ctime (n_entry nd) < 2 ^ 64 ->
  py_step en ev w (OnItem i CallCreationInteger) = (ANumber (de_ctime (n_entry nd)), w).
Proof.
  intros Hw Hi Hk Hr. cbn [py_step]. rewrite Hi. unfold item_step_py. rewrite Hw. unfold node_value. rewrite Hk.
  rewrite unsigned_new_eq by exact Hr. reflexivity.
Qed.

Lemma mtime_call w i c k cursor nd : at_work w -> nth_error (pw_objects w) i = Some (OItem (pw_closed w) c k cursor) ->
  nth_error (tr_nodes t) k = Some nd -> 0 <= de_mtime (n_entry nd) < 2 ^ 64 ->
  py_step en ev w (OnItem i CallModificationInteger) = (ANumber (de_mtime (n_entry nd)), w).
Proof.
  intros Hw Hi Hk Hr. cbn [py_step]. rewrite Hi. unfold item_step_py. rewrite Hw. unfold node_value. rewrite Hk.
  rewrite unsigned_new_eq by exact Hr. reflexivity.
Qed.

Lemma read_call w i c k nd s : at_work w -> nth_error (pw_objects w) i = Some (OItem (pw_closed w) c k 0) -> c <> ClassItem ->
  nth_error (tr_nodes t) k = Some nd -> is_readable_stream (ev_reader ev) v (n_entry nd) s -> zlen s <= INT_MAX -> few v (zlen s) ->
  exists c', py_step en ev w (OnItem i (CallStream (PyRead None))) = (ABytes s, set_object w i (OItem (pw_closed w) c k c')).
Proof.
  intros Hw Hi Hc Hk HR Hm Hf. cbn [py_step]. rewrite Hi. unfold item_step_py. rewrite Hw. unfold node_value. rewrite Hk, Hhost.
  pose proof HR as (_ & HD & _ & _ & _ & f & _ & _ & Hty & Hlen & _).
  rewrite (py_step_eq v (n_entry nd) s Hty Hlen HD (ev_reader ev) (PyRead None) 0 HR ltac:(lia) Hf).
  cbn [stream_does asked]. unfold deliver. pose proof (zlen_nonneg s).
  rewrite slice_all. unfold INT_MAX in Hm. replace (2147483647 <? zlen s) with false by lia. cbv iota.
  eexists. destruct c; [congruence|reflexivity..].
Qed.

Lemma read_storage w i k cursor nd : at_work w -> nth_error (pw_objects w) i = Some (OItem (pw_closed w) ClassItem k cursor) ->
  nth_error (tr_nodes t) k = Some nd ->
  py_step en ev w (OnItem i (CallStream (PyRead None))) = (ARaise AttributeError, w).
Proof.
  intros Hw Hi Hk. cbn [py_step]. rewrite Hi. unfold item_step_py. rewrite Hw. unfold node_value. rewrite Hk. reflexivity.
Qed.

Lemma sub_items_call w i c k cursor nd : at_work w -> nth_error (pw_objects w) i = Some (OItem (pw_closed w) c k cursor) ->
  nth_error (tr_nodes t) k = Some nd ->
  py_step en ev w (OnItem i CallSubItems) =
  (AObject (length (pw_objects w)), set_objects w (pw_objects w ++ [OSequence (pw_closed w) k 0 (zlen (n_subs nd))])).
Proof.
  intros Hw Hi Hk. cbn [py_step]. rewrite Hi. unfold item_step_py. rewrite Hw. unfold node_value, get_number_of_sub_items, sub_nodes. rewrite Hk. reflexivity.
Qed.

Lemma stop_call w j k n : nth_error (pw_objects w) j = Some (OSequence (pw_closed w) k n n) -> 0 <= n ->
  py_step en ev w (OnSequence j CallNext) = (ARaise StopIteration, w).
Proof.
  intros Hj Hn. cbn [py_step]. rewrite Hj. cbn [sequence_step]. replace (n <? 0) with false by lia. rewrite Z.leb_refl. reflexivity.
Qed.

Lemma replace_nth_app l x j y : (j < length l)%nat -> replace_nth j y (l ++ [x]) = replace_nth j y l ++ [x].
Proof. revert j; induction l as [|z l IH]; intros [|j] H; cbn in *; try lia; [reflexivity|]. f_equal. apply IH. lia. Qed.

Theorem walk_shows fuel : forall js x, Spec_Write.shows (ev_reader ev) v t js x ->
  names_readable x -> times_ok x -> short_streams x -> (item_count x < fuel)%nat ->
  forall w j k nd pre, at_work w -> nth_error (tr_nodes t) k = Some nd -> n_subs nd = pre ++ js ->
    nth_error (pw_objects w) j = Some (OSequence (pw_closed w) k (zlen pre) (zlen (n_subs nd))) ->
    exists w', walk en ev fuel j w = (Some (named_as text x), w') /\ kept j w w'.
Proof.
  induction fuel as [|fuel IH]; intros js x HS Hn Ht Hst Hf; [lia|].
  intros w j k nd pre Hw Hk Hs Hj.
  assert (Hjl : (j < length (pw_objects w))%nat) by (apply nth_error_Some; congruence).
  destruct HS as [|jn js ndn n c m s r Hjn Hsub Hty En Ec Em HR HS|jn js ndn n c m a r Hjn Ha Hty En Ec Em HS].
  - cbn [walk named_as]. rewrite app_nil_r in Hs. rewrite Hs in Hj.
    rewrite (stop_call w j k (zlen pre) Hj (zlen_nonneg _)). exists w. split; [reflexivity|].
    split; [reflexivity|]. split; [reflexivity|]. split; [lia|auto].
  - destruct Hn as [[Hn1 Hn2] Hn3]. destruct Ht as (Tc & Tm & Ht). inversion Hst as [|? ? [S1 S2] Hst']; subst.
    destruct (next_sub w j k nd pre jn js Hw Hk Hs Hj ndn _ Hjn Hn1) as (cl & Hc1 & _ & Enext).
    specialize (Hc1 Hty). cbn [walk named_as]. rewrite Enext.
    set (x := length (pw_objects w)).
    rewrite replace_nth_app by exact Hjl.
    set (l1 := replace_nth j (OSequence (pw_closed w) k (zlen (pre ++ [jn])) (zlen (n_subs nd))) (pw_objects w)).
    assert (Hl1 : length l1 = x) by (apply replace_nth_length).
    set (w1 := set_objects w (l1 ++ [OItem (pw_closed w) cl jn 0])).
    assert (Hw1 : at_work w1) by exact Hw.
    assert (Hx : nth_error (pw_objects w1) x = Some (OItem (pw_closed w1) cl jn 0)).
    { cbn. rewrite nth_error_app2 by lia. rewrite Hl1, Nat.sub_diag. reflexivity. }
    rewrite (name_call w1 x cl jn 0 ndn _ Hw1 Hx Hjn Hn1 Hn2).
    rewrite (ctime_call w1 x cl jn 0 ndn Hw1 Hx Hjn Tc).
    rewrite (mtime_call w1 x cl jn 0 ndn Hw1 Hx Hjn Tm). cbn [text_of number_of].
    destruct (read_call w1 x cl jn ndn s Hw1 Hx Hc1 Hjn HR S1 S2) as (c' & Er). rewrite Er.
    set (w5 := set_object w1 x (OItem (pw_closed w1) cl jn c')).
    assert (Hw5 : at_work w5) by exact Hw.
    assert (Hj5 : nth_error (pw_objects w5) j = Some (OSequence (pw_closed w5) k (zlen (pre ++ [jn])) (zlen (n_subs nd)))).
    { unfold w5. cbn [set_object set_objects pw_objects pw_closed]. rewrite replace_nth_other by (unfold x; lia).
      cbn. apply nth_app_same. now apply replace_nth_at with (y := OSequence (pw_closed w) k (zlen pre) (zlen (n_subs nd))). }
    destruct (IH js r HS Hn3 Ht Hst' ltac:(cbn [item_count] in Hf; lia) w5 j k nd (pre ++ [jn]) Hw5 Hk ltac:(rewrite <- app_assoc; exact Hs) Hj5)
      as (w6 & E6 & K1 & K2 & K3 & K4).
    rewrite E6. exists w6. split; [reflexivity|].
    assert (H5l : length (pw_objects w5) = S x).
    { unfold w5, w1. cbn. rewrite replace_nth_length, app_length, Hl1. cbn. lia. }
    split; [exact K1|]. split; [exact K2|]. split; [fold x; lia|].
    intros i Hi Hij. rewrite K4 by (fold x in Hi; lia).
    unfold w5, w1. cbn [set_object set_objects pw_objects]. rewrite replace_nth_other by (unfold x; lia).
    rewrite nth_error_app1 by (rewrite Hl1; exact Hi). apply replace_nth_other. congruence.
  - destruct Hn as ([Hn1 Hn2] & Hn3 & Hn4). destruct Ht as (Tc & Tm & Ht1 & Ht2). unfold short_streams in Hst. cbn [streams] in Hst.
    apply Forall_app in Hst as [Hst1 Hst2]. subst n c m.
    destruct (next_sub w j k nd pre jn js Hw Hk Hs Hj ndn _ Hjn Hn1) as (cl & _ & Hc2 & Enext).
    rewrite Hc2 in Enext by (rewrite Hty; discriminate). clear cl Hc2. cbn [walk named_as]. rewrite Enext.
    set (x := length (pw_objects w)).
    rewrite replace_nth_app by exact Hjl.
    set (l1 := replace_nth j (OSequence (pw_closed w) k (zlen (pre ++ [jn])) (zlen (n_subs nd))) (pw_objects w)).
    assert (Hl1 : length l1 = x) by (apply replace_nth_length).
    set (w1 := set_objects w (l1 ++ [OItem (pw_closed w) ClassItem jn 0])).
    assert (Hw1 : at_work w1) by exact Hw.
    assert (Hx : nth_error (pw_objects w1) x = Some (OItem (pw_closed w1) ClassItem jn 0)).
    { cbn. rewrite nth_error_app2 by lia. rewrite Hl1, Nat.sub_diag. reflexivity. }
    rewrite (name_call w1 x ClassItem jn 0 ndn _ Hw1 Hx Hjn Hn1 Hn2).
    rewrite (ctime_call w1 x ClassItem jn 0 ndn Hw1 Hx Hjn Tc).
    rewrite (mtime_call w1 x ClassItem jn 0 ndn Hw1 Hx Hjn Tm). cbn [text_of number_of].
    rewrite (read_storage w1 x jn 0 ndn Hw1 Hx Hjn).
    rewrite (sub_items_call w1 x ClassItem jn 0 ndn Hw1 Hx Hjn).
    set (y := length (pw_objects w1)).
    assert (Hy : y = S x) by (unfold y, w1; cbn; rewrite app_length, Hl1; cbn; lia).
    set (w6 := set_objects w1 (pw_objects w1 ++ [OSequence (pw_closed w1) jn 0 (zlen (n_subs ndn))])).
    assert (Hw6 : at_work w6) by exact Hw.
    assert (Hy6 : nth_error (pw_objects w6) y = Some (OSequence (pw_closed w6) jn (zlen (@nil nat)) (zlen (n_subs ndn)))).
    { unfold w6. cbn [set_objects pw_objects pw_closed]. rewrite nth_error_app2 by (unfold y; lia). unfold y. rewrite Nat.sub_diag. reflexivity. }
    cbn [item_count] in Hf.
    destruct (IH (n_subs ndn) a Ha Hn3 Ht1 Hst1 ltac:(lia) w6 y jn ndn [] Hw6 Hjn eq_refl Hy6) as (w7 & E7 & K1 & K2 & K3 & K4).
    rewrite E7.
    assert (Hw7 : at_work w7) by (eapply kept_work; [split; [exact K1|split; [exact K2|split; [exact K3|exact K4]]]|exact Hw6]).
    assert (H6l : length (pw_objects w6) = S (S x)).
    { change (length (pw_objects w1 ++ [OSequence (pw_closed w1) jn 0 (zlen (n_subs ndn))]) = S (S x)).
      rewrite app_length. change (length (pw_objects w1)) with y. cbn [length]. lia. }
    assert (Hj7 : nth_error (pw_objects w7) j = Some (OSequence (pw_closed w7) k (zlen (pre ++ [jn])) (zlen (n_subs nd)))).
    { rewrite K4 by (fold x in Hjl; lia). rewrite K2. unfold w6. cbn [set_objects pw_objects pw_closed]. apply nth_app_same.
      unfold w1. cbn. apply nth_app_same. now apply replace_nth_at with (y := OSequence (pw_closed w) k (zlen pre) (zlen (n_subs nd))). }
    destruct (IH js r HS Hn4 Ht2 Hst2 ltac:(lia) w7 j k nd (pre ++ [jn]) Hw7 Hk ltac:(rewrite <- app_assoc; exact Hs) Hj7)
      as (w8 & E8 & L1 & L2 & L3 & L4).
    rewrite E8. exists w8. split; [reflexivity|].
    split; [rewrite L1, K1; reflexivity|]. split; [rewrite L2, K2; reflexivity|]. split; [fold x; lia|].
    intros i Hi Hij. fold x in Hi. rewrite L4 by lia. rewrite K4 by lia. unfold w6. cbn [set_objects pw_objects].
    rewrite nth_error_app1 by (fold y; lia). unfold w1. cbn [set_objects pw_objects].
    rewrite nth_error_app1 by lia. apply replace_nth_other. congruence.
Qed.
End Walk.

Lemma shows_times rd v t js fo : (forall k d, item_entry t k d -> time_ok d) -> Spec_Write.shows rd v t js fo -> times_ok fo.
Proof.
  intros HT H. change (2 ^ 64) with 18446744073709551616 in *.
  induction H as [|j js nd n c m s r H1 H2 H3 H4 H5 H6 H7 H8 IH|j js nd n c m a r H1 H2 IHa H3 H4 H5 H6 H7 IH]; cbn [times_ok]; [exact I| |].
  - destruct (HT j (n_entry nd)) as (A & B); [exists nd; auto|]. subst. auto.
  - destruct (HT j (n_entry nd)) as (A & B); [exists nd; auto|]. subst. auto.
Qed.

(** * A file with a document *)
Section Written.
Variable en : pyenv.
Variable ev : env.
Variable text : list Z -> list Z.
Variable h : file_header.
Variable root : dirent.
Variable doc : document.
Hypothesis Hen : pyenv_ok en.
Hypothesis Hhost : pe_host en = Little.
Hypothesis HH : holds (pe_una en) (ev_reader ev) h root doc.
Hypothesis HF : few_sectors h doc.
Hypothesis Hopen : ev_is_open ev = true.
Hypothesis HN : readable_name en (fh_byte_order h) text (doc_name doc).
Hypothesis HNs : names_ok (readable_name en (fh_byte_order h) text) (doc_items doc).
Hypothesis HL : Forall (fun s => zlen s <= INT_MAX) (streams (doc_items doc)).
Let HB : io_bytes (ev_reader ev) := hd_bytes _ _ _ _ _ HH.

Lemma object_open w : pinv en w -> fs_handle (pw_state w) = None ->
  forall o t, open_read (pe_una en) (ev_reader ev) [] = (Ok o, t) ->
  exists w', py_step en ev w (CallOpenObject None) = (ANone, w') /\ pinv en w' /\
    file_tree (pw_state w') = o_tree o /\ pw_objects w' = pw_objects w.
Proof.
  intros Hi Hh o t HO.
  pose proof (py_step_inv en Hen ev w (CallOpenObject None) Hi HB) as (Hi' & _).
  pose proof (pi_handle _ _ Hi) as Hph. rewrite Hh in Hph.
  pose proof (pi_file _ _ Hi) as Hf. unfold file_inv in Hf. rewrite Hh in Hf. destruct Hf as (F1 & F2 & F3).
  revert Hi'. cbn [py_step mode_accepted]. rewrite Hph.
  destruct (open_handle_cases (pe_una en) ev (set_open (pw_world w) (pw_next w) true) (pw_state w) (User (pw_next w)) 1 (po_una en Hen) HB Hh F1 F3)
    as [(io' & _ & w' & -> & _ & _ & Hbad & _)|(io' & o' & t' & w' & _ & _ & HO' & _ & _ & _ & -> & _)].
  - exfalso. destruct Hbad as ((t' & Hbad) & _); [|congruence].
    do 2 (split; [reflexivity|]). split; [exact Hopen|]. right. exists (pw_next w). split; [reflexivity|].
    unfold set_open. cbn. now rewrite Nat.eqb_refl.
  - intros Hi'. eexists. split; [reflexivity|]. split; [exact Hi'|].
    cbn. rewrite HO in HO'. injection HO' as <- _. auto.
Qed.

Lemma walk_document fuel w : pinv en w -> fs_handle (pw_state w) = None -> (item_count (doc_items doc) < fuel)%nat ->
  walk_file en ev fuel w =
  Some {| doc_name := text (doc_name doc); doc_ctime := doc_ctime doc; doc_mtime := doc_mtime doc;
          doc_items := named_as text (doc_items doc) |}.
Proof.
  intros Hi Hh Hfuel.
  destruct (holds_opens _ _ _ _ _ HH) as (o & t & tr & H1 & E1 & H2 & HI & _).
  destruct HI as (nd & E2 & (_ & E3n & E3c & E3m) & E4 & _). cbn [Spec_Doc.below] in E4.
  assert (HTm : forall k d, item_entry tr k d -> time_ok d).
  { intros k d Hd. eapply opened_item_times; eauto; [exact (po_una en Hen)|]. eapply opened_times; eauto. exact (po_una en Hen). }
  destruct (object_open w Hi Hh o t H1) as (w1 & Eo & Hi1 & Ht1 & Ho1).
  rewrite E1 in Ht1. destruct (live_tree_some en w1 (pw_closed w1) tr Hi1 eq_refl Ht1) as (v & Hw1).
  assert (Hv : v = opened_volume o).
  { destruct (live_opened _ _ _ (pi_file _ _ Hi1) Ht1) as (rd' & o' & tt & A1 & A2 & A3 & A4 & _).
    revert Eo. cbn [py_step mode_accepted]. pose proof (pi_handle _ _ Hi) as Hph. rewrite Hh in Hph. rewrite Hph.
    pose proof (pi_file _ _ Hi) as Hf. unfold file_inv in Hf. rewrite Hh in Hf. destruct Hf as (F1 & F2 & F3).
    destruct (open_handle_cases (pe_una en) ev (set_open (pw_world w) (pw_next w) true) (pw_state w) (User (pw_next w)) 1 (po_una en Hen) HB Hh F1 F3)
      as [(io' & _ & w' & -> & _)|(io' & o2 & t2 & w' & _ & Hsh & HO' & _ & _ & _ & -> & _)]; [intros X; discriminate X|].
    intros X. injection X as X. rewrite H1 in HO'. injection HO' as <- _.
    unfold live_tree in Hw1. rewrite Nat.eqb_refl, Ht1 in Hw1. subst w1. cbn [pw_state] in Hw1. unfold file_volume in Hw1. cbn [fs_data fs_io] in Hw1.
    destruct Hsh as (B1 & B2 & B3 & B4 & B5 & B6 & B7). rewrite B6, B3, B4, B5, (B7 tr E1) in Hw1. injection Hw1 as <-.
    unfold opened_volume. rewrite E1. reflexivity. }
  subst v. unfold walk_file. rewrite Eo. cbn [py_step]. rewrite Ht1. cbn [get_root_item new_file_item]. rewrite Ht1.
  assert (Env0 : node_value tr 0 = Ok (n_entry nd)) by (unfold node_value; rewrite E2; reflexivity).
  rewrite Env0. cbn [add_object].
  set (x := length (pw_objects w1)).
  set (w2 := set_objects w1 (pw_objects w1 ++ [OItem (pw_closed w1) (file_type_object (n_entry nd)) 0 0])).
  assert (Hw2 : at_work (opened_volume o) tr w2) by exact Hw1.
  assert (Hx : nth_error (pw_objects w2) x = Some (OItem (pw_closed w2) (file_type_object (n_entry nd)) 0 0)).
  { unfold w2. cbn [set_objects pw_objects pw_closed]. rewrite nth_error_app2 by (unfold x; lia). unfold x. rewrite Nat.sub_diag. reflexivity. }
  assert (Ebo : v_byte_order (opened_volume o) = fh_byte_order h) by (cbn [opened_volume v_byte_order]; rewrite H2; reflexivity).
  destruct HN as [N1 N2].
  destruct (HTm 0%nat (n_entry nd)) as (Tm & Tc); [exists nd; auto|]. rewrite E3c in Tc. rewrite E3m in Tm.
  pose proof (name_call en ev (opened_volume o) tr w2 x _ 0 0 nd (text (doc_name doc)) Hw2 Hx E2) as C1.
  rewrite Ebo, E3n in C1. specialize (C1 N1 N2).
  pose proof (ctime_call en ev (opened_volume o) tr w2 x _ 0 0 nd Hw2 Hx E2) as C2. rewrite E3c in C2. specialize (C2 Tc).
  pose proof (mtime_call en ev (opened_volume o) tr w2 x _ 0 0 nd Hw2 Hx E2) as C3. rewrite E3m in C3. specialize (C3 Tm).
  cbn [py_step] in C1, C2, C3. rewrite C1, C2, C3. cbn [text_of number_of].
  pose proof (sub_items_call en ev (opened_volume o) tr w2 x _ 0 0 nd Hw2 Hx E2) as C4. cbn [py_step] in C4. rewrite C4.
  set (w6 := set_objects w2 _). set (y := length (pw_objects w2)).
  destruct (walk_shows en ev text Hhost (opened_volume o) tr fuel (n_subs nd) (doc_items doc) E4) with (w := w6) (j := y) (k := 0%nat) (nd := nd) (pre := @nil nat)
    as (w7 & E7 & _).
  - unfold names_readable. rewrite Ebo. exact HNs.
  - exact (shows_times _ _ _ _ _ HTm E4).
  - apply Forall_forall. intros s Hs. split; [exact (proj1 (Forall_forall _ _) HL s Hs)|].
    destruct HF as [HF'|HF'].
    + left. cbn [opened_volume v_sector_size v_short_sector_size]. rewrite H2.
      split; [exact HF'|exact (holds_sector _ _ _ _ _ HH)].
    + right. exact (proj1 (Forall_forall _ _) HF' s Hs).
  - exact Hfuel.
  - exact Hw2.
  - exact E2.
  - reflexivity.
  - unfold w6. cbn [set_objects pw_objects pw_closed]. rewrite nth_error_app2 by (unfold y; lia). unfold y. rewrite Nat.sub_diag. reflexivity.
  - rewrite E7. reflexivity.
Qed.
End Written.

(** After a close call nothing is open. *)
Lemma closed_after en h ev0 : pyenv_ok en -> program_bytes (h ++ [(ev0, CallClose)]) ->
  let w := snd (py_run en (h ++ [(ev0, CallClose)]) py_start) in
  pinv en w /\ fs_handle (pw_state w) = None /\ pw_handle w = false.
Proof.
  intros Hen Hb w.
  assert (Hi : pinv en w) by (apply py_run_inv; auto; apply start_inv).
  assert (Hh : fs_handle (pw_state w) = None).
  { unfold w. rewrite py_run_app, py_run_one. cbn [snd py_step]. set (w0 := snd (py_run en h py_start)). unfold file_close.
    destruct (fs_handle (pw_state w0)) eqn:E; cbn; [reflexivity|exact E]. }
  split; [exact Hi|]. split; [exact Hh|]. pose proof (pi_handle _ _ Hi) as E. rewrite Hh in E. exact E.
Qed.
