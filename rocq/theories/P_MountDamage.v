(** C97: mounts of damaged documents. *)
From Coq Require Import ZArith List Bool Lia.
From Verif Require Import Base Spec_IO M_Header M_Table M_Load M_Stream M_Tree M_Open M_Item
  Spec_Stream Spec_Load Spec_Tree Spec_Open Spec_Content Spec_Item M_Mount M_WMount M_Fuse M_Dokan Spec_Mount Spec_WMount Spec_Fuse Spec_Dokan
  L_Base L_Load L_Header L_Open L_Open2 L_Export3 L_Info2 L_Info5 L_Stream2 L_Item L_Mount L_WMount L_Fuse L_Fuse2 L_Dokan L_Dokan2 P_Mount P_Fuse P_Dokan L_Stream3 L_Write4 L_Write6 L_Write7 X_File X_Mount X_WMount X_Fuse X_Dokan
  P_Write P_SetWrite L_Write3 P_Doc Spec_Write Spec_Stores Spec_Fault L_Fault L_Fault2 L_Fault3 P_Fault Spec_Requests L_Requests P_Requests
  Spec_Doc L_Doc Spec_DocMount L_DocMount P_DocMount Spec_DocDokan L_DocDokan P_DocDokan L_Careful Spec_MountDamage L_MountDamage.
Import ListNotations.
Open Scope Z_scope.

Lemma opened_sane m o rd t : una_ok (mt_una m) -> io_bytes rd -> open_read (mt_una m) rd [] = (Ok o, t) ->
  mt_volume m = opened_volume o -> mt_tree m = o_tree o -> sane m.
Proof.
  intros Hu HB HO Ev Et. split; [rewrite Ev; eapply opened_volume_ok; eauto|].
  intros k d (tr & n & H1 & H2 & H3). rewrite Et in H1. apply (opened_item_ok (mt_una m) rd o t tr k d Hu HB HO H1). exists n. auto.
Qed.

Lemma mount_sane m o rd t : mount_of m o rd t -> sane m.
Proof. intros (_ & H1 & H2 & H3 & H4 & H5). exact (opened_sane m o rd t H1 H2 H3 H4 H5). Qed.

Lemma wmount_sane m o rd t : wmount_of m o rd t -> sane m.
Proof. intros (_ & H1 & H2 & H3 & H4 & H5). exact (opened_sane m o rd t H1 H2 H3 H4 H5). Qed.

(** * Theorems *)

(** Any opened file, any callbacks in any order, on a medium of which parts
    cannot be read: all replies are those of a medium that can be read, but for
    reads that fail; and no entry is lost or freed that would not be. *)
Theorem C97_fuse :
  forall m o rd t f h h0 rs s rs0 s0,
    mount_of m o rd t -> two_media f h h0 ->
    fuse_run m h fuse_start = (rs, s) -> fuse_run m h0 fuse_start = (rs0, s0) ->
    length rs = length h /\ Forall2 (fun x r0 => as_read (fst x) (snd x) r0) (combine (map snd h) rs) rs0 /\
    fu_live s = fu_live s0.
Proof.
  intros m o rd t f h h0 rs s rs0 s0 HM H2 R R0.
  destruct (fuse_run_two m f (mount_sane _ _ _ _ HM) h h0 fuse_start fuse_start rs s rs0 s0 H2) as ((H3 & _) & H4 & H5); auto.
  split; [reflexivity|constructor].
Qed.
Print Assumptions C97_fuse.

Theorem C97_dokan :
  forall b m o rd t f h h0 rs s rs0 s0,
    wmount_of m o rd t -> two_media f h h0 ->
    dokan_run b m h dokan_start = (rs, s) -> dokan_run b m h0 dokan_start = (rs0, s0) ->
    length rs = length h /\ Forall2 (fun x r0 => was_read (fst x) (snd x) r0) (combine (map snd h) rs) rs0 /\
    dk_live s = dk_live s0.
Proof.
  intros b m o rd t f h h0 rs s rs0 s0 HM H2 R R0.
  destruct (dokan_run_two b m f (wmount_sane _ _ _ _ HM) h h0 dokan_start dokan_start rs s rs0 s0 H2) as ((H3 & _) & H4 & H5); auto.
  split; [reflexivity|]. intros k. exact I.
Qed.
Print Assumptions C97_dokan.

(** A read whose bytes are delivered has the same reply, whatever failed
    before. *)
Theorem C97_fuse_delivered :
  forall m o rd t f h h0 rs s rs0 s0 r r0 k size offset e d,
    mount_of m o rd t -> two_media f h h0 ->
    fuse_run m h fuse_start = (rs, s) -> fuse_run m h0 fuse_start = (rs0, s0) ->
    io_sound r f -> io_sound r0 f -> io_total r0 f ->
    nth_error (fu_handles s) k = Some (Some e) -> entry_at m (fe_node e) d ->
    short_ok (mt_volume m) d -> intact (mt_volume m) d -> 0 <= size -> delivers r (mt_volume m) d offset size ->
    fst (fuse_step r m (FuRead k size offset) s) = fst (fuse_step r0 m (FuRead k size offset) s0).
Proof.
  intros m o rd t f h h0 rs s rs0 s0 r r0 k size offset e d HM H2 R R0 HS HS0 HT0 Hk He Hsh Hi Hn HD.
  pose proof (mount_sane _ _ _ _ HM) as HSa.
  destruct (fuse_run_two m f HSa h h0 fuse_start fuse_start rs s rs0 s0 H2) as (H3 & _); auto. { split; [reflexivity|constructor]. }
  destruct (fuse_step r m _ s) as [x s1] eqn:E1. destruct (fuse_step r0 m _ s0) as [x0 s2] eqn:E2.
  destruct (fuse_step_two m f r r0 HSa HS HS0 HT0 _ s s0 x s1 x0 s2 H3 E1 E2) as (_ & _ & H4). exact (H4 k size offset e d eq_refl Hk He Hsh Hi Hn HD).
Qed.
Print Assumptions C97_fuse_delivered.

Theorem C97_dokan_delivered :
  forall b m o rd t f h h0 rs s rs0 s0 r r0 k size offset e d,
    wmount_of m o rd t -> two_media f h h0 ->
    dokan_run b m h dokan_start = (rs, s) -> dokan_run b m h0 dokan_start = (rs0, s0) ->
    io_sound r f -> io_sound r0 f -> io_total r0 f ->
    dk_contexts s k = Some e -> entry_at m (fe_node e) d ->
    short_ok (mt_volume m) d -> intact (mt_volume m) d -> 0 <= size -> delivers r (mt_volume m) d offset size ->
    fst (dokan_step r b m (DkRead k size offset) s) = fst (dokan_step r0 b m (DkRead k size offset) s0).
Proof.
  intros b m o rd t f h h0 rs s rs0 s0 r r0 k size offset e d HM H2 R R0 HS HS0 HT0 Hk He Hsh Hi Hn HD.
  pose proof (wmount_sane _ _ _ _ HM) as HSa.
  destruct (dokan_run_two b m f HSa h h0 dokan_start dokan_start rs s rs0 s0 H2) as (H3 & _); auto. { split; [reflexivity|]. intros j. exact I. }
  destruct (dokan_step r b m _ s) as [x s1] eqn:E1. destruct (dokan_step r0 b m _ s0) as [x0 s2] eqn:E2.
  destruct (dokan_step_two m f r r0 HSa HS HS0 HT0 b _ s s0 x s1 x0 s2 H3 E1 E2) as (_ & _ & H4). exact (H4 k size offset e d eq_refl Hk He Hsh Hi Hn HD).
Qed.
Print Assumptions C97_dokan_delivered.

(** A document whose tables could be read when it was mounted: C83 and C87
    hold of the mount, so its directories, files and their attributes are
    those of the document. *)
Theorem C97_mounts :
  forall m f h root doc chars rd rd0 o t,
    una_ok (mt_una m) -> stores (mt_una m) f h root doc -> doc_items doc <> Empty ->
    io_bytes rd -> io_sound rd f -> io_bytes rd0 -> io_sound rd0 f -> io_total rd0 f ->
    open_read (mt_una m) rd [] = (Ok o, t) -> tables_read rd f o -> mt_volume m = opened_volume o -> mt_tree m = o_tree o ->
    (mount_ok m ->
     names_ok (fun n => path_name (chars n) /\
       exists l, mt_name m n (fh_byte_order h) = Some l /\ text (mt_codec m) (chars n) l /\ zlen l <= 922337203685477580) (doc_items doc) ->
     (forall cs l, path_name cs -> text (mt_codec m) cs l ->
       names_ok (fun n => una_utf8_compare (mt_una m) l n (fh_byte_order h) = Ok (same_list cs (chars n))) (doc_items doc)) ->
     mounts m rd0 h root doc chars) /\
    (wmount_ok m ->
     names_ok (fun n => path_name (chars n) /\
       exists l, mt_name m n (fh_byte_order h) = Some l /\ text (mt_codec m) (chars n) l) (doc_items doc) ->
     (forall cs l, path_name cs -> text (mt_codec m) cs l ->
       names_ok (fun n => una_utf16_compare (mt_una m) l n (fh_byte_order h) = Ok (same_list cs (chars n))) (doc_items doc)) ->
     wmounts m rd0 h root doc chars).
Proof.
  intros m f h root doc chars rd rd0 o t Hu HF HE HB HS HB0 HS0 HT0 HO HR Hv Ht.
  pose proof (C88_same _ _ rd0 f o t Hu HB HS HS0 HT0 HO HR) as HO0.
  assert (HH : holds (mt_una m) rd0 h root doc) by (constructor; eauto).
  assert (HMm : forall o' t', open_read (mt_una m) rd0 [] = (Ok o', t') -> mt_volume m = opened_volume o' /\ mt_tree m = o_tree o').
  { intros o' t' H. assert (o' = o) by congruence. subst o'. auto. }
  split; intros H1 H2 H3; constructor; assumption.
Qed.
Print Assumptions C97_mounts.

Lemma item_at_entry m tr k d : mt_tree m = Some tr -> item_entry tr k d -> entry_at m k d.
Proof. intros Ht (n & H1 & H2). exists tr, n. auto. Qed.

Lemma read_damaged m tr rd rd0 f e d s size offset :
  sane m -> mt_tree m = Some tr -> item_entry tr (fe_node e) d -> is_readable_stream rd0 (mt_volume m) d s ->
  io_sound rd f -> io_sound rd0 f -> io_total rd0 f -> 0 <= fe_cursor e -> 0 <= offset -> 0 < size <= INT_MAX -> L_Stream2.few_sectors (mt_volume m) d size ->
  (fst (fuse_read rd m e size offset) = Done (slice s offset size) \/ fst (fuse_read rd m e size offset) = Fails EIO) /\
  (delivers rd (mt_volume m) d offset size -> fst (fuse_read rd m e size offset) = Done (slice s offset size)).
Proof.
  intros HSa Ht Hk HR HS HS0 HT0 Hc Ho Hs Hf. pose proof (fuse_read_full m tr Ht rd0 e d s size offset Hk HR Hc Ho Hs Hf) as HF.
  unfold fuse_read in *. destruct (INT_MAX <? size) eqn:E; [lia|].
  destruct (entry_read rd m e size offset) as [x e1] eqn:E1. destruct (entry_read rd0 m e size offset) as [x0 e2] eqn:E2.
  apply pair_equal_spec in HF as [HF _]. cbn [fst].
  destruct (entry_read_two m f rd rd0 HSa HS HS0 HT0 e e size offset x e1 x0 e2 (same_entry_refl e Hc) E1 E2) as (X1 & _ & X3).
  split.
  - destruct X1 as [->| ->]; [now right|left; exact HF].
  - intros HD. destruct HR as (_ & _ & R3 & _ & R5 & _). now rewrite (X3 d (item_at_entry _ _ _ _ Ht Hk) R3 R5 ltac:(lia) HD).
Qed.

Lemma skipn_skipn_add {A} (l : list A) : forall a b, skipn a (skipn b l) = skipn (a + b) l.
Proof.
  induction l as [|x l IH]; intros a b; [now rewrite !skipn_nil|]. destruct b as [|b]; [now rewrite Nat.add_0_r|].
  rewrite Nat.add_succ_r. cbn [skipn]. apply IH.
Qed.

Lemma cat_damaged m tr rd rd0 f d s size :
  mt_tree m = Some tr -> is_readable_stream rd0 (mt_volume m) d s -> io_sound rd f -> io_sound rd0 f -> io_total rd0 f -> 0 < size ->
  forall fuel e offset l, item_entry tr (fe_node e) d ->
    cat fuel (fun e o => fuse_read rd m e size o) e offset = Some l -> l = skipn (Z.to_nat offset) s.
Proof.
  intros Ht HR HS HS0 HT0 Hs. pose proof (readable_faulty rd rd0 f _ d s HS HS0 HT0 HR) as HR'.
  induction fuel as [|fuel IH]; intros e offset l Hk; cbn [cat]; [discriminate|].
  destruct (fuse_read rd m e size offset) as [[x|?|] e'] eqn:E; [|discriminate..].
  destruct (C56_sound rd m tr e d s size offset x e' Ht Hk HR' ltac:(lia) E) as (H1 & H2 & H3).
  assert (Hn : fe_node e' = fe_node e).
  { unfold fuse_read in E. destruct (INT_MAX <? size); [discriminate|]. unfold entry_read in E. destruct (entry_value m (fe_node e)) as [v| | |];
      try (apply pair_equal_spec in E as [_ <-]; reflexivity). destruct (negb _); [apply pair_equal_spec in E as [_ <-]; reflexivity|].
    destruct (stream_read_at _ _ _ _ _ _ _ _) as [[? ?] ?]. apply pair_equal_spec in E as [_ <-]. reflexivity. }
  unfold slice in H3. remember (skipn (Z.to_nat offset) s) as r eqn:Er.
  destruct x as [|b x].
  - intros H4. destruct r as [|y r]; [congruence|]. destruct (Z.to_nat size) eqn:Es; [lia|discriminate H3].
  - intros H4. destruct (cat fuel _ e' _) as [y|] eqn:Ey; [|discriminate]. cbn [option_map] in H4.
    assert (l = (b :: x) ++ y) by congruence. subst l. rewrite <- Hn in Hk. rewrite (IH e' _ y Hk Ey).
    set (q := b :: x) in *. replace (Z.to_nat (offset + zlen q)) with (length q + Z.to_nat offset)%nat by (unfold zlen; lia).
    rewrite <- skipn_skipn_add, <- Er, H3. clear IH. destruct (le_lt_dec (Z.to_nat size) (length r)) as [Hl|Hl].
    + rewrite firstn_length_le by exact Hl. apply firstn_skipn.
    + rewrite firstn_all2 by lia. rewrite skipn_all. apply app_nil_r.
Qed.

Lemma few_in h m d size : v_short_sector_size (mt_volume m) = fh_short_sector_size h -> 4 <= v_sector_size (mt_volume m) ->
  4 <= fh_short_sector_size h \/ size <= 1073741824 -> L_Stream2.few_sectors (mt_volume m) d size.
Proof. intros H1 H2 [H|H]; [left|now right]. unfold stream_sector_size. rewrite H1. match goal with |- context [if ?x then _ else _] => destruct x end; assumption. Qed.

(** A file of the document: a read returns its bytes or fails, and returns them
    if they are delivered.  A program that reads the file until its end, with
    no read that fails, has all of it. *)
Theorem C97_file :
  forall m rd0 f h root doc chars css path n c t s rd,
    mounts m rd0 h root doc chars -> io_sound rd0 f -> io_total rd0 f -> mount_path_of m css path ->
    reached doc (fun q n => same_list q (chars n)) Top css = Some (At (Stream n c t s)) ->
    io_sound rd f ->
    exists e d, fuse_entry m path = Done e /\ entry_at m (fe_node e) d /\ de_size d = zlen s /\
      (forall size offset, 0 <= offset -> 0 < size <= INT_MAX -> 4 <= fh_short_sector_size h \/ size <= 1073741824 ->
         (fst (fuse_read rd m e size offset) = Done (slice s offset size) \/ fst (fuse_read rd m e size offset) = Fails EIO) /\
         (delivers rd (mt_volume m) d offset size -> fst (fuse_read rd m e size offset) = Done (slice s offset size))) /\
      forall size fuel l, 0 < size -> cat fuel (fun e o => fuse_read rd m e size o) e 0 = Some l -> l = s.
Proof.
  intros m rd0 f h root doc chars css path n c t s rd HM HS0 HT0 HP HR HS.
  destruct (mounted_tree m rd0 h root doc chars HM) as (o & t' & tr & HO & Ho & Ht & He & Hss & Hsss & H0 & Hnd & Hsz).
  destruct (found m rd0 h root doc chars HM tr css path _ Ht He H0 Hnd Hsz HP HR)
      as (ns & fs & k & d & _ & _ & _ & Hk & HI & HE & _ & Hp).
  destruct HI as (nd & N1 & _ & _ & N4). pose proof Hk as (nd' & N1' & Hd).
  assert (nd' = nd) by congruence. subst nd'. rewrite Hd in N4.
  exists {| fe_node := k; fe_name := last fs []; fe_cursor := 0 |}, d. split; [unfold fuse_entry; rewrite Hp; reflexivity|].
  split; [exact (item_at_entry m tr k d Ht Hk)|].
  split. { destruct N4 as (_ & _ & _ & _ & _ & f' & _ & _ & _ & G & _). now symmetry. }
  split.
  - intros size offset H1 H2 H3. apply (read_damaged m tr rd rd0 f); auto; [exact (mount_sane _ _ _ _ HO)|cbn; lia|exact (few_in h m d size Hsss Hss H3)].
  - intros size fuel l H1 H2.
    exact (cat_damaged m tr rd rd0 f d s size Ht N4 HS HS0 HT0 H1 fuel {| fe_node := k; fe_name := last fs []; fe_cursor := 0 |} 0 l Hk H2).
Qed.
Print Assumptions C97_file.

(** On Windows, whatever was called in between, and whatever failed then. *)
Theorem C97_wfile :
  forall b m rd0 f h root doc chars css path n c t s rd op k st rd1,
    wmounts m rd0 h root doc chars -> io_sound rd0 f -> io_total rd0 f -> wmount_path_of m css path ->
    reached doc (fun q n => same_list q (chars n)) Top css = Some (At (Stream n c t s)) ->
    io_sound rd f -> opens_to_read b k path op -> dk_contexts st k = None ->
    exists st1 e d, dokan_step rd1 b m op st = (DrDone, st1) /\ wentry_by_path m path = Ok (Some e) /\
      entry_at m (fe_node e) d /\ de_size d = zlen s /\
      forall hist rs st2, wkeeps_open k hist -> dokan_run b m hist st1 = (rs, st2) ->
      forall size offset, 0 <= offset -> 0 < size <= INT_MAX -> 4 <= fh_short_sector_size h \/ size <= 1073741824 ->
        let r := fst (dokan_step rd b m (DkRead k size offset) st2) in
        (r = DrBytes (slice s offset size) \/ r = DrStatus ReadFault) /\
        (delivers rd (mt_volume m) d offset size -> r = DrBytes (slice s offset size)).
Proof.
  intros b m rd0 f h root doc chars css path n c t s rd op k st rd1 HM HS0 HT0 HP HR HS HOp Hst.
  destruct (wmounted_tree m rd0 h root doc chars HM) as (o & t' & tr & HO & Ho & Ht & He & Hss & Hsss & H0 & Hnd & Hsz).
  destruct (wfound m rd0 h root doc chars HM tr css path Ht He H0 Hnd Hsz HP) as (ns & fs & Hp & HN & HF).
  rewrite HR in HF. destruct HF as (j & d & Hw & Hk & HI & _ & _).
  destruct HI as (nd & N1 & _ & _ & N4). pose proof Hk as (nd' & N1' & Hd).
  assert (nd' = nd) by congruence. subst nd'. rewrite Hd in N4.
  destruct (C87_read b m rd0 h root doc chars css path n c t s rd1 op k st HM HP HR HOp Hst) as (st1 & S1 & _).
  destruct (C79_path m tr css ns fs (wm_ok _ _ _ _ _ _ HM) Ht HN) as (P1 & _). specialize (P1 j Hw). rewrite <- Hp in P1.
  exists st1, {| fe_node := j; fe_name := last fs []; fe_cursor := 0 |}, d. split; [exact S1|]. split; [exact P1|].
  split; [exact (item_at_entry m tr j d Ht Hk)|].
  split. { destruct N4 as (_ & _ & _ & _ & _ & f' & _ & _ & _ & G & _). now symmetry. }
  intros hist rs st2 HKo Hrun size offset H1 H2 H3.
  assert (HOp' : (exists access disposition, op = DkCreate k path access disposition) \/ (db_old b = true /\ op = DkOpenDirectory k path)).
  { destruct HOp as [(access & disposition & E & _)|E]; [left; eauto|right; exact E]. }
  destruct (C79_answers rd1 b m op st k st1 path hist rs st2 HOp' S1 HKo Hrun) as (e & F1 & F2). cbv zeta. rewrite F2.
  assert (e = {| fe_node := j; fe_name := last fs []; fe_cursor := 0 |}) by congruence. subst e. rewrite (proj1 (read_file_fuse _ _ _ _ _)).
  destruct (read_damaged m tr rd rd0 f {| fe_node := j; fe_name := last fs []; fe_cursor := 0 |} d s size offset) as (R1 & R2);
    auto; [exact (wmount_sane _ _ _ _ HO)|cbn; lia|exact (few_in h m d size Hsss Hss H3)|].
  split.
  - destruct R1 as [->| ->]; [now left|now right].
  - intros HD. now rewrite (R2 HD).
Qed.
Print Assumptions C97_wfile.

(** A medium with bytes that cannot be read: exactly the reads that need one of
    them fail. *)
Theorem C97_medium :
  forall m f h root doc chars css path n c t s bad,
    mounts m (file_reader f) h root doc chars -> mount_path_of m css path ->
    reached doc (fun q n => same_list q (chars n)) Top css = Some (At (Stream n c t s)) ->
    exists e d, fuse_entry m path = Done e /\ entry_at m (fe_node e) d /\
      forall size offset, 0 <= offset -> 0 < size <= INT_MAX -> 4 <= fh_short_sector_size h \/ size <= 1073741824 ->
        let r := fst (fuse_read (bad_medium bad f) m e size offset) in
        ((forall i p, offset <= i < Z.min (offset + size) (zlen s) -> stream_position (mt_volume m) d i p -> bad p = false) ->
         r = Done (slice s offset size)) /\
        ((exists i p, offset <= i < Z.min (offset + size) (zlen s) /\ stream_position (mt_volume m) d i p /\ bad p = true) ->
         r = Fails EIO).
Proof.
  intros m f h root doc chars css path n c t s bad HM HP HR.
  destruct (mounted_tree m (file_reader f) h root doc chars HM) as (o & t' & tr & HO & Ho & Ht & He & Hss & Hsss & H0 & Hnd & Hsz).
  destruct (found m (file_reader f) h root doc chars HM tr css path _ Ht He H0 Hnd Hsz HP HR)
      as (ns & fs & k & d & _ & _ & _ & Hk & HI & HE & _ & Hp).
  destruct HI as (nd & N1 & _ & _ & N4). pose proof Hk as (nd' & N1' & Hd).
  assert (nd' = nd) by congruence. subst nd'. rewrite Hd in N4.
  assert (Hz : de_size d = zlen s) by (destruct N4 as (_ & _ & _ & _ & _ & f' & _ & _ & _ & G & _); now symmetry).
  set (e := {| fe_node := k; fe_name := last fs []; fe_cursor := 0 |}) in *. exists e, d.
  split; [unfold fuse_entry; rewrite Hp; reflexivity|]. split; [exact (item_at_entry m tr k d Ht Hk)|].
  intros size offset H1 H2 H3 r. pose proof (few_in h m d size Hsss Hss H3) as Hf.
  destruct (read_damaged m tr (bad_medium bad f) (file_reader f) f e d s size offset (mount_sane _ _ _ _ HO) Ht Hk N4 (bad_sound bad f)
      (file_reader_sound f) (file_reader_total f) ltac:(cbn; lia) H1 H2 Hf) as (R1 & R2). fold r in R1, R2.
  split.
  - intros HB. apply R2. apply (bad_delivers bad f (mt_volume m) d s); auto. now rewrite Hz.
  - intros (i & p & I1 & I2 & I3). destruct R1 as [R1|R1]; [exfalso|exact R1].
    unfold r, fuse_read, entry_read in R1. replace (entry_value m (fe_node e)) with (Ok d) in R1
      by (symmetry; apply entry_at_value; exact (item_at_entry m tr k d Ht Hk)).
    destruct (INT_MAX <? size); [discriminate|]. destruct (negb _); [discriminate|]. unfold stream_read_at in R1.
    destruct (stream_seek_offset d (fe_cursor e) offset SEEK_SET) as [c1| | |] eqn:Es; [|discriminate..].
    apply L_MountDamage.seek_set_ok in Es. subst c1. pose proof N4 as (V1 & V2 & V3 & _ & V5 & _).
    destruct (stream_read_buffer (bad_medium bad f) (mt_volume m) d offset size size []) as [[[l c2]| | |] t1] eqn:Er; [|discriminate..].
    apply (C95_never (bad_medium bad f) (mt_volume m) d offset size size [] i p l c2 t1 V1 V2 V3 V5 ltac:(lia)); [now rewrite Hz|exact I2|now apply bad_never|exact Er].
Qed.
Print Assumptions C97_medium.

(** * Cases *)

(** The document of C81 on a medium of which one byte cannot be read: it is the
    29th of the file at the path "/b/d". *)
Definition xt_file : list Z := write (xw_format Little) xs_doc.
Definition xt_medium : reader := bad_medium (Z.eqb 3100) xt_file.

Definition xt_calls : list fuse_op :=
  [FuGetattr [47; 98; 47; 100]; FuOpen [47; 98; 47; 100] 0; FuRead 0 8 0; FuRead 0 20 20; FuRead 0 8 29; FuOpendir [47; 98];
   FuReaddir 1 (fun _ => true); FuRead 0 20 9; FuRead 0 19 9; FuRelease 0].

Lemma xt_tables o t : open_read xm_una xt_medium [] = (Ok o, t) -> tables_read xt_medium xt_file o.
Proof.
  intros E id HI _ tt.
  assert (HC : match open_read xm_una xt_medium [] with
               | (Ok o, _) => fh_sector_size (o_header o) = 512 /\ fh_ssat_sector_identifier (o_header o) = 1 /\ used_ids (o_msat o) = [0] /\
                         znth (o_sat o) 1 = Some EOC /\ zlen (o_sat o) = 128
               | _ => False
               end).
  { vm_compute. repeat (split; [reflexivity|]). reflexivity. }
  rewrite E in HC. destruct HC as (H0 & H1 & H2 & H3 & H4). rewrite H0 in *.
  destruct HI as [HI|(k & HI & N1 & N2)].
  - rewrite H2 in HI. destruct HI as [<-|[]]. eexists. split; vm_compute; reflexivity.
  - rewrite H1 in HI.
    assert (G : forall k id, nth_sector (o_sat o) 1 k id -> id = 1 \/ id = EOC).
    { intros k' id' HN. induction HN as [|k' x y HN IH Hz]; [now left|]. destruct IH as [->| ->]; [right; congruence|].
      apply znth_range in Hz. rewrite H4 in Hz. unfold EOC in Hz. lia. }
    destruct (G _ _ HI) as [->| ->]; [|contradiction]. eexists. split; vm_compute; reflexivity.
Qed.

Lemma got_bytes (r : option fuse_result) : match r with Some (RBytes l) => zlen l = 20 | _ => False end ->
  exists l, r = Some (RBytes l) /\ zlen l = 20.
Proof. destruct r as [[]|]; intros H; try destruct H; eauto. Qed.

Example C97_case :
  exists o t, open_read xm_una xt_medium [] = (Ok o, t) /\ tables_read xt_medium xt_file o /\
    let m := xm_mounted o in
    mount_of m o xt_medium t /\
    mounts m (file_reader xt_file) (w_h (xw_format Little) xs_doc) (w_root (xw_format Little) xs_doc) xs_doc xd_chars /\
    two_media xt_file (map (pair xt_medium) xt_calls) (map (pair (file_reader xt_file)) xt_calls) /\
    let rs := fst (fuse_run m (map (pair xt_medium) xt_calls) fuse_start) in
    let rs0 := fst (fuse_run m (map (pair (file_reader xt_file)) xt_calls) fuse_start) in
    length rs = 10%nat /\
    (forall k, (k < 10)%nat -> k <> 3%nat -> k <> 7%nat -> nth_error rs k = nth_error rs0 k) /\
    nth_error rs 3 = Some (RErrno EIO) /\ nth_error rs 7 = Some (RErrno EIO) /\
    (exists l, nth_error rs0 3 = Some (RBytes l) /\ zlen l = 20) /\
    fu_live (snd (fuse_run m (map (pair xt_medium) xt_calls) fuse_start)) = 1.
Proof.
  destruct (open_read xm_una xt_medium []) as [[o| | |] t] eqn:E; try (exfalso; revert E; vm_compute; discriminate).
  exists o, t. split; [reflexivity|]. pose proof (xt_tables o t E) as HT. split; [exact HT|].
  assert (Hb : Forall is_byte xt_file) by exact (write_bytes (xw_format Little) xs_doc (proj1 (C81_document_case Little))).
  pose proof (bad_bytes (Z.eqb 3100) xt_file Hb) as HB. cbv zeta.
  split. { split; [exact (xm_ok o)|]. split; [exact xm_una_ok|]. split; [exact HB|]. split; [exact E|]. split; reflexivity. }
  split.
  { pose proof (C88_same xm_una xt_medium (file_reader xt_file) xt_file o t xm_una_ok HB (bad_sound _ _) (file_reader_sound _) (file_reader_total _) E HT) as E0.
    exact (xd_mounts o t E0). }
  split.
  { split; [reflexivity|]. split; apply Forall_forall; intros x Hx; apply in_map_iff in Hx as (y & <- & _); cbn [fst];
      [apply bad_sound|split; [apply file_reader_sound|apply file_reader_total]]. }
  assert (C : match open_read xm_una xt_medium [] with
              | (Ok o, _) =>
                  let m := xm_mounted o in
                  let rs := fst (fuse_run m (map (pair xt_medium) xt_calls) fuse_start) in
                  let rs0 := fst (fuse_run m (map (pair (file_reader xt_file)) xt_calls) fuse_start) in
                  length rs = 10%nat /\
                  map (nth_error rs) [0; 1; 2; 4; 5; 6; 8; 9]%nat = map (nth_error rs0) [0; 1; 2; 4; 5; 6; 8; 9]%nat /\
                  nth_error rs 3 = Some (RErrno EIO) /\ nth_error rs 7 = Some (RErrno EIO) /\
                  match nth_error rs0 3 with Some (RBytes l) => zlen l = 20 | _ => False end /\
                  fu_live (snd (fuse_run m (map (pair xt_medium) xt_calls) fuse_start)) = 1
              | _ => False
              end) by (vm_compute; repeat (split; [reflexivity|]); reflexivity).
  rewrite E in C. cbv zeta in C. destruct C as (C1 & C2 & C3 & C4 & C5 & C6).
  split; [exact C1|]. split.
  { cbn [map] in C2. intros k Hk N1 N2. do 10 (destruct k as [|k]; [congruence|]). lia. }
  split; [exact C3|]. split; [exact C4|]. split; [|exact C6].
  exact (got_bytes _ C5).
Qed.

(** On Windows, in all builds. *)
Definition xt_wcalls : list dokan_op :=
  [DkCreate 7 [92; 98; 92; 100] 1 3; DkRead 7 8 0; DkRead 7 20 20; DkRead 7 8 29; DkFind [92; 98] (fun _ => true); DkRead 7 20 9; DkRead 7 19 9; DkClose 7].

Definition xt_replies (rd : reader) (m : mounted) (b : dokan_build) : list dokan_result * dokan_state :=
  dokan_run b m (map (pair rd) xt_wcalls) dokan_start.

Definition xt_compare (m : mounted) : Prop :=
  map (fun b => map (nth_error (fst (xt_replies xt_medium m b))) [0; 1; 3; 4; 6; 7]%nat) xw_builds =
  map (fun b => map (nth_error (fst (xt_replies (file_reader xt_file) m b))) [0; 1; 3; 4; 6; 7]%nat) xw_builds /\
  map (fun b => map (nth_error (fst (xt_replies xt_medium m b))) [2; 5]%nat) xw_builds =
  map (fun _ => [Some (DrStatus ReadFault); Some (DrStatus ReadFault)]) xw_builds /\
  map (fun b => match nth_error (fst (xt_replies (file_reader xt_file) m b)) 2 with Some (DrBytes l) => zlen l | _ => -1 end) xw_builds =
  map (fun _ => 20) xw_builds /\
  map (fun b => dk_live (snd (xt_replies xt_medium m b))) xw_builds = map (fun _ => 0) xw_builds.

Example C97_wcase :
  exists o t, open_read xw_una xt_medium [] = (Ok o, t) /\ wmount_of (xw_mounted o) o xt_medium t /\
    two_media xt_file (map (pair xt_medium) xt_wcalls) (map (pair (file_reader xt_file)) xt_wcalls) /\
    xw_builds <> [] /\ xt_compare (xw_mounted o).
Proof.
  destruct (open_read xw_una xt_medium []) as [[o| | |] t] eqn:E; try (exfalso; revert E; vm_compute; discriminate).
  exists o, t. split; [reflexivity|].
  assert (Hb : Forall is_byte xt_file) by exact (write_bytes (xw_format Little) xs_doc (proj1 (C81_document_case Little))).
  split. { split; [exact (xw_ok o)|]. split; [exact xw_una_ok|]. split; [exact (bad_bytes (Z.eqb 3100) xt_file Hb)|]. split; [exact E|]. split; reflexivity. }
  split.
  { split; [reflexivity|]. split; apply Forall_forall; intros x Hx; apply in_map_iff in Hx as (y & <- & _); cbn [fst];
      [apply bad_sound|split; [apply file_reader_sound|apply file_reader_total]]. }
  split; [discriminate|].
  assert (C : match open_read xw_una xt_medium [] with (Ok o, _) => xt_compare (xw_mounted o) | _ => False end)
    by (vm_compute; repeat (split; [reflexivity|]); reflexivity).
  rewrite E in C. exact C.
Qed.
