(** C83: mounted documents. *)
From Coq Require Import ZArith List Bool Lia.
From Verif Require Import Base Spec_IO M_Header M_Table M_Load M_Stream M_Tree M_Open M_Item
  Spec_Stream Spec_Load Spec_Tree Spec_Open Spec_Content Spec_Item M_Mount M_Fuse Spec_Mount Spec_Fuse
  L_Base L_Item L_Mount L_Fuse L_Fuse2 P_Mount P_Fuse L_Write4 L_Write6 L_Write7 X_File X_Mount X_Fuse P_Write P_SetWrite L_Write3 P_Doc Spec_Write Spec_Doc L_Doc Spec_DocMount L_DocMount.
Import ListNotations.
Open Scope Z_scope.

(** * Theorems *)

(** The stat structure at a path is that of the place the names lead to, and
    ENOENT if they lead nowhere. *)
Theorem C83_getattr :
  forall m rd h root doc chars css path,
    mounts m rd h root doc chars -> mount_path_of m css path ->
    match reached doc (fun q n => same_list q (chars n)) Top css with
    | Some p => timely doc p -> exists s, fuse_getattr m path = Done s /\ looks m root doc p s
    | None => fuse_getattr m path = Fails ENOENT
    end.
Proof.
  intros m rd h root doc chars css path HM HP.
  destruct (mounted_tree m rd h root doc chars HM) as (o & t & tr & HO & Ho & Ht & He & _ & _ & H0 & Hnd & Hsz).
  destruct (reached doc _ Top css) as [p|] eqn:HR.
  - intros Hf. destruct (found m rd h root doc chars HM tr css path p Ht He H0 Hnd Hsz HP HR)
      as (ns & fs & k & d & _ & _ & _ & Hk & _ & HE & HT & Hp).
    destruct (stat_looks m rd h root doc chars HM tr o t k d p HO Ho Hk HE HT Hf) as (s & S1 & S2).
    exists s. split; [|exact S2]. unfold fuse_getattr. rewrite Hp. cbn [fe_node]. rewrite S1. reflexivity.
  - unfold fuse_getattr. now rewrite (not_found m rd h root doc chars HM tr css path Ht He H0 Hnd HP HR).
Qed.
Print Assumptions C83_getattr.

(** A file that is opened can be read from anywhere, and whole. *)
Theorem C83_read :
  forall m rd h root doc chars css path n c t s,
    mounts m rd h root doc chars -> mount_path_of m css path ->
    reached doc (fun q n => same_list q (chars n)) Top css = Some (At (Stream n c t s)) ->
    exists f, fuse_entry m path = Done f /\
      (forall size offset, 0 <= offset -> 0 < size <= INT_MAX -> 4 <= fh_short_sector_size h \/ size <= 1073741824 ->
         fst (fuse_read rd m f size offset) = Done (slice s offset size)) /\
      forall size fuel, 0 < size <= INT_MAX -> 4 <= fh_short_sector_size h \/ size <= 1073741824 -> (length s < fuel)%nat ->
         cat fuel (fun f o => fuse_read rd m f size o) f 0 = Some s.
Proof.
  intros m rd h root doc chars css path n c t s HM HP HR.
  destruct (mounted_tree m rd h root doc chars HM) as (o & t' & tr & HO & Ho & Ht & He & Hss & Hsss & H0 & Hnd & Hsz).
  destruct (found m rd h root doc chars HM tr css path _ Ht He H0 Hnd Hsz HP HR)
      as (ns & fs & k & d & _ & _ & _ & Hk & HI & HE & _ & Hp).
  eexists. split; [unfold fuse_entry; rewrite Hp; reflexivity|].
  destruct HI as (nd & N1 & _ & _ & N4). destruct Hk as (nd' & N1' & Hd).
  assert (nd' = nd) by congruence. subst nd'. rewrite Hd in N4.
  assert (Hk : item_entry tr k d) by (exists nd; auto).
  assert (HF : 4 <= fh_short_sector_size h -> 4 <= (if de_size d <? v_minimum_size (mt_volume m) then v_short_sector_size (mt_volume m)
           else v_sector_size (mt_volume m))).
  { intros H2. rewrite Hsss. destruct (_ <? _); assumption. }
  split.
  - intros size offset Hof Hsi Hfew. eapply C56_read; eauto; [cbn; lia|]. destruct Hfew; [left; auto|now right].
  - intros size fuel Hsi Hfew Hfu. eapply C56_whole; eauto; [cbn; lia|]. destruct Hfew; [left; auto|now right].
Qed.
Print Assumptions C83_read.

(** The listing of a directory has its items in order, each with its file name
    and its stat structure. *)
Theorem C83_readdir :
  forall m rd h root doc chars css path p accept,
    mounts m rd h root doc chars -> mount_path_of m css path ->
    reached doc (fun q n => same_list q (chars n)) Top css = Some p ->
    timely doc p -> Forall (fun i => timely doc (At i)) (members (below doc p)) ->
    (forall i, (i < 2 + length (members (below doc p)))%nat -> accept i = true) ->
    exists f l, fuse_entry m path = Done f /\ fuse_readdir m accept f = (Done tt, l) /\ listed m root doc chars p l.
Proof.
  intros m rd h root doc chars css path p accept HM HP HR Hf Hfs HA.
  destruct (mounted_tree m rd h root doc chars HM) as (o & t' & tr & HO & Ho & Ht & He & Hss & Hsss & H0 & Hnd & Hsz).
  destruct (found m rd h root doc chars HM tr css path _ Ht He H0 Hnd Hsz HP HR)
      as (ns & fs & k & d & _ & _ & _ & Hk & HI & HE & HT & Hp).
  destruct (stat_looks m rd h root doc chars HM tr o t' k d p HO Ho Hk HE HT Hf) as (s & S1 & S2).
  destruct (C54_opened m o rd t' tr HO Ho) as (_ & _ & HB).
  destruct HI as (nd & N1 & N2 & N3 & _).
  pose proof (shows_members rd (mt_volume m) tr doc Hnd _ _ N3) as HS.
  assert (HN : Forall (fun i => path_name (chars (name_of i)) /\
      exists x, mt_name m (name_of i) (fh_byte_order h) = Some x /\ text (mt_codec m) (chars (name_of i)) x /\ zlen x <= 922337203685477580)
      (members (below doc p))).
  { exact (names_members _ _ (reached_names doc _ _ css Top p (ms_names _ _ _ _ _ _ HM) HR)). }
  destruct (items_listed m rd h root doc chars HM tr o t' _ _ HO Ho He HS HN Hfs) as (rest & R1 & R2).
  exists {| fe_node := k; fe_name := last fs []; fe_cursor := 0 |}, (([46], s) :: ([46; 46], stat_zero) :: rest).
  split; [unfold fuse_entry; now rewrite Hp|]. split; [|exists s, rest; auto].
  apply (C55_readdir m tr accept _ _ (ms_ok _ _ _ _ _ _ HM) Ht (fun k d H => proj1 (HB k d H))). cbn [fe_node]. split.
  - exists nd, s, rest. split; [exact N1|]. split; [reflexivity|].
    destruct Hk as (nd' & N1' & Hd). assert (nd' = nd) by congruence. subst nd'. rewrite Hd.
    split; [rewrite (entry_mtime doc p d HE); exact Hf|]. split; [|exact R1].
    assert (Hk : item_entry tr k d) by (exists nd; auto).
    destruct (entry_stat_fits m tr (ms_ok _ _ _ _ _ _ HM) Ht (fun k d H => proj1 (HB k d H)) k d Hk) as (s' & E1 & E2).
    { rewrite (entry_mtime doc p d HE). exact Hf. }
    assert (s' = s) by congruence. now subst s'.
  - intros i Hi. apply HA. cbn [length] in Hi. pose proof (Forall2_same_length _ _ _ R2). lia.
Qed.
Print Assumptions C83_readdir.

(** There is only one such structure, and only one such listing. *)
Theorem C83_unique :
  forall m root doc chars p,
    (forall s s', looks m root doc p s -> looks m root doc p s' -> s = s') /\
    (forall l l', listed m root doc chars p l -> listed m root doc chars p l' -> l = l').
Proof.
  intros m root doc chars p.
  assert (G : forall p s s', looks m root doc p s -> looks m root doc p s' -> s = s').
  { intros q s s' [A1 A2 A3 A4 A5 A6] [B1 B2 B3 B4 B5 B6].
    pose proof (same_sign_unique _ _ _ A4 B4). pose proof (same_sign_unique _ _ _ A5 B5). pose proof (same_sign_unique _ _ _ A6 B6).
    destruct s, s'; cbn in *. congruence. }
  split; [apply G|].
  intros l l' (s & rest & -> & L1 & L2) (s' & rest' & -> & L1' & L2').
  rewrite (G p s s' L1 L1'). do 2 f_equal. clear L1 L1'. revert rest' L2'. induction L2 as [|i x l rest (X1 & X2) _ IH]; intros rest' L2'.
  - inversion L2'. reflexivity.
  - inversion L2' as [|? y ? rest'' (Y1 & Y2) L3]; subst. f_equal; [|auto]. destruct x as [f sx], y as [g sy]. cbn [fst snd] in *.
    f_equal; [exact (file_name_text_fun _ _ _ _ X1 Y1)|exact (G _ _ _ X2 Y2)].
Qed.
Print Assumptions C83_unique.

(** * Cases *)
Definition xd_chars (n : list Z) : list Z := xf_strip (xf_units Little n).

Lemma xf_eqb_eq a : forall b, xf_eqb a b = true <-> a = b.
Proof.
  induction a as [|x a IH]; intros [|y b]; cbn; split; intros H; try discriminate; try reflexivity.
  - apply andb_true_iff in H as (H1 & H2). apply Z.eqb_eq in H1. apply IH in H2. congruence.
  - assert (x = y) by congruence. assert (a = b) by congruence. subst. rewrite Z.eqb_refl. cbn. now apply IH.
Qed.

Lemma xf_strip_none l : Forall (fun b => b <> 0) l -> xf_strip l = l.
Proof.
  intros H. unfold xf_strip. destruct (rev l) as [|x r] eqn:E; [reflexivity|].
  assert (Hx : In x l) by (apply in_rev; rewrite E; now left). rewrite Forall_forall in H. apply H in Hx.
  destruct x; [congruence|reflexivity|reflexivity].
Qed.

Lemma xd_compares cs l n : path_name cs -> text utf8 cs l -> zlen n mod 2 = 0 -> Forall (fun y => 1 <= y < 128) (xd_chars n) ->
  una_utf8_compare xm_una l n Little = Ok (same_list cs (xd_chars n)).
Proof.
  intros (Hne & Hp) Ht Hn Ha. cbn [una_utf8_compare xm_una xf_una]. unfold xf_compare. rewrite Hn. change (0 =? 0) with true. cbv iota.
  f_equal. assert (H0 : Forall (fun c => c <> 0) cs) by (eapply Forall_impl; [|exact Hp]; cbn; intros; lia).
  rewrite (xf_strip_none l) by exact (text_nonzero utf8 utf8_ok cs l Ht H0). fold (xd_chars n). unfold same_list.
  destruct (list_eq_dec Z.eq_dec cs (xd_chars n)) as [E|E].
  - apply xf_eqb_eq. subst cs. pose proof (text_ascii utf8 utf8_ok _ Ha) as Ht'. exact (text_fun utf8 _ _ _ Ht Ht').
  - apply not_true_is_false. intros H. apply xf_eqb_eq in H. subst l. apply E. exact (text_of_ascii utf8 cs _ utf8_ok Ht Ha H0).
Qed.

Definition xd_open := open_read xm_una (file_reader (write (xw_format Little) xs_doc)) [].

Lemma xd_mounts o t : xd_open = (Ok o, t) ->
  mounts (xm_mounted o) (file_reader (write (xw_format Little) xs_doc)) (w_h (xw_format Little) xs_doc) (w_root (xw_format Little) xs_doc) xs_doc xd_chars.
Proof.
  unfold xd_open. intros E. destruct (C81_document_case Little) as (H1 & H2 & H3 & _). constructor.
  - apply written_holds; auto.
    + exact xm_una_ok.
    + apply file_reader_bytes. exact (write_bytes (xw_format Little) xs_doc H1).
    + apply file_reader_sound.
    + apply file_reader_total.
    + discriminate.
  - exact (xm_ok o).
  - intros o' t' E'. cbn [mt_una xm_mounted] in E'. assert (o' = o) by congruence. subst o'. split; reflexivity.
  - assert (T : forall c, 1 <= c < 128 -> text utf8 [c] [c]).
    { intros c Hc. apply (text_ascii utf8 utf8_ok). now constructor. }
    assert (N : forall n c, xm_name n Little = Some [c] -> xd_chars n = [c] -> 1 <= c < 128 -> c <> 92 ->
        path_name (xd_chars n) /\
        exists l, mt_name (xm_mounted o) n Little = Some l /\ text utf8 (xd_chars n) l /\ zlen l <= 922337203685477580).
    { intros n c N1 N2 N3 N4. rewrite N2. split; [split; [discriminate|constructor; [lia|constructor]]|].
      exists [c]. split; [exact N1|]. split; [exact (T c N3)|]. change (zlen [c]) with 1. lia. }
    cbn [names_ok doc_items xs_doc].
    split; [apply (N _ 97); [reflexivity|reflexivity|lia|lia]|].
    split; [apply (N _ 98); [reflexivity|reflexivity|lia|lia]|].
    split; [|exact I].
    split; [apply (N _ 99); [reflexivity|reflexivity|lia|lia]|].
    split; [apply (N _ 100); [reflexivity|reflexivity|lia|lia]|exact I].
  - intros cs l Hp Ht. cbn [mt_una xm_mounted mt_codec] in *.
    assert (N : forall n c, zlen n mod 2 = 0 -> xd_chars n = [c] -> 1 <= c < 128 ->
        una_utf8_compare xm_una l n Little = Ok (same_list cs (xd_chars n))).
    { intros n c N1 N2 N3. apply xd_compares; [exact Hp|exact Ht|exact N1|]. rewrite N2. constructor; [exact N3|constructor]. }
    cbn [names_ok doc_items xs_doc].
    split; [apply (N _ 97); [reflexivity|reflexivity|lia]|].
    split; [apply (N _ 98); [reflexivity|reflexivity|lia]|].
    split; [|exact I].
    split; [apply (N _ 99); [reflexivity|reflexivity|lia]|].
    split; [apply (N _ 100); [reflexivity|reflexivity|lia]|exact I].
Qed.

(** The path "/b/d" of the document of C81. *)
Example C83_case :
  exists o t, xd_open = (Ok o, t) /\
    let m := xm_mounted o in
    let rd := file_reader (write (xw_format Little) xs_doc) in
    mounts m rd (w_h (xw_format Little) xs_doc) (w_root (xw_format Little) xs_doc) xs_doc xd_chars /\
    mount_path_of m [[98]; [100]] [47; 98; 47; 100] /\
    reached xs_doc (fun q n => same_list q (xd_chars n)) Top [[98]; [100]] =
      Some (At (Stream [100; 0] 0 0 (Spec_SetWrite.set_written Little xs_set))) /\
    timely xs_doc Top /\ Forall (fun i => timely xs_doc (At i)) (members (doc_items xs_doc)) /\
    (exists s, fuse_getattr m [47; 98; 47; 100] = Done s /\ st_size s = 360) /\
    fuse_getattr m [47; 99] = Fails ENOENT /\
    exists f, fuse_entry m [47; 98] = Done f /\
      map fst (snd (fuse_readdir m (fun _ => true) f)) = [[46]; [46; 46]; [99]; [100]].
Proof.
  destruct xd_open as [[o| | |] t] eqn:E; try (exfalso; revert E; vm_compute; discriminate).
  exists o, t. split; [reflexivity|]. cbv zeta. split; [exact (xd_mounts o t E)|].
  split.
  { assert (P : forall c, c <> 0 -> c <> 92 -> path_name [c]) by (intros; split; [discriminate|repeat constructor; auto]).
    assert (T : forall c, 1 <= c < 128 -> exists l, text utf8 [c] l /\ zlen l <= 922337203685477580).
    { intros c Hc. exists [c]. split; [apply (text_ascii utf8 utf8_ok); now constructor|cbn; lia]. }
    split; [repeat constructor; try discriminate|]. split; [constructor; [apply T; lia|constructor; [apply T; lia|constructor]]|].
    exists [[98]; [100]]. split; [|split; [reflexivity|reflexivity]].
    assert (F : forall c, plain c -> ~ unprintable c -> c <> 92 -> cd_encode utf8 c = Ok [c] -> file_name_text utf8 [c] [c]).
    { intros c F1 F2 F3 F4. exists [[c]]. split; [constructor; [apply fc_other; auto|constructor]|reflexivity]. }
    assert (U : forall c, 48 <= c < 128 -> c mod 65536 = c -> ~ unprintable c).
    { intros c Hc Hm. unfold unprintable. rewrite Hm. cbn [In]. lia. }
    change (mt_codec (xm_mounted o)) with utf8.
    constructor; [apply F; [unfold plain; lia|apply U; [lia|reflexivity]|lia|reflexivity]|].
    constructor; [apply F; [unfold plain; lia|apply U; [lia|reflexivity]|lia|reflexivity]|constructor]. }
  split; [reflexivity|].
  split; [unfold timely, fits; vm_compute; split; congruence|].
  split; [unfold timely, fits; repeat constructor; vm_compute; congruence|].
  assert (C : match xd_open with
              | (Ok o, _) => let m := xm_mounted o in
                  match fuse_getattr m [47; 98; 47; 100] with Done s => st_size s =? 360 | _ => false end = true /\
                  fuse_getattr m [47; 99] = Fails ENOENT /\
                  match fuse_entry m [47; 98] with
                  | Done f => map fst (snd (fuse_readdir m (fun _ => true) f)) = [[46]; [46; 46]; [99]; [100]]
                  | _ => False
                  end
              | _ => False
              end) by (vm_compute; repeat split; reflexivity).
  rewrite E in C. cbv zeta in C. destruct C as (C1 & C2 & C3). split; [|split; [exact C2|]].
  - destruct (fuse_getattr _ [47; 98; 47; 100]) as [s| |]; try discriminate C1. exists s. split; [reflexivity|]. now apply Z.eqb_eq.
  - destruct (fuse_entry _ [47; 98]) as [f| |]; [|destruct C3|destruct C3]. exists f. split; [reflexivity|exact C3].
Qed.
