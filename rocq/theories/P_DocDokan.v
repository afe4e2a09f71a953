(** C87: documents mounted on Windows. *)
From Coq Require Import ZArith List Bool Lia.
From Verif Require Import Base Spec_IO M_Header M_Table M_Load M_Stream M_Tree M_Open M_Item
  Spec_Stream Spec_Load Spec_Tree Spec_Open Spec_Content Spec_Item M_Mount M_WMount M_Fuse M_Dokan Spec_Mount Spec_WMount Spec_Fuse Spec_Dokan
  L_Base L_Item L_Mount L_WMount L_Fuse L_Dokan L_Dokan2 P_Dokan L_Write4 L_Write6 L_Write7 X_File X_Mount X_WMount X_Fuse X_Dokan
  P_Write P_SetWrite L_Write3 P_Doc Spec_Write Spec_Doc L_Doc Spec_DocMount L_DocMount P_DocMount Spec_DocDokan L_DocDokan.
Import ListNotations.
Open Scope Z_scope.

(** * Theorems *)

(** The information at a path is that of the place the names lead to. *)
Theorem C87_information :
  forall m rd h root doc chars css path i,
    wmounts m rd h root doc chars -> wmount_path_of m css path ->
    match reached doc (fun q n => same_list q (chars n)) Top css with
    | Some p => exists x, get_file_information m path i = DDone x /\ wlooks m root doc p i x
    | None => get_file_information m path i = DFails NotFound
    end.
Proof.
  intros m rd h root doc chars css path i HM HP.
  destruct (wmounted_tree m rd h root doc chars HM) as (o & t & tr & HO & Ho & Ht & He & _ & _ & H0 & Hnd & Hsz).
  destruct (wfound m rd h root doc chars HM tr css path Ht He H0 Hnd Hsz HP) as (ns & fs & -> & HN & HF).
  destruct (C79_opened m o rd t tr HO Ho) as (_ & _ & HB).
  destruct (C79_information m tr css ns fs i (wm_ok _ _ _ _ _ _ HM) Ht (fun k d H => proj1 (HB k d H)) HN) as (HI1 & HI2).
  destruct (reached doc _ Top css) as [p|] eqn:HR.
  - destruct HF as (k & d & Hw & Hk & _ & HE & HT). destruct (HI1 k d Hw Hk) as (x & X1 & X2).
    exists x. split; [exact X1|]. exact (wlooks_informs m root doc p d i x HE HT X2).
  - apply HI2. now left.
Qed.
Print Assumptions C87_information.

(** A stream that is opened can be read from anywhere, whatever was called in
    between, as long as it is not closed. *)
Theorem C87_read :
  forall b m rd h root doc chars css path n c t s rd0 op k st,
    wmounts m rd h root doc chars -> wmount_path_of m css path ->
    reached doc (fun q n => same_list q (chars n)) Top css = Some (At (Stream n c t s)) ->
    opens_to_read b k path op -> dk_contexts st k = None ->
    exists st1, dokan_step rd0 b m op st = (DrDone, st1) /\
      forall hist rs st2, wkeeps_open k hist -> dokan_run b m hist st1 = (rs, st2) ->
      forall size offset, 0 <= offset -> 0 < size <= INT_MAX -> 4 <= fh_short_sector_size h \/ size <= 1073741824 ->
        fst (dokan_step rd b m (DkRead k size offset) st2) = DrBytes (slice s offset size).
Proof.
  intros b m rd h root doc chars css path n c t s rd0 op k st HM HP HR HOp Hst.
  destruct (wmounted_tree m rd h root doc chars HM) as (o & t' & tr & HO & Ho & Ht & He & Hss & Hsss & H0 & Hnd & Hsz).
  destruct (wfound m rd h root doc chars HM tr css path Ht He H0 Hnd Hsz HP) as (ns & fs & Hp & HN & HF).
  rewrite HR in HF. destruct HF as (j & d & Hw & Hk & HI & _ & _).
  assert (HS : exists st1, dokan_step rd0 b m op st = (DrDone, st1)).
  { destruct HOp as [(access & disposition & -> & Ha & Hd)|(Hb & ->)]; subst path.
    - destruct (db_old b) eqn:Hb.
      + destruct (C79_open_old rd0 b m tr css ns fs k access disposition st (wm_ok _ _ _ _ _ _ HM) Ht HN Hb) as (_ & _ & _ & _ & H5).
        destruct (H5 j Hst Hw) as (st1 & S1 & _). exists st1. apply S1; [exact Ha|]. destruct Hd as [Hd|(Hd & _)]; [exact Hd|discriminate Hd].
      + destruct (C79_open rd0 b m tr css ns fs k access disposition st (wm_ok _ _ _ _ _ _ HM) Ht HN Hb) as (_ & _ & _ & H4).
        destruct (H4 Ha) as (_ & _ & H5); [tauto|]. destruct (H5 j Hst Hw) as (st1 & S1 & _). exists st1. exact S1.
    - destruct (C79_open_old rd0 b m tr css ns fs k 0 0 st (wm_ok _ _ _ _ _ _ HM) Ht HN Hb) as (_ & _ & _ & _ & H5).
      destruct (H5 j Hst Hw) as (st1 & _ & S1 & _). exists st1. exact S1. }
  destruct HS as (st1 & S1). exists st1. split; [exact S1|].
  intros hist rs st2 HKo Hrun size offset Hof Hsi Hfew.
  assert (HOp' : (exists access disposition, op = DkCreate k path access disposition) \/ (db_old b = true /\ op = DkOpenDirectory k path)).
  { destruct HOp as [(access & disposition & E & _)|E]; [left; eauto|right; exact E]. }
  destruct (C79_answers rd0 b m op st k st1 path hist rs st2 HOp' S1 HKo Hrun) as (f & F1 & F2).
  rewrite F2. destruct (C79_path m tr css ns fs (wm_ok _ _ _ _ _ _ HM) Ht HN) as (P1 & _).
  rewrite Hp, (P1 j Hw) in F1. assert (f = {| fe_node := j; fe_name := last fs []; fe_cursor := 0 |}) by congruence. subst f. clear F1.
  destruct HI as (nd & N1 & _ & _ & N4). pose proof Hk as (nd' & N1' & Hd).
  assert (nd' = nd) by congruence. subst nd'. rewrite Hd in N4.
  rewrite (C79_read rd m tr {| fe_node := j; fe_name := last fs []; fe_cursor := 0 |} d s size offset Ht Hk N4); [reflexivity| |exact Hof|exact Hsi|].
  - cbn. lia.
  - rewrite Hsss. destruct Hfew; [left|now right]. destruct (_ <? _); assumption.
Qed.
Print Assumptions C87_read.

(** Nothing is opened where the names lead nowhere. *)
Theorem C87_nothing :
  forall b m rd h root doc chars css path rd0 op k st,
    wmounts m rd h root doc chars -> wmount_path_of m css path ->
    reached doc (fun q n => same_list q (chars n)) Top css = None ->
    opens_to_read b k path op -> dk_contexts st k = None ->
    dokan_step rd0 b m op st = (DrStatus NotFound, st).
Proof.
  intros b m rd h root doc chars css path rd0 op k st HM HP HR HOp Hst.
  destruct (wmounted_tree m rd h root doc chars HM) as (o & t' & tr & HO & Ho & Ht & He & Hss & Hsss & H0 & Hnd & Hsz).
  destruct (wfound m rd h root doc chars HM tr css path Ht He H0 Hnd Hsz HP) as (ns & fs & Hp & HN & Hw).
  rewrite HR in Hw.
  destruct HOp as [(access & disposition & -> & Ha & Hd)|(Hb & ->)]; subst path.
  - destruct (db_old b) eqn:Hb.
    + destruct (C79_open_old rd0 b m tr css ns fs k access disposition st (wm_ok _ _ _ _ _ _ HM) Ht HN Hb) as (_ & _ & _ & H5 & _).
      apply (H5 Hst (or_introl Hw)); [exact Ha|]. destruct Hd as [Hd|(Hd & _)]; [exact Hd|discriminate Hd].
    + destruct (C79_open rd0 b m tr css ns fs k access disposition st (wm_ok _ _ _ _ _ _ HM) Ht HN Hb) as (_ & _ & _ & H4).
      destruct (H4 Ha) as (_ & H5 & _); [tauto|]. exact (H5 Hst (or_introl Hw)).
  - destruct (C79_open_old rd0 b m tr css ns fs k 0 0 st (wm_ok _ _ _ _ _ _ HM) Ht HN Hb) as (_ & _ & _ & H5 & _).
    exact (proj2 (H5 Hst (or_introl Hw))).
Qed.
Print Assumptions C87_nothing.

(** The listing of a directory whose names have at most 25 units has its items
    in order. *)
Theorem C87_find :
  forall b m rd h root doc chars css path p accept live,
    wmounts m rd h root doc chars -> wmount_path_of m css path ->
    reached doc (fun q n => same_list q (chars n)) Top css = Some p ->
    short_members m doc chars p ->
    (forall i, (i < 2 + length (members (below doc p)))%nat -> accept i = true) ->
    exists l, find_files b m accept path live = (DDone tt, live, l) /\ wlisted m root doc chars p l.
Proof.
  intros b m rd h root doc chars css path p accept live HM HP HR HSh HA.
  destruct (wmounted_tree m rd h root doc chars HM) as (o & t & tr & HO & Ho & Ht & He & Hss & Hsss & H0 & Hnd & Hsz).
  destruct (wfound m rd h root doc chars HM tr css path Ht He H0 Hnd Hsz HP) as (ns & fs & -> & HN & HF).
  rewrite HR in HF. destruct HF as (k & d & Hw & Hk & HI & HE & HT).
  destruct (C79_opened m o rd t tr HO Ho) as (_ & _ & HB). destruct HI as (nd & N1 & N2 & N3 & _).
  pose proof (shows_members rd (mt_volume m) tr doc Hnd _ _ N3) as HS.
  pose proof (names_members _ _ (reached_names doc _ _ css Top p (wm_names _ _ _ _ _ _ HM) HR)) as HNm.
  destruct (witems_listed m rd h root doc chars HM tr o t _ _ HO Ho He HS HNm HSh) as (rest & R1 & R2).
  pose proof Hk as (nd' & N1' & Hd). assert (nd' = nd) by congruence. subst nd'.
  pose proof (set_find_ok m d [46] [46] (wm_ok _ _ _ _ _ _ HM) (proj1 (HB k d Hk))) as HX.
  match type of HX with find_describes _ _ _ _ ?y => exists (y :: dots_entry :: rest); set (x := y) in * end.
  split; [|exists x, rest; split; [reflexivity|]; split; [exact (wfinds_describes m root doc p d [46] [46] x HE HT HX)|exact R2]].
  apply (C80_path b m tr css ns fs accept live _ (wm_ok _ _ _ _ _ _ HM) Ht (fun k d H => proj1 (HB k d H)) HN).
  exists k. split; [exact Hw|]. split.
  - exists nd, x, rest. split; [exact N1|]. split; [reflexivity|]. split; [rewrite Hd; exact HX|exact R1].
  - intros i Hi. apply HA. cbn [length] in Hi. pose proof (Forall2_same_length _ _ _ R2). lia.
Qed.
Print Assumptions C87_find.

(** There is only one such structure, and only one such listing. *)
Theorem C87_unique :
  forall m root doc chars p, codec_ok (mt_codec m) ->
    (forall b i i', wlooks m root doc p b i -> wlooks m root doc p b i' -> i = i') /\
    (forall l l', wlisted m root doc chars p l -> wlisted m root doc chars p l' -> l = l').
Proof.
  intros m root doc chars p OK.
  assert (G : forall p f s x y, wfinds m root doc p f s x -> wfinds m root doc p f s y -> x = y).
  { intros q f s x y [A1 A2 A3 A4 A5 A6 A7] [B1 B2 B3 B4 B5 B6 B7].
    pose proof (halves_unique _ _ _ A2 B2). pose proof (halves_unique _ _ _ A3 B3).
    pose proof (halves_unique _ _ _ A4 B4). pose proof (halves_unique _ _ _ A5 B5).
    destruct x, y; cbn in *. congruence. }
  split.
  - intros b i i' [A1 A2 A3 A4 A5 A6 (A7 & A8 & A9)] [B1 B2 B3 B4 B5 B6 (B7 & B8 & B9)].
    pose proof (halves_unique _ _ _ A2 B2). pose proof (halves_unique _ _ _ A3 B3). pose proof (halves_unique _ _ _ A4 B4).
    assert (in_size i = in_size i').
    { destruct (Z.eq_dec (place_size root p) 0) as [E|E]; [rewrite (A6 E), (B6 E); reflexivity|].
      exact (halves_unique _ _ _ (A5 E) (B5 E)). }
    destruct i, i'; cbn in *. congruence.
  - intros l l' (s & rest & -> & L1 & L2) (s' & rest' & -> & L1' & L2').
    rewrite (G p _ _ s s' L1 L1'). do 2 f_equal. clear L1 L1'. revert rest' L2'.
    induction L2 as [|i x l rest (n & f & X1 & X2 & X3) _ IH]; intros rest' L2'.
    + inversion L2'. reflexivity.
    + inversion L2' as [|? y ? rest'' (n' & f' & Y1 & Y2 & Y3) L3]; subst. f_equal; [|auto].
      rewrite <- (text_fun _ _ _ _ X1 Y1), <- (wfile_name_text_fun _ _ _ _ X2 Y2) in Y3. exact (G _ _ _ _ _ X3 Y3).
Qed.
Print Assumptions C87_unique.

(** * Cases *)
Lemma utf16_ascii c : 1 <= c < 128 -> text utf16 [c] [c].
Proof. intros Hc. apply (text_ascii utf16 utf16_ok). now constructor. Qed.

Lemma xdw_compares cs l n : path_name cs -> text utf16 cs l -> zlen n mod 2 = 0 -> Forall (fun y => 1 <= y < 128) (xd_chars n) ->
  una_utf16_compare xw_una l n Little = Ok (same_list cs (xd_chars n)).
Proof.
  intros (Hne & Hp) Ht Hn Ha. cbn [una_utf16_compare xw_una xf_una]. unfold xf_compare. rewrite Hn. change (0 =? 0) with true. cbv iota.
  f_equal. assert (H0 : Forall (fun c => c <> 0) cs) by (eapply Forall_impl; [|exact Hp]; cbn; intros; lia).
  rewrite (xf_strip_none l) by exact (text_nonzero utf16 utf16_ok cs l Ht H0). fold (xd_chars n). unfold same_list.
  destruct (list_eq_dec Z.eq_dec cs (xd_chars n)) as [E|E].
  - apply xf_eqb_eq. subst cs. pose proof (text_ascii utf16 utf16_ok _ Ha) as Ht'. exact (text_fun utf16 _ _ _ Ht Ht').
  - apply not_true_is_false. intros H. apply xf_eqb_eq in H. subst l. apply E. exact (text_of_ascii utf16 cs _ utf16_ok Ht Ha H0).
Qed.

Definition xdw_open := open_read xw_una (file_reader (write (xw_format Little) xs_doc)) [].

Lemma xdw_mounts o t : xdw_open = (Ok o, t) ->
  wmounts (xw_mounted o) (file_reader (write (xw_format Little) xs_doc)) (w_h (xw_format Little) xs_doc) (w_root (xw_format Little) xs_doc) xs_doc xd_chars.
Proof.
  unfold xdw_open. intros E. destruct (C81_document_case Little) as (H1 & H2 & H3 & _). constructor.
  - apply written_holds; auto.
    + exact xw_una_ok.
    + apply file_reader_bytes. exact (write_bytes (xw_format Little) xs_doc H1).
    + apply file_reader_sound.
    + apply file_reader_total.
    + discriminate.
  - exact (xw_ok o).
  - intros o' t' E'. cbn [mt_una xw_mounted] in E'. assert (o' = o) by congruence. subst o'. split; reflexivity.
  - assert (N : forall n c, xw_name n Little = Some [c] -> xd_chars n = [c] -> 1 <= c < 128 -> c <> 92 ->
        path_name (xd_chars n) /\
        exists l, mt_name (xw_mounted o) n Little = Some l /\ text utf16 (xd_chars n) l).
    { intros n c N1 N2 N3 N4. rewrite N2. split; [split; [discriminate|constructor; [lia|constructor]]|].
      exists [c]. split; [exact N1|exact (utf16_ascii c N3)]. }
    cbn [names_ok doc_items xs_doc].
    split; [apply (N _ 97); [reflexivity|reflexivity|lia|lia]|].
    split; [apply (N _ 98); [reflexivity|reflexivity|lia|lia]|].
    split; [|exact I].
    split; [apply (N _ 99); [reflexivity|reflexivity|lia|lia]|].
    split; [apply (N _ 100); [reflexivity|reflexivity|lia|lia]|exact I].
  - intros cs l Hp Ht. cbn [mt_una xw_mounted mt_codec] in *.
    assert (N : forall n c, zlen n mod 2 = 0 -> xd_chars n = [c] -> 1 <= c < 128 ->
        una_utf16_compare xw_una l n Little = Ok (same_list cs (xd_chars n))).
    { intros n c N1 N2 N3. apply xdw_compares; [exact Hp|exact Ht|exact N1|]. rewrite N2. constructor; [exact N3|constructor]. }
    cbn [names_ok doc_items xs_doc].
    split; [apply (N _ 97); [reflexivity|reflexivity|lia]|].
    split; [apply (N _ 98); [reflexivity|reflexivity|lia]|].
    split; [|exact I].
    split; [apply (N _ 99); [reflexivity|reflexivity|lia]|].
    split; [apply (N _ 100); [reflexivity|reflexivity|lia]|exact I].
Qed.

(** The path "\b\d" of the document of C81, in all builds. *)
Example C87_case :
  exists o t, xdw_open = (Ok o, t) /\
    let m := xw_mounted o in
    let rd := file_reader (write (xw_format Little) xs_doc) in
    wmounts m rd (w_h (xw_format Little) xs_doc) (w_root (xw_format Little) xs_doc) xs_doc xd_chars /\
    wmount_path_of m [[98]; [100]] [92; 98; 92; 100] /\
    reached xs_doc (fun q n => same_list q (xd_chars n)) Top [[98]; [100]] =
      Some (At (Stream [100; 0] 0 0 (Spec_SetWrite.set_written Little xs_set))) /\
    reached xs_doc (fun q n => same_list q (xd_chars n)) Top [[98]; [97]] = None /\
    short_members m xs_doc xd_chars Top /\
    (forall b, opens_to_read b 0 [92; 98; 92; 100] (DkCreate 0 [92; 98; 92; 100] 1 3)) /\
    match get_file_information m [92; 98; 92; 100] (xw_information (5, 6)) with
    | DDone x => in_attributes x = 128 /\ in_size x = (360, 0)
    | _ => False
    end /\
    Forall (fun b =>
      match find_files b m (fun _ => true) [92; 98] 0 with
      | (r, _, l) => map fd_name l = [[46]; [46; 46]; [99]; [100]] /\ map fd_short_name l = [[46]; [46; 46]; [99]; [100]]
      end) xw_builds.
Proof.
  destruct xdw_open as [[o| | |] t] eqn:E; try (exfalso; revert E; vm_compute; discriminate).
  exists o, t. split; [reflexivity|]. cbv zeta. split; [exact (xdw_mounts o t E)|].
  split.
  { assert (T : forall c, 1 <= c < 128 -> exists l, text utf16 [c] l /\ zlen l <= 461168601842738790).
    { intros c Hc. exists [c]. split; [exact (utf16_ascii c Hc)|]. change (zlen [c]) with 1. lia. }
    split; [repeat constructor; try discriminate|]. split; [constructor; [apply T; lia|constructor; [apply T; lia|constructor]]|].
    exists [[98]; [100]]. split; [|split; [reflexivity|reflexivity]].
    assert (F : forall c, wplain c -> ~ unprintable c -> c <> 94 -> cd_encode utf16 c = Ok [c] -> wfile_name_text utf16 [c] [c]).
    { intros c F1 F2 F3 F4. exists [[c]]. split; [constructor; [apply wc_other; auto|constructor]|reflexivity]. }
    assert (U : forall c, 48 <= c < 128 -> c mod 65536 = c -> ~ unprintable c).
    { intros c Hc Hm. unfold unprintable. rewrite Hm. cbn [In]. lia. }
    change (mt_codec (xw_mounted o)) with utf16.
    constructor; [apply F; [unfold wplain, reserved; cbn [In]; lia|apply U; [lia|reflexivity]|lia|reflexivity]|].
    constructor; [apply F; [unfold wplain, reserved; cbn [In]; lia|apply U; [lia|reflexivity]|lia|reflexivity]|constructor]. }
  split; [reflexivity|]. split; [reflexivity|].
  split.
  { unfold short_members. change (mt_codec (xw_mounted o)) with utf16.
    assert (S : forall n c, xd_chars n = [c] -> 1 <= c < 128 -> forall x, text utf16 (xd_chars n) x -> zlen x <= 25).
    { intros n c -> Hc x Hx. rewrite <- (text_fun utf16 _ _ _ (utf16_ascii c Hc) Hx). change (zlen [c]) with 1. lia. }
    cbn [below members doc_items xs_doc].
    constructor; [apply (S _ 97); [reflexivity|lia]|]. constructor; [apply (S _ 98); [reflexivity|lia]|constructor]. }
  split; [intros b; left; exists 1, 3; auto|].
  assert (C : match xdw_open with
              | (Ok o, _) => let m := xw_mounted o in
                  match get_file_information m [92; 98; 92; 100] (xw_information (5, 6)) with
                  | DDone x => in_attributes x = 128 /\ in_size x = (360, 0)
                  | _ => False
                  end /\
                  Forall (fun b =>
                    match find_files b m (fun _ => true) [92; 98] 0 with
                    | (r, _, l) => map fd_name l = [[46]; [46; 46]; [99]; [100]] /\ map fd_short_name l = [[46]; [46; 46]; [99]; [100]]
                    end) xw_builds
              | _ => False
              end) by (vm_compute; repeat constructor).
  rewrite E in C. exact C.
Qed.
