(** C96: what olecfinfo tells of damaged documents. *)
From Coq Require Import String ZArith List Bool Lia.
From Verif Require Import Base Spec_IO M_Table M_Header M_Load M_Stream M_Tree M_Open M_Item M_Mount M_File
  M_Prop M_PyProp M_Info Spec_Stream Spec_Content Spec_Tree Spec_Load Spec_Open Spec_Prop Spec_PyProp Spec_Info Spec_Item Spec_Write Spec_Stores
  L_Base L_Load L_Header L_Open L_Open2 L_Export3 L_Info2 L_Info3 L_Info4 L_Info5 L_Info6 X_File X_Linear X_Prop X_Fuse P_File P_Write P_Info
  L_Write L_Write2 L_Write3 L_Write4 L_Write6 L_Write7 L_Stores L_Stores2 P_SetWrite P_Doc Spec_Fault L_Fault L_Fault2 L_Fault3 P_Fault
  Spec_Requests L_Requests P_Requests Spec_Doc L_Doc Spec_DocInfo L_DocInfo P_DocInfo Spec_Salvage Spec_InfoDamage L_InfoDamage.
Import ListNotations.
Open Scope Z_scope.

(** Two runs on the same file. *)
Lemma run_two lib text empty names date u ev rd0 w w0 allocation cp cp0 f o t :
  infolib_ok lib text empty names date -> una_ok u -> io_bytes (ev_reader ev) -> io_bytes rd0 ->
  io_sound (ev_reader ev) f -> io_sound rd0 f -> io_total rd0 f ->
  ev_is_open ev = true -> ev_open ev = true ->
  open_read u (ev_reader ev) [] = (Ok o, t) -> open_read u rd0 [] = (Ok o, t) ->
  exists a s1 s2 s1' s2',
    (exists L, lists_all (o_tree o) L /\
       a = file_pieces (o_header o) ++ items_pieces lib names (fh_byte_order (o_header o)) (o_tree o) L ++ allocation_pieces allocation) /\
    information lib text empty date u (ev_reader ev) (opened_volume o) (o_tree o) 1252 summary_name summary_heading s1 /\
    information lib text empty date u (ev_reader ev) (opened_volume o) (o_tree o) 1252 document_name document_heading s2 /\
    information lib text empty date u rd0 (opened_volume o) (o_tree o) 1252 summary_name summary_heading s1' /\
    information lib text empty date u rd0 (opened_volume o) (o_tree o) 1252 document_name document_heading s2' /\
    olecfinfo lib u ev w allocation cp = (Ok (snd (printed (a ++ s1 ++ s2)) && ev_close ev), fst (printed (a ++ s1 ++ s2))) /\
    olecfinfo lib u (with_reader ev rd0) w0 allocation cp0 =
      (Ok (snd (printed (a ++ s1' ++ s2')) && ev_close ev), fst (printed (a ++ s1' ++ s2'))).
Proof.
  intros HL Hu HB HB0 HS HS0 HT0 E1 E2 HO HO0.
  destruct (C73_run lib text empty names date u ev w allocation cp HL Hu HB)
    as [(_ & [H|[H|(t' & H)]])|(o1 & t1 & L & s1 & s2 & _ & _ & O1 & L1 & I1 & I2 & R)]; [congruence..|].
  destruct (C73_run lib text empty names date u (with_reader ev rd0) w0 allocation cp0 HL Hu HB0)
    as [(_ & [H|[H|(t' & H)]])|(o2 & t2 & L' & s1' & s2' & _ & _ & O2 & L2 & I1' & I2' & R')]; cbn [with_reader ev_reader ev_is_open ev_open] in *;
    [congruence..|].
  assert (o1 = o) by congruence. assert (o2 = o) by congruence. subst o1 o2.
  assert (L' = L).
  { destruct (o_tree o) as [tr|]; cbn [lists_all] in L1, L2; [exact (listed_unique tr _ _ _ L2 _ L1)|congruence]. }
  subst L'. cbv zeta in R, R'. 
  exists (file_pieces (o_header o) ++ items_pieces lib names (fh_byte_order (o_header o)) (o_tree o) L ++ allocation_pieces allocation), s1, s2, s1', s2'.
  split; [eauto|]. rewrite <- !app_assoc. auto 10.
Qed.

Lemma printed_stops a h b r b' :
  snd (printed (a ++ [Some h; None] ++ b)) = false /\
  exists rest, fst (printed (a ++ (Some h :: r) ++ b')) = fst (printed (a ++ [Some h; None] ++ b)) ++ rest.
Proof.
  rewrite (printed_app a), (printed_app a ((Some h :: r) ++ b')). destruct (snd (printed a)); cbn [fst snd app printed]; [|split; [reflexivity|exists []; now rewrite app_nil_r]].
  split; [reflexivity|]. exists (fst (printed (r ++ b'))). now rewrite app_nil_r, app_assoc.
Qed.

(** * Theorems *)

(** Any file, of which the tables could be read when it was opened, whatever
    fails: what is told of it is a beginning of what is told when all can be
    read, and if the tool reports success, it is all. *)
Theorem C96_beginning :
  forall lib text empty names date u ev rd0 w w0 allocation cp cp0 f o t,
    infolib_ok lib text empty names date -> una_ok u -> io_bytes (ev_reader ev) -> io_bytes rd0 ->
    io_sound (ev_reader ev) f -> io_sound rd0 f -> io_total rd0 f ->
    open_read u (ev_reader ev) [] = (Ok o, t) -> tables_read (ev_reader ev) f o ->
    let r := olecfinfo lib u ev w allocation cp in
    let r0 := olecfinfo lib u (with_reader ev rd0) w0 allocation cp0 in
    (exists rest, snd r0 = snd r ++ rest) /\ (fst r = Ok true -> r0 = r).
Proof.
  intros lib text empty names date u ev rd0 w w0 allocation cp cp0 f o t HL Hu HB HB0 HS HS0 HT0 HO HR r r0.
  pose proof (C88_same u _ rd0 f o t Hu HB HS HS0 HT0 HO HR) as HO0.
  destruct (ev_is_open ev && ev_open ev) eqn:E.
  2:{ assert (G : forall rd w cp, io_bytes rd -> olecfinfo lib u (with_reader ev rd) w allocation cp = (Ok false, [])).
      { intros rd w1 cp1 Hb.
        destruct (C73_run lib text empty names date u (with_reader ev rd) w1 allocation cp1 HL Hu Hb)
          as [(H & _)|(o1 & t1 & L & s1 & s2 & H1 & H2 & _)]; [exact H|]. cbn [with_reader ev_is_open ev_open] in H1, H2.
        rewrite H1, H2 in E. discriminate. }
      assert (Er : r = (Ok false, [])).
      { unfold r. rewrite <- (G (ev_reader ev) w cp HB). f_equal. unfold with_reader. now destruct ev. }
      unfold r0. rewrite Er, (G rd0 w0 cp0 HB0). split; [exists []; reflexivity|discriminate]. }
  apply andb_prop in E as [E1 E2].
  destruct (run_two lib text empty names date u ev rd0 w w0 allocation cp cp0 f o t HL Hu HB HB0 HS HS0 HT0 E1 E2 HO HO0)
    as (a & s1 & s2 & s1' & s2' & _ & I1 & I2 & I1' & I2' & R & R'). unfold r, r0. rewrite R, R'. cbn [fst snd]. clear r r0 R R'.
  pose proof (opened_volume_ok u _ Hu HB o t HO) as HV.
  assert (HD : forall tr j d, o_tree o = Some tr -> item_entry tr j d -> dirent_ok d)
    by (intros tr j d Et; exact (opened_item_ok u _ o t tr j d Hu HB HO Et)).
  pose proof (information_two lib text empty date u _ rd0 f _ _ HV HD HS HS0 HT0 _ _ _ _ I1 I1') as T1.
  pose proof (information_two lib text empty date u _ rd0 f _ _ HV HD HS HS0 HT0 _ _ _ _ I2 I2') as T2.
  destruct T1 as [->|(-> & q1 & ->)].
  - destruct T2 as [->|(-> & q2 & ->)].
    + split; [exists []; now rewrite app_nil_r|auto].
    + destruct (printed_stops (a ++ s1') document_heading [] q2 []) as (P1 & P2). rewrite !app_nil_r, <- !app_assoc in *.
      rewrite P1. split; [exact P2|discriminate].
  - destruct (printed_stops a summary_heading s2 q1 s2') as (P1 & P2). rewrite P1. split; [exact P2|discriminate].
Qed.
Print Assumptions C96_beginning.

Lemma list_dec (l l' : list (option (list Z))) : {l = l'} + {l <> l'}.
Proof. decide equality. decide equality. decide equality. apply Z.eq_dec. Qed.

Lemma left_shown lib text empty date same doc q heading (whole : Prop) l l0 :
  l = l0 \/ l = [Some heading; None] /\ (exists r, l0 = Some heading :: r) -> (whole -> l = l0) ->
  set_shown lib text empty date same doc q heading l0 -> set_left lib text empty date same doc q heading whole l.
Proof.
  intros H HW HS. destruct (list_dec l l0) as [->|N]; [now left|]. destruct H as [H|(-> & r & ->)]; [contradiction|].
  right. split; [|split; [tauto|reflexivity]]. unfold set_shown in HS.
  destruct (find _ _) as [[n c m s|n c m a]|]; [eauto|congruence|discriminate].
Qed.

Lemma tree_there u f h root doc o t : una_ok u -> stores u f h root doc -> doc_items doc <> Empty ->
  open_read u (file_reader f) [] = (Ok o, t) -> exists tr, o_tree o = Some tr.
Proof.
  intros Hu HF HE HO. assert (Hf : Forall is_byte f) by (destruct HF as (? & ? & ? & ? & ? & G & _); exact G).
  destruct (stored_opens u (file_reader f) f Hu (file_reader_bytes f Hf) (file_reader_sound f) (file_reader_total f) h root doc HF)
    as (o0 & t0 & H1 & _ & _ & _ & H4 & _).
  rewrite HO in H1. apply pair_equal_spec in H1 as [H1 _]. apply Ok_inj in H1. subst o0.
  destruct (o_tree o) as [tr|]; [eauto|]. now elim HE; apply H4.
Qed.

Lemma damaged_info lib text empty names date u ev w allocation cp f h root doc name same o t tr :
  infolib_ok lib text empty names date -> lib_accepts (pl_values (il_prop lib)) ->
  ev_is_open ev = true -> ev_open ev = true -> una_ok u -> stores u f h root doc -> doc_items doc <> Empty ->
  io_bytes (ev_reader ev) -> io_sound (ev_reader ev) f ->
  open_read u (ev_reader ev) [] = (Ok o, t) -> open_read u (file_reader f) [] = (Ok o, t) -> o_tree o = Some tr ->
  names (doc_name doc) (fh_byte_order h) = Some (name (doc_name doc)) ->
  names_ok (fun n => names n (fh_byte_order h) = Some (name n)) (doc_items doc) ->
  compares (fun q n => una_utf8_compare u q n (fh_byte_order h)) same [summary_name; document_name] doc ->
  Forall (fun s => zlen s < 2 ^ 32 - 1) (streams (doc_items doc)) ->
  forall P : dirent -> Prop,
  (forall d s, is_readable_stream (file_reader f) (opened_volume o) d s -> P d -> can_read (ev_reader ev) (opened_volume o) d) ->
  exists s1 s2,
    set_left lib text empty date same doc summary_name summary_heading (of_item u (opened_volume o) tr summary_name P) s1 /\
    set_left lib text empty date same doc document_name document_heading (of_item u (opened_volume o) tr document_name P) s2 /\
    olecfinfo lib u ev w allocation cp =
      (Ok (snd (printed (s1 ++ s2)) && ev_close ev),
       overview (il_signed lib) allocation h (portrait name (de_size root) doc) ++ fst (printed (s1 ++ s2))).
Proof.
  intros HL HA E1 E2 Hu HF HE HB HS HO HO0 Et Hr HN HC HZ P HP.
  assert (Hf : Forall is_byte f) by (destruct HF as (? & ? & ? & ? & ? & G & _); exact G).
  pose proof (file_reader_bytes f Hf) as HB0. pose proof (file_reader_sound f) as HS0. pose proof (file_reader_total f) as HT0.
  assert (HH : holds u (file_reader f) h root doc) by (constructor; auto; exists f; auto).
  destruct (holds_opens u _ h root doc HH) as (o1 & t1 & tr1 & H1 & H2 & H3 & H4 & H5 & H6).
  assert (o1 = o) by congruence. subst o1. assert (tr1 = tr) by congruence. subst tr1.
  pose proof (opened_volume_ok u _ Hu HB o t HO) as HV.
  assert (HD : forall tr j d, o_tree o = Some tr -> item_entry tr j d -> dirent_ok d)
    by (intros tr' j d E; exact (opened_item_ok u _ o t tr' j d Hu HB HO E)).
  assert (HSh : exists nd, nth_error (tr_nodes tr) 0 = Some nd /\ shows (file_reader f) (opened_volume o) tr (n_subs nd) (doc_items doc)).
  { destruct H4 as (nd & N1 & _ & N3 & _). exists nd. auto. }
  assert (HW : forall q, of_item u (opened_volume o) tr q P -> of_item u (opened_volume o) tr q (can_read (ev_reader ev) (opened_volume o))).
  { intros q HPq j d Hj Hd. destruct HSh as (nd0 & N0 & N1).
    assert (Hin : In j (n_subs nd0)).
    { unfold sub_node_by_utf8_name, sub_nodes in Hj. rewrite N0 in Hj. cbn [rbind] in Hj. exact (sub_node_in _ _ _ _ Hj). }
    destruct (shows_item _ _ _ _ _ N1 j Hin) as (nd & N2 & N3).
    assert (Hn : item_entry tr j (n_entry nd)) by (exists nd; auto). pose proof (entry_fun tr j d (n_entry nd) Hd Hn) as ->.
    destruct N3 as [N3|(s & N3)].
    - intros t0 off m (Hm & i & I1 & I2 & _). rewrite (H5 j nd N2 N3) in I2. lia.
    - apply (HP _ s N3). exact (HPq j _ Hj Hd). }
  assert (He : v_byte_order (opened_volume o) = fh_byte_order h) by (cbn [opened_volume v_byte_order]; rewrite H3; reflexivity).
  destruct (run_two lib text empty names date u ev (file_reader f) w w allocation cp cp f o t HL Hu HB HB0 HS HS0 HT0 E1 E2 HO HO0)
    as (a & s1 & s2 & s1' & s2' & (L & HLi & ->) & I1 & I2 & I1' & I2' & R & _).
  exists s1, s2. split; [|split].
  - destruct (information_two lib text empty date u _ _ f _ _ HV HD HS HS0 HT0 _ _ _ _ I1 I1') as [E|(E & r & E')];
      (eapply left_shown with (l0 := s1');
       [|intros HPq; exact (information_whole lib text empty date u _ _ f _ _ HV HD HS HS0 HT0 tr _ _ _ _ _ Et HSh I1 I1' (HW _ HPq))|]).
    + now left.
    + rewrite Et in I1'. eapply (information_shown lib text empty date u _ _ tr doc HA H5 H4 HZ same [summary_name; document_name] summary_name); [now left|rewrite He; exact HC|exact I1'].
    + right. eauto.
    + rewrite Et in I1'. eapply (information_shown lib text empty date u _ _ tr doc HA H5 H4 HZ same [summary_name; document_name] summary_name); [now left|rewrite He; exact HC|exact I1'].
  - destruct (information_two lib text empty date u _ _ f _ _ HV HD HS HS0 HT0 _ _ _ _ I2 I2') as [E|(E & r & E')];
      (eapply left_shown with (l0 := s2');
       [|intros HPq; exact (information_whole lib text empty date u _ _ f _ _ HV HD HS HS0 HT0 tr _ _ _ _ _ Et HSh I2 I2' (HW _ HPq))|]).
    + now left.
    + rewrite Et in I2'. eapply (information_shown lib text empty date u _ _ tr doc HA H5 H4 HZ same [summary_name; document_name] document_name); [right; now left|rewrite He; exact HC|exact I2'].
    + right. eauto.
    + rewrite Et in I2'. eapply (information_shown lib text empty date u _ _ tr doc HA H5 H4 HZ same [summary_name; document_name] document_name); [right; now left|rewrite He; exact HC|exact I2'].
  - rewrite R. rewrite Et in HLi |- *. cbn [lists_all] in HLi. rewrite H3.
    assert (HPi : pictured names (fh_byte_order h) tr 0 (portrait name (de_size root) doc)).
    { destruct H4 as (nd & N1 & (_ & N2 & _) & N3 & _). destruct H6 as (nd' & N4 & N5).
      assert (nd' = nd) by congruence. subst nd'. unfold portrait. rewrite <- N5. constructor 1 with (n := nd).
      - exact N1.
      - rewrite N2. exact Hr.
      - eapply shows_pictured; [exact H5|exact N3|exact HN]. }
    pose proof (C73_listing (il_signed lib) names (fh_byte_order h) tr L _ HLi HPi) as HT.
    unfold overview, items_pieces. cbn [file_pieces app printed fst snd].
    rewrite !printed_app. rewrite HT. destruct allocation; cbn [allocation_pieces app printed fst snd andb];
      rewrite ?printed_app, ?app_nil_r; repeat (progress cbn [app] || rewrite <- app_assoc); reflexivity.
Qed.

(** A document of which the tables could be read, whatever fails: the lines on
    the file and all items; and each of the two sets, unless bytes of its
    stream are not delivered: then its heading and a failure may be all. *)
Theorem C96_info :
  forall lib text empty names date u ev w allocation cp f h root doc name same o t,
    infolib_ok lib text empty names date -> lib_accepts (pl_values (il_prop lib)) ->
    ev_is_open ev = true -> ev_open ev = true -> una_ok u -> stores u f h root doc -> doc_items doc <> Empty ->
    io_bytes (ev_reader ev) -> io_sound (ev_reader ev) f ->
    open_read u (ev_reader ev) [] = (Ok o, t) -> tables_read (ev_reader ev) f o ->
    names (doc_name doc) (fh_byte_order h) = Some (name (doc_name doc)) ->
    names_ok (fun n => names n (fh_byte_order h) = Some (name n)) (doc_items doc) ->
    compares (fun q n => una_utf8_compare u q n (fh_byte_order h)) same [summary_name; document_name] doc ->
    Forall (fun s => zlen s < 2 ^ 32 - 1) (streams (doc_items doc)) ->
    exists tr s1 s2, o_tree o = Some tr /\
      (let whole q := of_item u (opened_volume o) tr q (can_read (ev_reader ev) (opened_volume o)) in
       set_left lib text empty date same doc summary_name summary_heading (whole summary_name) s1 /\
       set_left lib text empty date same doc document_name document_heading (whole document_name) s2) /\
      olecfinfo lib u ev w allocation cp =
        (Ok (snd (printed (s1 ++ s2)) && ev_close ev),
         overview (il_signed lib) allocation h (portrait name (de_size root) doc) ++ fst (printed (s1 ++ s2))).
Proof.
  intros lib text empty names date u ev w allocation cp f h root doc name same o t HL HA E1 E2 Hu HF HE HB HS HO HR N1 N2 HC HZ.
  pose proof (C88_same u _ (file_reader f) f o t Hu HB HS (file_reader_sound f) (file_reader_total f) HO HR) as HO0.
  destruct (tree_there u f h root doc o t Hu HF HE HO0) as (tr & Et).
  destruct (damaged_info lib text empty names date u ev w allocation cp f h root doc name same o t tr HL HA E1 E2 Hu HF HE HB HS HO HO0 Et N1 N2 HC HZ
              (can_read (ev_reader ev) (opened_volume o)) ltac:(auto)) as (s1 & s2 & R1 & R2 & R3).
  exists tr, s1, s2. auto.
Qed.
Print Assumptions C96_info.

(** A file of the writer of C61 that is cut off after the directory: a set is
    shown if its stream is before the end. *)
Theorem C96_written :
  forall lib text empty names date u ev w allocation cp fm doc k name same,
    infolib_ok lib text empty names date -> lib_accepts (pl_values (il_prop lib)) ->
    ev_is_open ev = true -> ev_open ev = true ->
    una_ok u -> writable fm doc -> comparable u (fm_order fm) (doc_name doc) ->
    names_ok (comparable u (fm_order fm)) (doc_items doc) -> doc_items doc <> Empty ->
    io_bytes (ev_reader ev) -> io_sound (ev_reader ev) (cut k (write fm doc)) -> io_total (ev_reader ev) (cut k (write fm doc)) ->
    (w_n_sat fm doc + w_n_ssat fm doc + w_n_dir fm doc + 1) * 2 ^ fm_sector fm <= k ->
    names (doc_name doc) (fm_order fm) = Some (name (doc_name doc)) ->
    names_ok (fun n => names n (fm_order fm) = Some (name n)) (doc_items doc) ->
    compares (fun q n => una_utf8_compare u q n (fm_order fm)) same [summary_name; document_name] doc ->
    Forall (fun s => zlen s < 2 ^ 32 - 1) (streams (doc_items doc)) ->
    exists o t tr s1 s2, open_read u (ev_reader ev) [] = (Ok o, t) /\ o_tree o = Some tr /\
      (let whole q := of_item u (opened_volume o) tr q (fun d => stream_before (opened_volume o) d k) in
       set_left lib text empty date same doc summary_name summary_heading (whole summary_name) s1 /\
       set_left lib text empty date same doc document_name document_heading (whole document_name) s2) /\
      olecfinfo lib u ev w allocation cp =
        (Ok (snd (printed (s1 ++ s2)) && ev_close ev),
         overview (il_signed lib) allocation (w_h fm doc) (portrait name (de_size (w_root fm doc)) doc) ++ fst (printed (s1 ++ s2))).
Proof.
  intros lib text empty names date u ev w allocation cp fm doc k name same HL HA E1 E2 Hu W HC HCs HE HB HS HT Hk N1 N2 HCo HZ.
  destruct (at_eqs fm doc) as (A1 & A2 & A3 & _). rewrite <- A1, <- A2, <- A3 in Hk.
  assert (E : 2 ^ fm_sector fm = w_ss fm) by (unfold w_ss; reflexivity). rewrite E in Hk.
  destruct (written_cut_opens u (ev_reader ev) fm doc k Hu W HC HCs HB HS HT Hk) as (o & t & HO & HO0).
  pose proof (written_stored u fm doc Hu W HC HCs) as HF.
  destruct (tree_there u _ _ _ doc o t Hu HF HE HO0) as (tr & Et).
  destruct (damaged_info lib text empty names date u ev w allocation cp (write fm doc) (w_h fm doc) (w_root fm doc) doc name same o t tr
              HL HA E1 E2 Hu HF HE HB (cut_sound k _ _ HS) HO HO0 Et N1 N2 HCo HZ (fun d => stream_before (opened_volume o) d k))
    as (s1 & s2 & R1 & R2 & R3).
  - intros d s Hs Hd. apply (readable_delivers _ _ d s); [|lia].
    eapply (readable_cut _ (file_reader (write fm doc)) (write fm doc) k); eauto using file_reader_sound, file_reader_total.
  - exists o, t, tr, s1, s2. auto.
Qed.
Print Assumptions C96_written.

(** A medium with bytes that cannot be read: a set is shown if none of them is
    in its stream. *)
Theorem C96_medium :
  forall lib text empty names date u bad c w allocation cp f h root doc name same o t,
    let ev := {| ev_is_open := true; ev_open := true; ev_close := c; ev_reader := bad_medium bad f |} in
    infolib_ok lib text empty names date -> lib_accepts (pl_values (il_prop lib)) ->
    una_ok u -> stores u f h root doc -> doc_items doc <> Empty ->
    open_read u (bad_medium bad f) [] = (Ok o, t) -> tables_read (bad_medium bad f) f o ->
    names (doc_name doc) (fh_byte_order h) = Some (name (doc_name doc)) ->
    names_ok (fun n => names n (fh_byte_order h) = Some (name n)) (doc_items doc) ->
    compares (fun q n => una_utf8_compare u q n (fh_byte_order h)) same [summary_name; document_name] doc ->
    Forall (fun s => zlen s < 2 ^ 32 - 1) (streams (doc_items doc)) ->
    exists tr s1 s2, o_tree o = Some tr /\
      (let whole q := of_item u (opened_volume o) tr q
                        (fun d => forall i p, 0 <= i < de_size d -> stream_position (opened_volume o) d i p -> bad p = false) in
       set_left lib text empty date same doc summary_name summary_heading (whole summary_name) s1 /\
       set_left lib text empty date same doc document_name document_heading (whole document_name) s2) /\
      olecfinfo lib u ev w allocation cp =
        (Ok (snd (printed (s1 ++ s2)) && c),
         overview (il_signed lib) allocation h (portrait name (de_size root) doc) ++ fst (printed (s1 ++ s2))).
Proof.
  intros lib text empty names date u bad c w allocation cp f h root doc name same o t ev HL HA Hu HF HE HO HR N1 N2 HC HZ.
  assert (Hf : Forall is_byte f) by (destruct HF as (? & ? & ? & ? & ? & G & _); exact G).
  pose proof (bad_bytes bad f Hf) as HB. pose proof (bad_sound bad f) as HS.
  pose proof (C88_same u _ (file_reader f) f o t Hu HB HS (file_reader_sound f) (file_reader_total f) HO HR) as HO0.
  destruct (tree_there u f h root doc o t Hu HF HE HO0) as (tr & Et).
  destruct (damaged_info lib text empty names date u ev w allocation cp f h root doc name same o t tr HL HA eq_refl eq_refl Hu HF HE HB HS HO HO0 Et N1 N2 HC HZ
              (fun d => forall i p, 0 <= i < de_size d -> stream_position (opened_volume o) d i p -> bad p = false))
    as (s1 & s2 & R1 & R2 & R3).
  - intros d s Hs Hd. apply (bad_delivers bad f _ d s); auto; [lia|]. intros i p Hi. apply Hd. lia.
  - exists tr, s1, s2. auto.
Qed.
Print Assumptions C96_medium.

(** * Cases *)

(** The document of C93_case, in a file that is cut off before the set: all
    hypotheses of C96_written hold. *)
Example C96_case :
  let doc := xo_doc (repeat 1 300) Empty in
  let f := write (xw_format Little) doc in
  let ev := good_env (cut 2048 f) in
  infolib_ok (xi_lib true) xi_text (fun _ => Some []) xi_names xi_date /\ lib_accepts (pl_values (il_prop (xi_lib true))) /\
  ev_is_open ev = true /\ ev_open ev = true /\
  una_ok xf_una /\ writable (xw_format Little) doc /\ comparable xf_una Little (doc_name doc) /\
  names_ok (comparable xf_una Little) (doc_items doc) /\ doc_items doc <> Empty /\
  io_bytes (ev_reader ev) /\ io_sound (ev_reader ev) (cut 2048 f) /\ io_total (ev_reader ev) (cut 2048 f) /\
  (w_n_sat (xw_format Little) doc + w_n_ssat (xw_format Little) doc + w_n_dir (xw_format Little) doc + 1) * 2 ^ fm_sector (xw_format Little) <= 2048 /\
  names_ok (fun n => xi_names n Little = Some (xo_name n) /\ clear_name (xo_name n))
    (AddStorage (doc_name doc) 0 0 (doc_items doc) Empty) /\
  compares (fun q n => una_utf8_compare xf_una q n Little) xd_same [summary_name; document_name] doc /\
  Forall (fun s => zlen s < 2 ^ 32 - 1) (streams (doc_items doc)) /\
  olecfinfo (xi_lib true) xf_una ev no_world false None =
    (Ok false,
     overview true false (w_h (xw_format Little) doc) (portrait xo_name (de_size (w_root (xw_format Little) doc)) doc) ++ summary_heading) /\
  fst (olecfinfo (xi_lib true) xf_una (good_env f) no_world false None) = Ok true.
Proof.
  cbv zeta. destruct (xo_names (repeat 1 300) Empty (or_introl eq_refl)) as (N1 & N2).
  pose proof (xo_writable (repeat 1 300) Empty (or_introl eq_refl) (or_introl eq_refl)) as W.
  split; [apply xi_lib_ok|]. split; [exact xp_lib_accepts|]. split; [reflexivity|]. split; [reflexivity|].
  split; [exact xf_una_ok|]. split; [exact W|].
  split; [split; intros H; vm_compute in H; discriminate H|].
  split; [cbn [names_ok doc_items xo_doc]; repeat split; intros H; vm_compute in H; discriminate H|].
  split; [discriminate|]. split; [apply file_reader_bytes, cut_bytes, (write_bytes _ _ W)|].
  split; [apply file_reader_sound|]. split; [apply file_reader_total|]. split; [vm_compute; discriminate|].
  split; [exact N1|]. split; [exact N2|]. split; [repeat constructor|]. split; vm_compute; reflexivity.
Qed.

(** The same file on a medium of which one byte cannot be read: in the stream
    "a" nothing is missed, in the set only the set. *)
Definition xo_medium (p : Z) : env :=
  {| ev_is_open := true; ev_open := true; ev_close := true;
     ev_reader := bad_medium (Z.eqb p) (write (xw_format Little) (xo_doc (repeat 1 300) Empty)) |}.

Example C96_case_medium :
  let doc := xo_doc (repeat 1 300) Empty in
  let f := write (xw_format Little) doc in
  olecfinfo (xi_lib true) xf_una (xo_medium 1600) no_world false None = olecfinfo (xi_lib true) xf_una (good_env f) no_world false None /\
  olecfinfo (xi_lib true) xf_una (xo_medium 2100) no_world false None =
    (Ok false,
     overview true false (w_h (xw_format Little) doc) (portrait xo_name (de_size (w_root (xw_format Little) doc)) doc) ++ summary_heading) /\
  (exists o t, open_read xf_una (ev_reader (xo_medium 2100)) [] = (Ok o, t) /\ tables_read (ev_reader (xo_medium 2100)) f o) /\
  olecfinfo (xi_lib true) xf_una (xo_medium 600) no_world false None <> olecfinfo (xi_lib true) xf_una (good_env f) no_world false None.
Proof.
  cbv zeta. split; [vm_compute; reflexivity|]. split; [vm_compute; reflexivity|]. split; [|vm_compute; discriminate].
  destruct (open_read xf_una (ev_reader (xo_medium 2100)) []) as [r t] eqn:E.
  assert (HC : match r with
               | Ok o => fh_sector_size (o_header o) = 512 /\ fh_ssat_sector_identifier (o_header o) = EOC /\ used_ids (o_msat o) = [0] /\
                         zlen (o_sat o) = 128
               | _ => False
               end).
  { change r with (fst (r, t)). rewrite <- E. vm_compute. repeat (split; [reflexivity|]). reflexivity. }
  destruct r as [o| | |]; try destruct HC. destruct H0 as (H1 & H2 & H3).
  exists o, t. split; [reflexivity|]. intros id HI _ tt. rewrite H in *.
  destruct HI as [HI|(k & HI & N1 & N2)].
  - rewrite H2 in HI. destruct HI as [<-|[]]. eexists. split; vm_compute; reflexivity.
  - exfalso. rewrite H1 in HI.
    assert (G : forall k id, nth_sector (o_sat o) EOC k id -> id = EOC).
    { intros k' id' HN. induction HN as [|k' x y HN IH Hz]; [reflexivity|]. exfalso. subst x. apply znth_range in Hz. rewrite H3 in Hz.
      unfold EOC in Hz. lia. }
    exact (N1 (G _ _ HI)).
Qed.
