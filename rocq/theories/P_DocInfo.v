(** C93: what olecfinfo tells of documents. *)
From Coq Require Import String ZArith List Bool Lia.
From Verif Require Import Base Spec_IO M_Table M_Header M_Load M_Stream M_Tree M_Open M_Item M_Mount M_File
  M_Prop M_PyProp M_Info Spec_Stream Spec_Content Spec_Tree Spec_Load Spec_Open Spec_Prop Spec_PyProp Spec_Info Spec_Item Spec_Write Spec_Stores
  L_Base L_Load L_Header L_Open L_Open2 L_Export3 L_Info2 L_Info4 L_Info5 X_File X_Linear X_Prop X_Fuse P_File P_Write P_Info
  L_Write L_Write2 L_Write3 L_Write4 L_Write6 L_Write7 L_Stores L_Stores2 P_SetWrite P_Doc Spec_Doc L_Doc Spec_DocInfo L_DocInfo.
Import ListNotations.
Open Scope Z_scope.

(** For a document whose names can be converted: the lines on the file, all
    items with their names, sizes and places, and the two sets of properties,
    whatever else is in the file and however the items are stored.  The tool
    succeeds unless one of the two items has no set, or the file cannot be
    closed. *)
Theorem C93_info :
  forall lib text empty names date u ev w allocation codepage h root doc name same,
    infolib_ok lib text empty names date -> lib_accepts (pl_values (il_prop lib)) ->
    ev_is_open ev = true -> ev_open ev = true -> holds u (ev_reader ev) h root doc ->
    names (doc_name doc) (fh_byte_order h) = Some (name (doc_name doc)) ->
    names_ok (fun n => names n (fh_byte_order h) = Some (name n)) (doc_items doc) ->
    compares (fun q n => una_utf8_compare u q n (fh_byte_order h)) same [summary_name; document_name] doc ->
    Forall (fun s => zlen s < 2 ^ 32 - 1) (streams (doc_items doc)) ->
    exists s1 s2,
      set_shown lib text empty date same doc summary_name summary_heading s1 /\
      set_shown lib text empty date same doc document_name document_heading s2 /\
      olecfinfo lib u ev w allocation codepage =
        (Ok (snd (printed (s1 ++ s2)) && ev_close ev),
         overview (il_signed lib) allocation h (portrait name (de_size root) doc) ++ fst (printed (s1 ++ s2))).
Proof.
  intros lib text empty names date u ev w allocation codepage h root doc name same HL HA E1 E2 HH Hr HN HC HS.
  destruct (holds_opens u _ h root doc HH) as (o & t & tr & H1 & H2 & H3 & H4 & H5 & H6).
  destruct (C73_run lib text empty names date u ev w allocation codepage HL (hd_una _ _ _ _ _ HH) (hd_bytes _ _ _ _ _ HH))
    as [(_ & [H|[H|(t' & H)]])|(o' & t' & L & s1 & s2 & _ & _ & HO & HLi & I1 & I2 & ->)]; [congruence..|].
  assert (o' = o) by congruence. subst o'. rewrite H2 in HLi, I1, I2 |- *. cbn [lists_all] in HLi. rewrite H3.
  assert (He : v_byte_order (opened_volume o) = fh_byte_order h) by (cbn [opened_volume v_byte_order]; rewrite H3; reflexivity).
  exists s1, s2. split; [|split].
  - eapply (information_shown lib text empty date u _ _ tr doc HA H5 H4 HS same [summary_name; document_name] summary_name); [now left|rewrite He; exact HC|exact I1].
  - eapply (information_shown lib text empty date u _ _ tr doc HA H5 H4 HS same [summary_name; document_name] document_name); [right; now left|rewrite He; exact HC|exact I2].
  - assert (HP : pictured names (fh_byte_order h) tr 0 (portrait name (de_size root) doc)).
    { destruct H4 as (nd & N1 & (_ & N2 & _) & N3 & _). destruct H6 as (nd' & N4 & N5).
      assert (nd' = nd) by congruence. subst nd'. unfold portrait. rewrite <- N5. constructor 1 with (n := nd).
      - exact N1.
      - rewrite N2. exact Hr.
      - eapply shows_pictured; [exact H5|exact N3|exact HN]. }
    pose proof (C73_listing (il_signed lib) names (fh_byte_order h) tr L _ HLi HP) as HT.
    unfold overview, items_pieces. cbn [file_pieces app printed fst snd].
    rewrite !printed_app. rewrite HT. destruct allocation; cbn [allocation_pieces app printed fst snd andb];
      rewrite ?printed_app, ?app_nil_r; repeat (progress cbn [app] || rewrite <- app_assoc); reflexivity.
Qed.
Print Assumptions C93_info.

(** A document without items. *)
Theorem C93_no_items :
  forall lib text empty names date u ev w f allocation codepage h root doc,
    infolib_ok lib text empty names date -> una_ok u -> stores u f h root doc ->
    io_bytes (ev_reader ev) -> io_sound (ev_reader ev) f -> io_total (ev_reader ev) f -> de_sub root = FREE ->
    ev_is_open ev = true -> ev_open ev = true ->
    olecfinfo lib u ev w allocation codepage =
      (Ok (ev_close ev),
       fst (printed (file_pieces h)) ++ text_of "No storage and stream items" ++ [10; 10] ++
       fst (printed (allocation_pieces allocation))).
Proof.
  intros lib text empty names date u ev w f allocation codepage h root doc HL Hu HF HB HS HT HE E1 E2.
  destruct (stored_opens u _ f Hu HB HS HT h root doc HF) as (o & t & H1 & H2 & _ & H4 & _).
  apply H4 in HE.
  destruct (C73_run lib text empty names date u ev w allocation codepage HL Hu HB)
    as [(_ & [H|[H|(t' & H)]])|(o' & t' & L & s1 & s2 & _ & _ & HO & HLi & I1 & I2 & ->)]; [congruence..|].
  assert (o' = o) by congruence. subst o'. rewrite HE in I1, I2 |- *. cbn [information] in I1, I2. subst s1 s2.
  rewrite H2. rewrite !app_nil_r. unfold items_pieces.
  destruct allocation; cbn [allocation_pieces file_pieces app printed fst snd andb];
    rewrite ?app_nil_r; repeat (progress cbn [app] || rewrite <- app_assoc); reflexivity.
Qed.
Print Assumptions C93_no_items.

Lemma held_ranges u rd h root doc : holds u rd h root doc ->
  0 <= fh_major_format_version h < 10 ^ 20 /\ 0 <= fh_minor_format_version h < 10 ^ 20 /\
  0 <= fh_sector_size h < 10 ^ 20 /\ 0 <= fh_short_sector_size h < 10 ^ 20 /\
  0 <= de_size root < 4294967296 /\ Forall (fun s => zlen s < 4294967296) (streams (doc_items doc)).
Proof.
  intros HH. destruct (holds_opens u rd h root doc HH) as (o & t & tr & H1 & H2 & H3 & H4 & H5 & H6).
  pose proof (hd_una _ _ _ _ _ HH) as Hu. pose proof (hd_bytes _ _ _ _ _ HH) as HB.
  destruct (opened_header u rd Hu HB o t H1) as (HF & _). rewrite H3 in HF.
  assert (HP : forall x, power_of_two x -> 0 <= x < 10 ^ 20).
  { intros x (a & Ha & ->). pose proof (Z.pow_le_mono_r 2 a 15 ltac:(lia) ltac:(lia)).
    pose proof (Z.pow_nonneg 2 a ltac:(lia)). lia. }
  destruct (opened_outcome u rd Hu HB o t H1) as (data & e & _ & Hlen & Hb & _ & Hh & _). rewrite H3 in Hh.
  assert (HV : forall p, 0 <= p -> p + 2 <= 512 -> 0 <= Spec_Load.value_at e data p 2 < 10 ^ 20).
  { intros p Hp1 Hp2. pose proof (value_at_range e data p 2 ltac:(assumption) ltac:(lia) ltac:(lia) ltac:(lia)) as HR. cbn in HR. lia. }
  split; [rewrite Hh; apply HV; lia|]. split; [rewrite Hh; apply HV; lia|].
  split; [exact (HP _ (hf_ss _ HF))|]. split; [exact (HP _ (hf_sss _ HF))|].
  split; [exact (do_size _ (opened_item_ok u rd o t tr 0%nat root Hu HB H1 H2 H6))|].
  destruct H4 as (nd & _ & _ & HS & _). cbn [below] in HS. revert HS. generalize (n_subs nd) (doc_items doc). clear.
  intros js fo. induction 1 as [|j js nd n c m s r H1 H2 H3 H4 H5 H6 H7 H8 IH|j js nd n c m a r H1 H2 IHa H3 H4 H5 H6 H7 IH];
    cbn [streams].
  - constructor.
  - constructor; [|exact IH]. destruct H7 as (_ & HD & _ & _ & _ & f & _ & _ & _ & -> & _). apply (do_size _ HD).
  - apply Forall_app. auto.
Qed.

Lemma portrait_clear u rd h root doc name : holds u rd h root doc ->
  clear_name (name (doc_name doc)) -> names_ok (fun n => clear_name (name n)) (doc_items doc) ->
  clear (portrait name (de_size root) doc).
Proof.
  intros HH H1 H2. destruct (held_ranges _ _ _ _ _ HH) as (_ & _ & _ & _ & H3 & H4). cbn [portrait clear].
  split; [exact H1|]. split; [exact H3|]. revert H2 H4. generalize (doc_items doc).
  induction f as [|n c m s r IH|n c m a IHa r IH]; cbn [names_ok streams pictures map fold_right clear].
  - auto.
  - intros (A & B) HF. inversion HF as [|? ? F1 F2]; subst. pose proof (zlen_nonneg s). auto.
  - intros (A & B & C) HF. apply Forall_app in HF as (F1 & F2). split; [|auto]. split; [exact A|]. split; [lia|]. auto.
Qed.

(** Files with the same output have the same format, and their documents the
    same items, by the texts of their names, in the same places, with data of
    the same sizes. *)
Theorem C93_tells :
  forall lib text empty names date u ev w cp h root doc u' ev' w' cp' h' root' doc' allocation name name' same same',
    infolib_ok lib text empty names date -> lib_accepts (pl_values (il_prop lib)) ->
    ev_is_open ev = true -> ev_open ev = true -> holds u (ev_reader ev) h root doc ->
    names_ok (fun n => names n (fh_byte_order h) = Some (name n) /\ clear_name (name n))
      (AddStorage (doc_name doc) 0 0 (doc_items doc) Empty) ->
    compares (fun q n => una_utf8_compare u q n (fh_byte_order h)) same [summary_name; document_name] doc ->
    ev_is_open ev' = true -> ev_open ev' = true -> holds u' (ev_reader ev') h' root' doc' ->
    names_ok (fun n => names n (fh_byte_order h') = Some (name' n) /\ clear_name (name' n))
      (AddStorage (doc_name doc') 0 0 (doc_items doc') Empty) ->
    compares (fun q n => una_utf8_compare u' q n (fh_byte_order h')) same' [summary_name; document_name] doc' ->
    Forall (fun s => zlen s < 2 ^ 32 - 1) (streams (doc_items doc) ++ streams (doc_items doc')) ->
    snd (olecfinfo lib u ev w allocation cp) = snd (olecfinfo lib u' ev' w' allocation cp') ->
    portrait name (de_size root) doc = portrait name' (de_size root') doc' /\
    fh_major_format_version h = fh_major_format_version h' /\ fh_minor_format_version h = fh_minor_format_version h' /\
    fh_sector_size h = fh_sector_size h' /\ fh_short_sector_size h = fh_short_sector_size h'.
Proof.
  intros lib text empty names date u ev w cp h root doc u' ev' w' cp' h' root' doc' allocation name name' same same'
    HL HA E1 E2 HH HN HC E1' E2' HH' HN' HC' HS H.
  apply Forall_app in HS as (HS & HS').
  assert (G : forall (P Q : list Z -> Prop) fo, names_ok (fun n => P n /\ Q n) fo -> names_ok P fo /\ names_ok Q fo).
  { intros P Q. induction fo as [|n c m s r IH|n c m a IHa r IH]; cbn [names_ok]; tauto. }
  apply G in HN as ((A1 & A2 & _) & (B1 & B2 & _)). apply G in HN' as ((A1' & A2' & _) & (B1' & B2' & _)).
  destruct (C93_info lib text empty names date u ev w allocation cp h root doc name same HL HA E1 E2 HH A1 A2 HC HS)
    as (s1 & s2 & _ & _ & R).
  destruct (C93_info lib text empty names date u' ev' w' allocation cp' h' root' doc' name' same' HL HA E1' E2' HH' A1' A2' HC' HS')
    as (s1' & s2' & _ & _ & R').
  rewrite R, R' in H. clear R R'. cbn [snd] in H. unfold overview in H.
  pose proof (portrait_clear _ _ _ _ _ name HH B1 B2) as C. pose proof (portrait_clear _ _ _ _ _ name' HH' B1' B2') as C'.
  destruct (held_ranges _ _ _ _ _ HH) as (V1 & V2 & V3 & V4 & _). destruct (held_ranges _ _ _ _ _ HH') as (W1 & W2 & W3 & W4 & _).
  cbn [file_pieces printed fst] in H. rewrite !app_nil_r in H.
  repeat (progress cbn [app] in H || rewrite <- !app_assoc in H).
  apply app_inv_head in H. do 2 (apply (f_equal (@tl Z)) in H; cbn [tl] in H).
  apply app_inv_head in H. do 3 (apply (f_equal (@tl Z)) in H; cbn [tl] in H).
  apply app_inv_head in H. apply integer_split in H as (K1 & H); [|auto; lia..].
  apply integer_split in H as (K2 & H); [|auto; lia..].
  apply (f_equal (@tl Z)) in H; cbn [tl] in H.
  apply app_inv_head in H. do 2 (apply (f_equal (@tl Z)) in H; cbn [tl] in H).
  apply app_inv_head in H. apply integer_split in H as (K3 & H); [|auto; lia..].
  apply (f_equal (@tl Z)) in H; cbn [tl] in H.
  apply app_inv_head in H. do 1 (apply (f_equal (@tl Z)) in H; cbn [tl] in H).
  apply app_inv_head in H. apply integer_split in H as (K4 & H); [|auto; lia..].
  apply (f_equal (@tl Z)) in H; cbn [tl] in H.
  apply app_inv_head in H. apply (f_equal (@tl Z)) in H; cbn [tl] in H.
  apply picture_tells_rest in H as (K5 & _); auto.
Qed.
Print Assumptions C93_tells.

(** * Cases *)

(** The documents of two files: the data of "a" is not the same, and the other
    one has a storage with the name of the set of the document. *)
Definition xo_doc (data : list Z) (rest : forest) : document :=
  {| doc_name := xi_name (text_of "Root Entry"); doc_ctime := 0; doc_mtime := 0;
     doc_items :=
       AddStorage (xi_name (text_of "Pool")) 0 0 (AddStream (xi_name (text_of "a")) 0 0 data Empty)
         (AddStream (xi_name summary_name) 0 0 xi_set rest) |}.
Definition xo_name (n : list Z) : list Z := xf_strip (xf_units Little n).
Definition xo_env (doc : document) : env := good_env (write (xw_format Little) doc).
Definition xo_storage : forest := AddStorage (xi_name document_name) 0 0 Empty Empty.

Lemma xo_writable data rest : data = repeat 1 300 \/ data = repeat 2 300 -> rest = Empty \/ rest = xo_storage ->
  writable (xw_format Little) (xo_doc data rest).
Proof.
  intros Hd Hr. set (doc := xo_doc data rest).
  constructor.
  - cbn. lia.
  - cbn. lia.
  - cbn. unfold is_u32. lia.
  - split; [vm_compute; discriminate|now apply xw_bytes].
  - destruct Hr as [->| ->]; cbn [names_ok w_items doc_items doc xo_doc xo_storage]; repeat split;
      try (vm_compute; discriminate); now apply xw_bytes.
  - cbn [doc_ctime doc_mtime doc xo_doc]. lia.
  - destruct Hr as [->| ->]; cbn [times_ok w_items doc_items doc xo_doc xo_storage]; lia.
  - apply Forall_forall. intros s Hs. cbn [w_items doc_items doc xo_doc streams app] in Hs.
    destruct Hs as [<-|[<-|Hs]].
    + destruct Hd as [->| ->]; (split; [now apply xw_bytes|vm_compute; reflexivity]).
    + split; [now apply xw_bytes|vm_compute; reflexivity].
    + destruct Hr as [->| ->]; destruct Hs.
  - destruct Hd as [->| ->], Hr as [->| ->]; vm_compute; reflexivity.
  - destruct Hd as [->| ->], Hr as [->| ->]; vm_compute; discriminate.
  - destruct Hd as [->| ->], Hr as [->| ->]; vm_compute; discriminate.
  - destruct Hd as [->| ->], Hr as [->| ->]; vm_compute; discriminate.
Qed.

Lemma xo_holds data rest : data = repeat 1 300 \/ data = repeat 2 300 -> rest = Empty \/ rest = xo_storage ->
  let doc := xo_doc data rest in
  holds xf_una (ev_reader (xo_env doc)) (w_h (xw_format Little) doc) (w_root (xw_format Little) doc) doc.
Proof.
  intros Hd Hr doc. pose proof (xo_writable data rest Hd Hr) as W. fold doc in W.
  apply written_holds; auto.
  - exact xf_una_ok.
  - split; intros H; vm_compute in H; discriminate H.
  - destruct Hr as [->| ->]; cbn [names_ok doc_items doc xo_doc xo_storage]; repeat split; intros H; vm_compute in H; discriminate H.
  - apply file_reader_bytes. exact (write_bytes (xw_format Little) doc W).
  - apply file_reader_sound.
  - apply file_reader_total.
  - discriminate.
Qed.

Lemma xo_names data rest : rest = Empty \/ rest = xo_storage ->
  names_ok (fun n => xi_names n Little = Some (xo_name n) /\ clear_name (xo_name n))
    (AddStorage (doc_name (xo_doc data rest)) 0 0 (doc_items (xo_doc data rest)) Empty) /\
  compares (fun q n => una_utf8_compare xf_una q n Little) xd_same [summary_name; document_name] (xo_doc data rest).
Proof.
  intros Hr. split.
  - destruct Hr as [->| ->]; cbn [names_ok doc_name doc_items xo_doc xo_storage]; repeat split;
      try (vm_compute; reflexivity); try (apply clear_chars; vm_compute; reflexivity);
      intros r H; vm_compute in H; discriminate H.
  - unfold compares. destruct Hr as [->| ->]; cbn [names_ok doc_items xo_doc xo_storage]; repeat split;
      intros q [<-|[<-|[]]]; vm_compute; reflexivity.
Qed.

Example C93_case :
  let doc := xo_doc (repeat 1 300) Empty in
  infolib_ok (xi_lib true) xi_text (fun _ => Some []) xi_names xi_date /\ lib_accepts (pl_values (il_prop (xi_lib true))) /\
  holds xf_una (ev_reader (xo_env doc)) (w_h (xw_format Little) doc) (w_root (xw_format Little) doc) doc /\
  names_ok (fun n => xi_names n Little = Some (xo_name n) /\ clear_name (xo_name n))
    (AddStorage (doc_name doc) 0 0 (doc_items doc) Empty) /\
  compares (fun q n => una_utf8_compare xf_una q n Little) xd_same [summary_name; document_name] doc /\
  Forall (fun s => zlen s < 2 ^ 32 - 1) (streams (doc_items doc)) /\
  portrait xo_name (de_size (w_root (xw_format Little) doc)) doc =
    Picture (text_of "Root Entry") 0
      [Picture (text_of "Pool") 0 [Picture (text_of "a") 300 []]; Picture summary_name 265 []] /\
  overview true false (w_h (xw_format Little) doc) (portrait xo_name (de_size (w_root (xw_format Little) doc)) doc) =
    text_of
"OLE Compound File information:
	Version			: 3.62
	Sector size		: 512
	Short sector size	: 64

Storage and stream items:
Root Entry (0 bytes)
  Pool (0 bytes)
    a (300 bytes)
  \x05SummaryInformation (265 bytes)

" /\
  (exists s1 x, set_at xi_set x /\ s1 = Some summary_heading :: set_pieces (xi_lib true) xi_text (fun _ => Some []) xi_date 1252 x /\
     set_shown (xi_lib true) xi_text (fun _ => Some []) xi_date xd_same doc summary_name summary_heading s1) /\
  set_shown (xi_lib true) xi_text (fun _ => Some []) xi_date xd_same doc document_name document_heading [] /\
  fst (olecfinfo (xi_lib true) xf_una (xo_env doc) no_world false None) = Ok true /\
  olecfinfo (xi_lib true) xf_una (xo_env doc) no_world false None =
  olecfinfo (xi_lib true) xf_una (xo_env (xo_doc (repeat 2 300) Empty)) no_world false None.
Proof.
  cbv zeta. destruct (xo_names (repeat 1 300) Empty (or_introl eq_refl)) as (N1 & N2).
  split; [apply xi_lib_ok|]. split; [exact xp_lib_accepts|].
  split; [exact (xo_holds _ _ (or_introl eq_refl) (or_introl eq_refl))|]. split; [exact N1|]. split; [exact N2|].
  split; [repeat constructor|]. split; [vm_compute; reflexivity|]. split; [vm_compute; reflexivity|].
  split.
  { destruct xi_set_at as (x & Hx). eexists. exists x. split; [exact Hx|]. split; [reflexivity|].
    unfold set_shown.
    replace (find (fun i => xd_same summary_name (name_of i)) (members (doc_items (xo_doc (repeat 1 300) Empty))))
      with (Some (Stream (xi_name summary_name) 0 0 xi_set)) by (vm_compute; reflexivity).
    left. exists x. auto. }
  split.
  { unfold set_shown.
    replace (find (fun i => xd_same document_name (name_of i)) (members (doc_items (xo_doc (repeat 1 300) Empty))))
      with (@None item) by (vm_compute; reflexivity). reflexivity. }
  split; vm_compute; reflexivity.
Qed.

(** The storage with the name of the set: the heading and a failure. *)
Example C93_case_storage :
  let doc := xo_doc (repeat 1 300) xo_storage in
  holds xf_una (ev_reader (xo_env doc)) (w_h (xw_format Little) doc) (w_root (xw_format Little) doc) doc /\
  compares (fun q n => una_utf8_compare xf_una q n Little) xd_same [summary_name; document_name] doc /\
  set_shown (xi_lib true) xi_text (fun _ => Some []) xi_date xd_same doc document_name document_heading [Some document_heading; None] /\
  fst (olecfinfo (xi_lib true) xf_una (xo_env doc) no_world false None) = Ok false /\
  exists l, snd (olecfinfo (xi_lib true) xf_una (xo_env doc) no_world false None) = l ++ document_heading.
Proof.
  cbv zeta. split; [exact (xo_holds _ _ (or_introl eq_refl) (or_intror eq_refl))|].
  split; [exact (proj2 (xo_names _ _ (or_intror eq_refl)))|]. split.
  { unfold set_shown.
    replace (find (fun i => xd_same document_name (name_of i)) (members (doc_items (xo_doc (repeat 1 300) xo_storage))))
      with (Some (Storage (xi_name document_name) 0 0 Empty)) by (vm_compute; reflexivity). reflexivity. }
  split; [vm_compute; reflexivity|].
  exists (firstn (length (snd (olecfinfo (xi_lib true) xf_una (xo_env (xo_doc (repeat 1 300) xo_storage)) no_world false None)) - length document_heading)
            (snd (olecfinfo (xi_lib true) xf_una (xo_env (xo_doc (repeat 1 300) xo_storage)) no_world false None))).
  vm_compute. reflexivity.
Qed.

(** A document without items. *)
Example C93_case_no_items :
  let doc := {| doc_name := xi_name (text_of "R"); doc_ctime := 0; doc_mtime := 0; doc_items := Empty |} in
  stores xf_una (write (xw_format Little) doc) (w_h (xw_format Little) doc) (w_root (xw_format Little) doc) doc /\
  de_sub (w_root (xw_format Little) doc) = FREE /\
  xi_show (olecfinfo (xi_lib true) xf_una (xo_env doc) no_world true None) true
"OLE Compound File information:
	Version			: 3.62
	Sector size		: 512
	Short sector size	: 64

No storage and stream items

Unallocated blocks:

".
Proof.
  cbv zeta. split; [|split; [reflexivity|vm_compute; reflexivity]].
  apply written_stored.
  - exact xf_una_ok.
  - constructor.
    + cbn. lia.
    + cbn. lia.
    + cbn. unfold is_u32. lia.
    + split; [vm_compute; discriminate|now apply xw_bytes].
    + cbn [names_ok w_items doc_items]. exact I.
    + cbn [doc_ctime doc_mtime]. lia.
    + exact I.
    + constructor.
    + vm_compute. reflexivity.
    + vm_compute. discriminate.
    + vm_compute. discriminate.
    + vm_compute. discriminate.
  - split; intros H; vm_compute in H; discriminate H.
  - exact I.
Qed.
