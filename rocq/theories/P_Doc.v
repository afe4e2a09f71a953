(** C82: the items of documents are found by their names. *)
From Coq Require Import ZArith List Bool Lia.
From Verif Require Import Base Spec_IO M_Header M_Table M_Load M_Stream M_Tree M_Open M_Item
  Spec_Stream Spec_Load Spec_Tree Spec_Open Spec_Content Spec_Item Spec_Write M_Prop Spec_Prop
  L_Base L_Item L_Load L_Write L_Write2 L_Write3 L_Write4 L_Write5 L_Write6 L_Write7 X_Prop X_File P_Tree P_Prop P_Write Spec_SetWrite L_SetWrite L_SetWrite2 P_SetWrite Spec_Stores L_Stores L_Stores2 P_Stores Spec_Doc L_Doc.
Import ListNotations.
Open Scope Z_scope.

(** * Theorems *)

(** The answer of a lookup by path is what the names lead to in the document:
    no more and no less, from the root and from any other item. *)
Theorem C82_path :
  forall u rd h root doc same names leading trailing,
    holds u rd h root doc ->
    is_char (una_utf8_char u) [92] 92 -> Forall (is_name (una_utf8_char u)) names -> names <> [] ->
    leading = [] \/ leading = [92] -> trailing = [] \/ trailing = [92] ->
    let path := leading ++ join names ++ trailing in
    2 <= zlen path < 18446744073709551616 ->
    compares (fun q n => una_utf8_compare u q n (fh_byte_order h)) same names doc ->
    exists o t tr, open_read u rd [] = (Ok o, t) /\ o_tree o = Some tr /\ fh_byte_order (o_header o) = fh_byte_order h /\
      answer rd (opened_volume o) tr doc (reached doc same Top names)
        (item_by_utf8_path u (fh_byte_order (o_header o)) (o_tree o) path) /\
      forall before p k, reached doc same Top before = Some p -> item_at rd (opened_volume o) tr doc p k ->
        answer rd (opened_volume o) tr doc (reached doc same p names)
          (sub_item_by_utf8_path u (fh_byte_order (o_header o)) tr k path).
Proof.
  intros u rd h root doc same names leading trailing HH Hsep HN Hne Hl Ht path Hs HC.
  destruct (holds_opens u rd h root doc HH) as (o & t & tr & H1 & H2 & H3 & H4 & H5 & _).
  exists o, t, tr. split; [exact H1|]. split; [exact H2|]. rewrite H3. split; [reflexivity|].
  assert (G : forall p k, item_at rd (opened_volume o) tr doc p k ->
            names_ok (fun n => forall q, In q names -> una_utf8_compare u q n (fh_byte_order h) = Ok (same q n)) (below doc p) ->
            answer rd (opened_volume o) tr doc (reached doc same p names) (sub_item_by_utf8_path u (fh_byte_order h) tr k path)).
  { intros p k Hk HB. unfold path. rewrite (C28_path_is_names u (fh_byte_order h) tr k names leading trailing Hsep HN Hne Hl Ht Hs).
    exact (lookup_reached rd (opened_volume o) tr doc H5 (fun q n => una_utf8_compare u q n (fh_byte_order h)) same names p k Hk HB). }
  split.
  - rewrite H2. cbn [item_by_utf8_path]. apply G; [exact H4|exact HC].
  - intros before p k Hp Hk. apply G; [exact Hk|]. eapply reached_names; [|exact Hp]. exact HC.
Qed.
Print Assumptions C82_path.

Theorem C82_path_utf16 :
  forall u rd h root doc same names leading trailing,
    holds u rd h root doc ->
    is_char (una_utf16_char u) [92] 92 -> Forall (is_name (una_utf16_char u)) names -> names <> [] ->
    leading = [] \/ leading = [92] -> trailing = [] \/ trailing = [92] ->
    let path := leading ++ join names ++ trailing in
    2 <= zlen path < 18446744073709551616 ->
    compares (fun q n => una_utf16_compare u q n (fh_byte_order h)) same names doc ->
    exists o t tr, open_read u rd [] = (Ok o, t) /\ o_tree o = Some tr /\ fh_byte_order (o_header o) = fh_byte_order h /\
      answer rd (opened_volume o) tr doc (reached doc same Top names)
        (item_by_utf16_path u (fh_byte_order (o_header o)) (o_tree o) path) /\
      forall before p k, reached doc same Top before = Some p -> item_at rd (opened_volume o) tr doc p k ->
        answer rd (opened_volume o) tr doc (reached doc same p names)
          (sub_item_by_utf16_path u (fh_byte_order (o_header o)) tr k path).
Proof.
  intros u rd h root doc same names leading trailing HH Hsep HN Hne Hl Ht path Hs HC.
  destruct (holds_opens u rd h root doc HH) as (o & t & tr & H1 & H2 & H3 & H4 & H5 & _).
  exists o, t, tr. split; [exact H1|]. split; [exact H2|]. rewrite H3. split; [reflexivity|].
  assert (G : forall p k, item_at rd (opened_volume o) tr doc p k ->
            names_ok (fun n => forall q, In q names -> una_utf16_compare u q n (fh_byte_order h) = Ok (same q n)) (below doc p) ->
            answer rd (opened_volume o) tr doc (reached doc same p names) (sub_item_by_utf16_path u (fh_byte_order h) tr k path)).
  { intros p k Hk HB. unfold path. rewrite (C28_path_is_names_utf16 u (fh_byte_order h) tr k names leading trailing Hsep HN Hne Hl Ht Hs).
    exact (lookup_reached rd (opened_volume o) tr doc H5 (fun q n => una_utf16_compare u q n (fh_byte_order h)) same names p k Hk HB). }
  split.
  - rewrite H2. cbn [item_by_utf16_path]. apply G; [exact H4|exact HC].
  - intros before p k Hp Hk. apply G; [exact Hk|]. eapply reached_names; [|exact Hp]. exact HC.
Qed.
Print Assumptions C82_path_utf16.

(** A client that opens the file, looks up a path and reads the item whole has
    the bytes of the stream of that path. *)
Theorem C82_stream :
  forall u rd h root doc same names n c m s,
    holds u rd h root doc -> few_sectors h doc ->
    is_char (una_utf8_char u) [92] 92 -> Forall (is_name (una_utf8_char u)) names ->
    zlen (92 :: join names) < 18446744073709551616 ->
    compares (fun q n => una_utf8_compare u q n (fh_byte_order h)) same names doc ->
    reached doc same Top names = Some (At (Stream n c m s)) ->
    exists o t tr k d c' t', open_read u rd [] = (Ok o, t) /\ o_tree o = Some tr /\
      item_by_utf8_path u (fh_byte_order (o_header o)) (o_tree o) (92 :: join names) = Ok (Some k) /\
      node_value tr k = Ok d /\ de_type d = 2 /\ de_name d = n /\ de_ctime d = c /\ de_mtime d = m /\
      stream_read_buffer rd (opened_volume o) d 0 (zlen s) (zlen s) t = (Ok (s, c'), t').
Proof.
  intros u rd h root doc same names n c m s HH HF Hsep HN Hs HC HR.
  destruct names as [|q names]; [discriminate HR|].
  pose proof (path_size (una_utf8_char u) (q :: names) HN ltac:(discriminate) Hs) as Hz.
  destruct (C82_path u rd h root doc same (q :: names) [92] [] HH Hsep HN ltac:(discriminate) (or_intror eq_refl) (or_introl eq_refl) Hz HC)
    as (o & t & tr & H1 & H2 & H3 & H4 & _).
  rewrite HR in H4. destruct H4 as (k & Hk & nd & N1 & N2 & _ & N4). cbn [entry_of] in N2. destruct N2 as (T1 & T2 & T3 & T4 & T5).
  destruct (read_whole rd (opened_volume o) (n_entry nd) s t N4) as (c' & t' & Hr).
  { destruct HF as [HF|HF].
    - right. assert (HO : o_header o = h).
      { destruct (holds_opens u rd h root doc HH) as (o' & t0 & tr0 & E1 & _ & E3 & _). rewrite H1 in E1. congruence. }
      pose proof (holds_sector _ _ _ _ _ HH).
      apply stream_sectors; cbn [opened_volume v_sector_size v_short_sector_size]; rewrite HO; assumption.
    - left. rewrite Forall_forall in HF. apply HF. eapply reached_stream; eauto. }
  rewrite T5 in Hr. exists o, t, tr, k, (n_entry nd), c', t'. split; [exact H1|]. split; [exact H2|].
  split; [rewrite app_nil_r in Hk; exact Hk|]. split; [unfold node_value; now rewrite N1|]. auto 10.
Qed.
Print Assumptions C82_stream.

(** With C81: a property set is found by its path and read. *)
Theorem C82_property_set :
  forall u lib rd h root doc same names n c m x cp t0,
    holds u rd h root doc ->
    is_char (una_utf8_char u) [92] 92 -> Forall (is_name (una_utf8_char u)) names -> names <> [] ->
    zlen (92 :: join names) < 18446744073709551616 ->
    compares (fun q n => una_utf8_compare u q n (fh_byte_order h)) same names doc ->
    lib_accepts lib -> set_ok x ->
    reached doc same Top names = Some (At (Stream n c m (set_written Little x))) ->
    exists o t tr k d y c' t', open_read u rd [] = (Ok o, t) /\ o_tree o = Some tr /\
      item_by_utf8_path u (fh_byte_order (o_header o)) (o_tree o) (92 :: join names) = Ok (Some k) /\
      node_value tr k = Ok d /\ get_set lib rd (opened_volume o) d cp 0 t0 = (Ok (y, c'), t') /\
      set_view y = said Little x.
Proof.
  intros u lib rd h root doc same names n c m x cp t0 HH Hsep HN Hne Hs HC HL Hx HR.
  destruct (C82_path u rd h root doc same names [92] [] HH Hsep HN Hne (or_intror eq_refl) (or_introl eq_refl) (path_size _ names HN Hne Hs) HC)
    as (o & t & tr & H1 & H2 & H3 & H4 & _).
  rewrite HR in H4. destruct H4 as (k & Hk & nd & N1 & _ & _ & N4). rewrite app_nil_r in Hk.
  destruct (C81_round_trip lib rd (opened_volume o) (n_entry nd) cp 0 t0 x Hx HL N4 ltac:(lia)) as (y & c' & t' & Hg & Hv).
  exists o, t, tr, k, (n_entry nd), y, c', t'. split; [exact H1|]. split; [exact H2|]. split; [exact Hk|].
  split; [unfold node_value; now rewrite N1|]. auto.
Qed.
Print Assumptions C82_property_set.

(** A document whose root has no sub link has no tree, and a path to a name gives an
    error instead of "not found". *)
Theorem C82_no_items :
  forall u rd f h root doc names,
    una_ok u -> stores u f h root doc -> io_bytes rd -> io_sound rd f -> io_total rd f -> de_sub root = FREE ->
    is_char (una_utf8_char u) [92] 92 -> Forall (is_name (una_utf8_char u)) names -> names <> [] ->
    zlen (92 :: join names) < 18446744073709551616 ->
    exists o t, open_read u rd [] = (Ok o, t) /\
      item_by_utf8_path u (fh_byte_order (o_header o)) (o_tree o) (92 :: join names) = Err.
Proof.
  intros u rd f h root doc names Hu HF HB HS HT HE Hsep HN Hne Hs.
  destruct (stored_opens u rd f Hu HB HS HT h root doc HF) as (o & t & H1 & _ & _ & H2 & _).
  exists o, t. split; [exact H1|]. rewrite (proj1 H2 HE). cbn [item_by_utf8_path].
  pose proof (path_names_all (una_utf8_char u) Hsep (fun _ _ => Err) names [92] [] 0%nat HN Hne (or_intror eq_refl) (or_introl eq_refl)
    (path_size _ names HN Hne Hs)) as HP.
  rewrite app_nil_r in HP. cbn [app] in HP. rewrite HP. destruct names as [|q names]; [congruence|]. reflexivity.
Qed.
Print Assumptions C82_no_items.

(** * Cases *)
Definition xd_same (q n : list Z) : bool := xf_eqb (xf_strip q) (xf_strip (xf_units Little n)).

Lemma xs_holds e : holds xf_una (file_reader (write (xw_format e) xs_doc)) (w_h (xw_format e) xs_doc) (w_root (xw_format e) xs_doc) xs_doc.
Proof.
  destruct (C81_document_case e) as (H1 & H2 & H3 & _). apply written_holds; auto.
  - exact xf_una_ok.
  - apply file_reader_bytes. exact (write_bytes (xw_format e) xs_doc H1).
  - apply file_reader_sound.
  - apply file_reader_total.
  - discriminate.
Qed.

(** The storage "b" has the stream "d" with a property set; "a" is a stream,
    below which there is nothing. *)
Example C82_case :
  holds xf_una (file_reader (write (xw_format Little) xs_doc)) (w_h (xw_format Little) xs_doc) (w_root (xw_format Little) xs_doc) xs_doc /\
  is_char (una_utf8_char xf_una) [92] 92 /\ Forall (is_name (una_utf8_char xf_una)) [[98]; [100]; [97]; [99]] /\
  compares (fun q n => una_utf8_compare xf_una q n Little) xd_same [[98]; [100]; [97]; [99]] xs_doc /\
  reached xs_doc xd_same Top [[98]; [100]] = Some (At (Stream [100; 0] 0 0 (set_written Little xs_set))) /\
  reached xs_doc xd_same Top [[97]] = Some (At (Stream [97; 0; 0; 0] 1 134392752591234567 [10; 20; 30])) /\
  reached xs_doc xd_same Top [[97]; [97]] = None /\ reached xs_doc xd_same Top [[99]] = None /\
  match open_read xf_una (file_reader (write (xw_format Little) xs_doc)) [] with
  | (Ok o, _) =>
      item_by_utf8_path xf_una Little (o_tree o) [92; 98; 92; 100] = Ok (Some 4%nat) /\
      item_by_utf8_path xf_una Little (o_tree o) [92; 97] = Ok (Some 1%nat) /\
      item_by_utf8_path xf_una Little (o_tree o) [92; 97; 92; 97] = Ok None /\
      item_by_utf16_path xf_una Little (o_tree o) [92; 99] = Ok None
  | _ => False
  end.
Proof.
  split; [apply xs_holds|]. split; [apply xf_char_is; [reflexivity|lia]|].
  split; [repeat (constructor; [apply xf_name; [discriminate|right; repeat constructor; lia]|]); constructor|].
  split.
  { cbn [compares names_ok doc_items xs_doc]. repeat split; intros q Hq; cbn in Hq;
      repeat (destruct Hq as [<-|Hq]; [reflexivity|]); destruct Hq. }
  split; [reflexivity|]. split; [reflexivity|]. split; [reflexivity|]. split; [reflexivity|].
  vm_compute. repeat split; reflexivity.
Qed.

(** The file of X_File, which the writer did not make. *)
Example C82_case_layout :
  exists h root, holds xf_una (file_reader (xf_file Big)) h root (xf_document Big) /\ fh_byte_order h = Big /\
    few_sectors h (xf_document Big) /\
    reached (xf_document Big) (fun q n => xf_eqb (xf_strip q) (xf_strip (xf_units Big n))) Top [[115; 116]; [120; 121]] =
      Some (At (Stream [0; 120; 0; 121; 0; 0] 1000 2000 (slice (xf_data 0 512) 128 10))).
Proof.
  destruct (xf_stores Big) as (h & root & H & E1 & E2 & E3). exists h, root. split; [|split; [exact E1|split; [left; lia|vm_compute; reflexivity]]].
  constructor; [exact xf_una_ok|apply xf_reader_bytes| |discriminate].
  exists (xf_file Big). split; [exact H|]. split; [apply file_reader_sound|apply file_reader_total].
Qed.
