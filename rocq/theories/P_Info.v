(** Property C73: what the tool olecfinfo prints.

    The hypotheses on libfvalue, libfguid, libfdatetime and libuna (not part of
    the repository) are in [infolib_ok] and [una_ok]. *)
From Coq Require Import String ZArith List Bool Lia Permutation.
From Verif Require Import Base Spec_IO M_Table M_Header M_Load M_Stream M_Tree M_Open M_Item M_Mount M_File
  M_Prop M_PyProp M_Info Spec_Stream Spec_Content Spec_Tree Spec_Prop Spec_PyProp Spec_Write Spec_Info Spec_Export
  L_Base L_Export3 L_Prop3 L_Info2 L_Info3 L_Info4 L_Info5 L_Info6 X_File X_Linear X_Prop X_Fuse P_File P_Prop P_Write P_PyProp.
Import ListNotations.
Open Scope Z_scope.

(** Any run, for any file: no undefined behaviour; nothing is printed if the
    file cannot be opened; otherwise the pieces are printed up to the first
    that cannot be shown, and the tool succeeds if there is none and the file
    can be closed.  [codepage] has no effect: the strings are of codepage
    1252. *)
Theorem C73_run :
  forall lib text empty names date u ev w allocation codepage,
    infolib_ok lib text empty names date -> una_ok u -> io_bytes (ev_reader ev) ->
    let rd := ev_reader ev in
    let r := olecfinfo lib u ev w allocation codepage in
    (r = (Ok false, []) /\
     (ev_is_open ev = false \/ ev_open ev = false \/ exists t, open_read u rd [] = (Err, t))) \/
    (exists o t L s1 s2,
       ev_is_open ev = true /\ ev_open ev = true /\ open_read u rd [] = (Ok o, t) /\
       lists_all (o_tree o) L /\
       information lib text empty date u rd (opened_volume o) (o_tree o) 1252 summary_name summary_heading s1 /\
       information lib text empty date u rd (opened_volume o) (o_tree o) 1252 document_name document_heading s2 /\
       let l := file_pieces (o_header o) ++
                items_pieces lib names (fh_byte_order (o_header o)) (o_tree o) L ++
                allocation_pieces allocation ++ s1 ++ s2 in
       r = (Ok (snd (printed l) && ev_close ev), fst (printed l))).
Proof. exact info_run_ok. Qed.
Print Assumptions C73_run.

(** The items that are listed are all items of the file, each once, and there
    is one such list: each item before those below it, in the order of the
    tree. *)
Theorem C73_items :
  forall u rd o t tr,
    una_ok u -> io_bytes rd -> open_read u rd [] = (Ok o, t) -> o_tree o = Some tr ->
    exists L, listed tr 0 0 L /\
      Permutation (map snd L) (seq 0 (length (tr_nodes tr))) /\
      forall L', listed tr 0 0 L' -> L' = L.
Proof.
  intros u rd o t tr Hu HB HO Ht. destruct (opened_list u rd o t tr Hu HB HO Ht) as (L & HL).
  exists L. split; [exact HL|]. split; [exact (opened_listed u rd o t tr 0%nat L Hu HB HO Ht HL)|].
  intros L' HL'. symmetry. exact (listed_unique tr _ _ _ HL _ HL').
Qed.
Print Assumptions C73_items.

(** An item is one line of characters that can be printed, with its size as a
    number of 32 bits: no name breaks the listing. *)
Theorem C73_lines :
  forall lib text empty names date u rd o t tr e x line,
    infolib_ok lib text empty names date -> una_ok u -> io_bytes rd ->
    open_read u rd [] = (Ok o, t) -> o_tree o = Some tr ->
    item_piece (il_signed lib) names e tr x = Some line ->
    exists body, line = body ++ [10] /\ Forall (printable (il_signed lib)) body /\ ~ In 10 body.
Proof. exact item_piece_line. Qed.
Print Assumptions C73_lines.

(** The listing is that of the names, sizes and sub items of the file.  If no
    name begins with a space or has a backslash, it tells all of them. *)
Theorem C73_listing :
  forall signed names e tr L x,
    listed tr 0 0 L -> pictured names e tr 0 x ->
    printed (map (item_piece signed names e tr) L) = (picture_text signed 0 x, true).
Proof. intros signed names e tr L x HL Hx. exact (pictured_text signed names e tr 0%nat x Hx 0%nat L HL). Qed.
Print Assumptions C73_listing.

Theorem C73_listing_tells :
  forall signed x y, clear x -> clear y -> picture_text signed 0 x = picture_text signed 0 y -> x = y.
Proof. exact picture_tells. Qed.
Print Assumptions C73_listing_tells.

(** Numbers can be read back. *)
Theorem C73_numbers :
  forall z, - 2 ^ 63 <= z < 2 ^ 64 -> reads (integer z) z /\ forall z', reads (integer z) z' -> z' = z.
Proof.
  intros z Hz. assert (H : reads (integer z) z).
  { apply integer_reads. change (2 ^ 63) with 9223372036854775808 in Hz. change (2 ^ 64) with 18446744073709551616 in Hz.
    change (10 ^ 20) with 100000000000000000000. change (- 9223372036854775808) with (-9223372036854775808) in Hz. lia. }
  split; [exact H|]. intros z' H'. exact (reads_fun _ _ _ H' H).
Qed.
Print Assumptions C73_numbers.

(** Whatever the I/O layer does, what is shown of a property set is a set in the
    bytes of the stream, or nothing. *)
Theorem C73_information_sound :
  forall lib text empty date u rd v t cp name heading l j d s,
    sub_node_by_utf8_name u (v_byte_order v) t 0 name = Ok (Some j) -> item_entry t j d ->
    is_stream rd v d s ->
    information lib text empty date u rd v (Some t) cp name heading l ->
    l = [Some heading; None] \/
    exists x, set_at s x /\ l = Some heading :: set_pieces lib text empty date cp x.
Proof.
  intros lib text empty date u rd v t cp name heading l j d s Hj Hd HS H.
  unfold information in H. rewrite Hj in H. destruct H as (d' & Hd' & H).
  rewrite (entry_fun t j d' d Hd' Hd) in H.
  destruct H as [(c & y & tr & tr' & Hg & ->)|(tr & tr' & Hg & ->)]; [right|now left].
  exists y. split; [|reflexivity]. exact (C44_set_is_in_the_stream _ _ _ _ _ _ _ _ _ _ _ HS Hg).
Qed.
Print Assumptions C73_information_sound.

(** What is shown of a property set in a stream that can be read is the set in
    the bytes of the stream. *)
Theorem C73_information :
  forall lib text empty date u rd v t cp name heading l j d s x,
    sub_node_by_utf8_name u (v_byte_order v) t 0 name = Ok (Some j) -> item_entry t j d ->
    is_readable_stream rd v d s -> lib_accepts (pl_values (il_prop lib)) -> zlen s < 2 ^ 32 - 1 -> set_at s x ->
    information lib text empty date u rd v (Some t) cp name heading l ->
    l = Some heading :: set_pieces lib text empty date cp x.
Proof.
  intros lib text empty date u rd v t cp name heading l j d s x Hj Hd HR HL Hs Hx H.
  unfold information in H. rewrite Hj in H. destruct H as (d' & Hd' & H).
  assert (d' = d).
  { exact (entry_fun t j d' d Hd' Hd). }
  subst d'. destruct H as [(c & y & tr & tr' & Hg & ->)|(tr & tr' & Hg & ->)];
    destruct (C44_set_exact (pl_values (il_prop lib)) rd v d s cp 0 tr x HR HL Hs ltac:(lia) Hx)
      as (y' & c' & t' & Hg' & Hv); [|congruence].
  assert (y = y') by congruence. subst y'. f_equal. now apply set_pieces_view.
Qed.
Print Assumptions C73_information.

(** ** A case *)

(** A library for ASCII that does what the contracts say; time stamps are shown
    as numbers. *)
Definition short_text (s : list Z) : option (list Z) := if zlen s <? 2 ^ 62 then Some s else None.
Definition xi_text (l : list Z) (enc : fv_encoding) : option (list Z) :=
  match xq_text l enc with Some s => short_text s | None => None end.
Definition xi_value_text (w : fvalue) : option (list Z) :=
  match fv_data w with Some (l, enc) => xi_text l enc | None => Some [] end.
Definition xi_names (l : list Z) (e : endian) : option (list Z) :=
  let n := xf_strip (xf_units e l) in
  if forallb (fun c => (0 <=? c) && (c <? 128)) n then short_text n else None.
Definition xi_date (n : Z) : option (list Z) := Some (text_of "FILETIME " ++ integer n).
Definition xi_type_name (t : Z) : list Z :=
  text_of (if t =? 0x1e then "VT_LPSTR" else if t =? 0x1f then "VT_LPWSTR" else "VT").

Definition xi_lib (signed : bool) : infolib := {|
  il_prop := {|
    pl_values := {|
      lib_new := lib_new xp_lib; lib_set := lib_set xp_lib; lib_bits := lib_bits xp_lib;
      lib_size := lib_size xp_lib; lib_copy := lib_copy xp_lib;
      lib_utf8 := fun w n =>
        match xi_value_text w with
        | Some s => if n <? zlen s + 1 then None else Some (s ++ [0])
        | None => None
        end;
      lib_utf16 := lib_utf16 xp_lib |};
    pl_utf8_size := fun w => match xi_value_text w with Some s => Some (zlen s + 1) | None => None end;
    pl_guid := fun l => Some (guid_text l ++ [0]);
    pl_decodes := forallb (fun c => (0 <? c) && (c <? 128)) |};
  il_filetime := fun n => match xi_date n with Some s => Some (s ++ [0]) | None => None end;
  il_type_name := xi_type_name;
  il_name_size := fun l e => match xi_names l e with Some s => Some (zlen s + 1) | None => None end;
  il_name := fun l e _ => match xi_names l e with Some s => Some (s ++ [0]) | None => None end;
  il_signed := signed
|}.

Lemma short_text_some s s' : short_text s = Some s' -> s' = s /\ zlen s < 2 ^ 62.
Proof. unfold short_text. destruct (Z.ltb_spec (zlen s) (2 ^ 62)); [|discriminate]. intros H'. injection H' as <-. auto. Qed.

Lemma xi_lib_ok signed : infolib_ok (xi_lib signed) xi_text (fun _ => Some []) xi_names xi_date.
Proof.
  constructor.
  - constructor.
    + exact xp_lib_decodes.
    + reflexivity.
    + intros w. cbn. change (value_bytes w) with (data_of w). now rewrite Z.ltb_irrefl.
    + intros k l enc Hl. cbn. unfold xi_value_text. cbn [fv_data].
      destruct (xi_text l enc) as [s|]; [|reflexivity]. split; [reflexivity|]. now rewrite Z.ltb_irrefl.
    + intros k w n s. cbn. intros H. injection H as <-. change (zlen [] + 1) with 1. cbn [Z.ltb app].
      intros H. injection H as <-. right. vm_compute. split; congruence.
    + intros l _ _. exists [0]. reflexivity.
    + intros s Hs. apply forallb_forall. intros c Hc. rewrite Forall_forall in Hs. specialize (Hs c Hc). lia.
  - intros l enc s H. unfold xi_text in H. destruct (xq_text l enc) as [s'|]; [|discriminate].
    apply short_text_some in H as [-> H]. unfold SSIZE_MAX. change (2 ^ 62) with 4611686018427387904 in H. lia.
  - intros k. cbn. split; [vm_compute; discriminate|]. exists [], []. auto.
  - intros l _ _. exists []. reflexivity.
  - intros n. cbn. exists []. reflexivity.
  - intros l e. cbn. destruct (xi_names l e) as [s|] eqn:E; [|now left].
    unfold xi_names in E. destruct (forallb _ _) eqn:Ef; [|discriminate].
    apply short_text_some in E as [-> E].
    split; [unfold SSIZE_MAX; change (2 ^ 62) with 4611686018427387904 in E; lia|].
    split; [|split; [reflexivity|exists []; reflexivity]].
    apply Forall_forall. intros c Hc. rewrite forallb_forall in Ef. specialize (Ef c Hc). unfold is_byte. lia.
Qed.

(** A file with a storage, a name with a control character, and a property set
    with a section of the summary information and another one. *)
Definition xi_name (l : list Z) : list Z := concat (map (fun c => [c; 0]) (l ++ [0])).
Definition xi_set : list Z :=
  set_bytes Little 2
    [(known_class SummarySet, 68); (repeat 2 16, 68 + zlen (section_bytes Little (xp_values Little)))]
    (section_bytes Little (xp_values Little) ++ section_bytes Little (xp_values2 Little)).
Definition xi_doc : document :=
  {| doc_name := xi_name (text_of "Root Entry"); doc_ctime := 0; doc_mtime := 0;
     doc_items :=
       AddStorage (xi_name (text_of "Pool")) 0 0 (AddStream (xi_name (text_of "a")) 0 0 (repeat 1 300) Empty)
         (AddStream (xi_name summary_name) 0 0 xi_set Empty) |}.
Definition xi_env : env := good_env (write (xw_format Little) xi_doc).

Example C73_case_hypotheses :
  infolib_ok (xi_lib true) xi_text (fun _ => Some []) xi_names xi_date /\ una_ok xf_una /\
  io_bytes (ev_reader xi_env) /\ lib_accepts (pl_values (il_prop (xi_lib true))).
Proof.
  split; [apply xi_lib_ok|]. split; [exact xf_una_ok|]. split; [|exact xp_lib_accepts].
  apply file_reader_bytes, all_bytes_ok. vm_compute. reflexivity.
Qed.

Lemma xi_writable : writable (xw_format Little) xi_doc.
Proof.
  constructor.
  - cbn. lia.
  - cbn. lia.
  - cbn. unfold is_u32. lia.
  - split; [vm_compute; discriminate|now apply xw_bytes].
  - cbn [names_ok w_items doc_items xi_doc]. repeat split; try (vm_compute; discriminate); now apply xw_bytes.
  - cbn [doc_ctime doc_mtime xi_doc]. lia.
  - cbn [times_ok w_items doc_items xi_doc]. lia.
  - apply Forall_forall. intros s Hs. cbn [w_items doc_items xi_doc streams app] in Hs.
    destruct Hs as [<-|[<-|[]]]; (split; [now apply xw_bytes|vm_compute; reflexivity]).
  - vm_compute. reflexivity.
  - vm_compute. discriminate.
  - vm_compute. discriminate.
  - vm_compute. discriminate.
Qed.

Lemma xi_set_at : exists x, set_at xi_set x.
Proof.
  assert (HR : is_readable_stream (file_reader (line_file xi_set)) (line_volume xi_set) (line_dirent xi_set) xi_set)
    by (apply xp_stream; vm_compute; congruence).
  assert (E : exists x c t, get_set xp_lib (file_reader (line_file xi_set)) (line_volume xi_set) (line_dirent xi_set)
                              1252 0 [] = (Ok (x, c), t)) by (vm_compute; eauto).
  destruct E as (x & c & t & E). exists x.
  exact (C44_set_is_in_the_stream _ _ _ _ _ _ _ _ _ _ _ (readable_is_stream _ _ _ _ HR) E).
Qed.

Example C73_case_stream :
  exists o t tr j d x,
    open_read xf_una (ev_reader xi_env) [] = (Ok o, t) /\ o_tree o = Some tr /\
    sub_node_by_utf8_name xf_una (v_byte_order (opened_volume o)) tr 0 summary_name = Ok (Some j) /\
    item_entry tr j d /\ is_readable_stream (ev_reader xi_env) (opened_volume o) d xi_set /\
    zlen xi_set = 265 /\ set_at xi_set x.
Proof.
  destruct (C61_round_trip xf_una (ev_reader xi_env) (xw_format Little) xi_doc xf_una_ok xi_writable)
    as (o & t & HO & tr & nd & Ht & Hn & _ & _ & _ & _ & HS).
  - split; intros H; vm_compute in H; discriminate H.
  - cbn [names_ok doc_items xi_doc]. repeat split; intros H; vm_compute in H; discriminate H.
  - exact (proj1 (proj2 (proj2 C73_case_hypotheses))).
  - apply file_reader_sound.
  - apply file_reader_total.
  - inversion HS as [| |j1 js1 nd1 n1 c1 m1 a1 r1 A1 A2 A3 A4 A5 A6 HS']; subst. clear HS.
    inversion HS' as [|j js nd' n2 c2 m2 s2 r2 Hj B1 B2 B3 B4 B5 Hr HS|]; subst. clear HS'.
    exists o, t, tr, j, (n_entry nd').
    destruct xi_set_at as (x & Hx).
    exists x. split; [exact HO|]. split; [exact Ht|]. split.
    + assert (E : match open_read xf_una (ev_reader xi_env) [] with
                  | (Ok o, _) => match o_tree o with
                                 | Some tr => sub_node_by_utf8_name xf_una (v_byte_order (opened_volume o)) tr 0 summary_name
                                     = Ok (Some 3%nat) /\ match nth_error (tr_nodes tr) 0 with
                                                          | Some n => n_subs n = [1; 3]%nat
                                                          | None => False end
                                 | None => False end
                  | _ => False end) by (vm_compute; auto).
      rewrite HO, Ht, Hn in E. destruct E as [E1 E2]. rewrite E1. congruence.
    + split; [exists nd'; split; [exact Hj|reflexivity]|]. split; [exact Hr|]. split; [vm_compute; reflexivity|].
      exact Hx.
Qed.

Definition xi_show (r : res bool * list Z) (ok : bool) (s : string) : Prop := r = (Ok ok, text_of s).

Example C73_case :
  xi_show (olecfinfo (xi_lib true) xf_una xi_env no_world true (Some 1251)) true
"OLE Compound File information:
	Version			: 3.62
	Sector size		: 512
	Short sector size	: 64

Storage and stream items:
Root Entry (0 bytes)
  Pool (0 bytes)
    a (300 bytes)
  \x05SummaryInformation (265 bytes)

Unallocated blocks:

Summary information:
	Class identifier	: 07070707-0707-0707-0707-070707070707
	Number of sections	: 2

	Section: 1
	Class identifier	: f29f85e0-4ff9-1068-ab91-08002b27b3d9
	Number of properties	: 7

	Property: 1
	Value identifier	: PIDSI_CODEPAGE (0x00000001)
	Value type		: VT (0x00000002)
	Value data		: 1252

	Property: 2
	Value identifier	: PIDSI_TITLE (0x00000002)
	Value type		: VT_LPSTR (0x0000001e)
	Value data		: Hi

	Property: 3
	Value identifier	: 0x00000004
	Value type		: VT (0x00000003)
	Value data		: -5

	Property: 4
	Value identifier	: PIDSI_CREATE_DTM (0x0000000c)
	Value type		: VT (0x00000040)
	Value data		: FILETIME 131000000000000000 UTC

	Property: 5
	Value identifier	: 0x00000010
	Value type		: VT (0x0000000b)
	Value data		: true

	Property: 6
	Value identifier	: PIDSI_THUMBNAIL (0x00000011)
	Value type		: VT (0x00000047)

	Property: 7
	Value identifier	: 0x00000012
	Value type		: VT (0x00000099)

	Section: 2
	Class identifier	: 02020202-0202-0202-0202-020202020202
	Number of properties	: 3

	Property: 1
	Value identifier	: 0x00000003
	Value type		: VT_LPWSTR (0x0000001f)
	Value data		: H

	Property: 2
	Value identifier	: 0x00000005
	Value type		: VT (0x00000015)
	Value data		: 9

	Property: 3
	Value identifier	: 0x00000006
	Value type		: VT (0x0000101e)

".
Proof. vm_compute. reflexivity. Qed.

(** A name that cannot be converted ends the run: neither the items after it
    nor the property set are shown. *)
Example C73_case_stops :
  let doc := {| doc_name := xi_name (text_of "R"); doc_ctime := 0; doc_mtime := 0;
                doc_items := AddStream [0; 216; 0; 0] 0 0 [1; 2]
                               (AddStream (xi_name summary_name) 0 0 xi_set Empty) |} in
  xi_show (olecfinfo (xi_lib true) xf_una (good_env (write (xw_format Little) doc)) no_world false None) false
"OLE Compound File information:
	Version			: 3.62
	Sector size		: 512
	Short sector size	: 64

Storage and stream items:
R (64 bytes)
".
Proof. vm_compute. reflexivity. Qed.

(** The listing of the case. *)
Lemma clear_chars name : forallb (fun c => (0 <=? c) && (c <? 256) && negb (c =? 92)) name = true ->
  Forall (fun c => is_byte c /\ c <> 92) name.
Proof.
  intros H. apply Forall_forall. intros c Hc. rewrite forallb_forall in H. specialize (H c Hc). unfold is_byte. lia.
Qed.

Example C73_case_picture :
  let x := Picture (text_of "Root Entry") 0
             [Picture (text_of "Pool") 0 [Picture (text_of "a") 300 []]; Picture summary_name 265 []] in
  clear x /\
  exists o t tr, open_read xf_una (ev_reader xi_env) [] = (Ok o, t) /\ o_tree o = Some tr /\
    pictured xi_names Little tr 0 x.
Proof.
  cbv zeta. split.
  { cbn [clear map fold_right]. repeat split; try lia; try (intros r; discriminate);
      apply clear_chars; reflexivity. }
  assert (E : match open_read xf_una (ev_reader xi_env) [] with
              | (Ok o, _) =>
                  match o_tree o with
                  | Some tr => map (fun n => (xi_names (de_name (n_entry n)) Little, de_size (n_entry n), n_subs n)) (tr_nodes tr) =
                      [(Some (text_of "Root Entry"), 0, [1; 3]%nat); (Some (text_of "Pool"), 0, [2]%nat);
                       (Some (text_of "a"), 300, []); (Some summary_name, 265, [])]
                  | None => False end
              | _ => False end) by (vm_compute; reflexivity).
  destruct (open_read xf_una (ev_reader xi_env) []) as [[o| | |] t]; try contradiction.
  destruct (o_tree o) as [tr|] eqn:Et; [|contradiction]. exists o, t, tr. split; [reflexivity|]. split; [exact Et|].
  destruct (tr_nodes tr) as [|n0 [|n1 [|n2 [|n3 [|]]]]] eqn:En; try discriminate E.
  cbn [map] in E. injection E as A0 B0 C0 A1 B1 C1 A2 B2 C2 A3 B3 C3.
  assert (Hn : forall k n, nth_error [n0; n1; n2; n3] k = Some n -> nth_error (tr_nodes tr) k = Some n)
    by (intros; now rewrite En).
  assert (H3 : pictured xi_names Little tr 3 (Picture summary_name 265 [])).
  { rewrite <- B3. apply pictured_item; [now apply Hn|exact A3|]. rewrite C3. constructor. }
  assert (H2 : pictured xi_names Little tr 2 (Picture (text_of "a") 300 [])).
  { rewrite <- B2. apply pictured_item; [now apply Hn|exact A2|]. rewrite C2. constructor. }
  assert (H1 : pictured xi_names Little tr 1 (Picture (text_of "Pool") 0 [Picture (text_of "a") 300 []])).
  { rewrite <- B1. apply pictured_item; [now apply Hn|exact A1|]. rewrite C1. constructor; [exact H2|constructor]. }
  rewrite <- B0 at 1. apply pictured_item; [now apply Hn|exact A0|]. rewrite C0.
  constructor; [exact H1|]. constructor; [exact H3|constructor].
Qed.

Example C73_case_numbers :
  integer (- 2 ^ 63) = text_of "-9223372036854775808" /\ integer (2 ^ 64 - 1) = text_of "18446744073709551615" /\
  integer 0 = text_of "0".
Proof. vm_compute. auto. Qed.

(** ** Findings *)

(** A backslash in a name is shown as it is, so that a name can look like
    another one that has a control character. *)
Theorem C73_backslash_refuted :
  exists x y : list Z, x <> y /\ Forall is_byte x /\ Forall is_byte y /\
    (forall r, x <> 32 :: r) /\ (forall r, y <> 32 :: r) /\
    forall signed level size, item_line signed level x size = item_line signed level y size.
Proof.
  exists [5; 97], (text_of "\x05a"). split; [discriminate|].
  split; [apply all_bytes_ok; reflexivity|]. split; [apply all_bytes_ok; reflexivity|].
  split; [intros r; discriminate|]. split; [intros r; discriminate|].
  intros signed level size. unfold item_line. do 2 f_equal. destruct signed; reflexivity.
Qed.
Print Assumptions C73_backslash_refuted.

(** A name that begins with spaces looks as if the item were in the one before
    it. *)
Theorem C73_space_refuted :
  exists x y, x <> y /\ (forall signed, picture_text signed 0 x = picture_text signed 0 y) /\
    forall name size l, In (Picture name size l) [x; y] -> Forall is_byte name.
Proof.
  exists (Picture [82] 0 [Picture [97] 0 [Picture [98] 2 []]]),
         (Picture [82] 0 [Picture [97] 0 []; Picture [32; 32; 98] 2 []]).
  split; [discriminate|]. split; [intros []; reflexivity|].
  intros name size l [H|[H|[]]]; injection H as <- <- <-; apply all_bytes_ok; reflexivity.
Qed.
Print Assumptions C73_space_refuted.

(** Two different files of which all that is printed is the same: strings are
    printed as they are, with their line ends, so that the text of a value can
    contain that of other values.  In the first file the author is Carl. *)
Definition forged : list Z :=
  text_of "

	Property: 2
	Value identifier	: PIDSI_AUTHOR (0x00000004)
	Value type		: VT_LPSTR (0x0000001e)
	Value data		: ".
Definition xi_string (s : list Z) : list Z :=
  bytes_in Little 4 0x1e ++ bytes_in Little 4 (zlen s + 1) ++ s ++ [0].
Definition xi_two (title author : list Z) : document :=
  let l := [(2, xi_string title); (4, xi_string author)] in
  {| doc_name := xi_name (text_of "R"); doc_ctime := 0; doc_mtime := 0;
     doc_items := AddStream (xi_name summary_name) 0 0
                    (set_bytes Little 1 [(known_class SummarySet, 48)] (section_bytes Little l)) Empty |}.

Theorem C73_values_refuted :
  exists title author title' author' : list Z,
    let run d := olecfinfo (xi_lib true) xf_una (good_env (write (xw_format Little) d)) no_world false None in
    title <> title' /\ author <> author' /\
    fst (run (xi_two title author)) = Ok true /\ run (xi_two title author) = run (xi_two title' author').
Proof.
  exists (text_of "a" ++ forged ++ text_of "Bob"), (text_of "Carl"),
         (text_of "a"), (text_of "Bob" ++ forged ++ text_of "Carl").
  cbv zeta. split; [discriminate|]. split; [discriminate|]. split; vm_compute; reflexivity.
Qed.
Print Assumptions C73_values_refuted.
