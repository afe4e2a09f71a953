(** C81: property sets that are written after the documentation of the format
    are read back. *)
From Coq Require Import ZArith List Bool Lia.
From Verif Require Import Base Spec_IO M_Header M_Table M_Load M_Stream M_Tree M_Open M_Item
  Spec_Stream Spec_Load Spec_Tree Spec_Open Spec_Content Spec_Write M_Prop Spec_Prop M_Python M_PyProp Spec_PyProp
  L_Base L_Header L_Prop L_Prop3 L_Write3 L_Write4 X_Linear X_Prop X_File P_Prop P_PyProp P_Write Spec_Stores Spec_Doc L_Doc
  Spec_SetWrite L_SetWrite L_SetWrite2.
Import ListNotations.
Open Scope Z_scope.

(** * Theorems *)

(** A written set in a stream that can be read is read back: header, sections,
    identifiers, types and the bytes of the values. *)
Theorem C81_round_trip :
  forall lib rd v d cp c t x,
    set_ok x -> lib_accepts lib ->
    is_readable_stream rd v d (set_written Little x) -> 0 <= c ->
    exists y c' t', get_set lib rd v d cp c t = (Ok (y, c'), t') /\ set_view y = said Little x.
Proof.
  intros lib rd v d cp c t x Hx HL HR Hc.
  destruct (C44_set_exact lib rd v d _ cp c t (set_of Little x) HR HL (so_size x Hx) Hc (set_written_at Little x Hx))
    as (y & c' & t' & H1 & H2).
  exists y, c', t'. split; [exact H1|]. rewrite H2. apply set_of_said.
Qed.
Print Assumptions C81_round_trip.

(** The value at each place is the one that was written, as the getters
    answer. *)
Theorem C81_values :
  forall lib rd v d cp c t x y c' t' i j id w,
    set_ok x -> lib_decodes lib -> lib_copies lib ->
    is_readable_stream rd v d (set_written Little x) ->
    get_set lib rd v d cp c t = (Ok (y, c'), t') ->
    value_in x i j = Some (id, w) ->
    exists sec p, get_section y i = Ok sec /\ get_property sec j = Ok p /\
      pv_id p = id /\ pv_type p = type_of w /\ answers lib cp w p.
Proof.
  intros lib rd v d cp c t x y c' t' i j id w Hx HD HC HR HG HI.
  pose proof (readable_is_stream _ _ _ _ HR) as HS.
  assert (HV : set_view y = said Little x).
  { rewrite <- set_of_said. apply (set_at_fun (set_written Little x));
      [exact (C44_set_is_in_the_stream _ _ _ _ _ _ _ _ _ _ _ HS HG)|exact (set_written_at Little x Hx)]. }
  destruct (view_property y x i j id w HV HI) as (sec & p & H1 & H2 & H3 & H4 & H5 & H6).
  pose proof (value_in_ok x i j id w Hx HI) as Hw.
  assert (HO : ps_order y = Little).
  { unfold set_view, said in HV. do 5 (apply (f_equal fst) in HV; cbn [fst] in HV). exact HV. }
  exists sec, p. split; [exact H1|]. split; [exact H2|]. split; [exact H4|]. split; [exact H5|].
  destruct (C47_getters_decode lib rd v d _ cp c t y c' t' p HS HD HG H3) as (G1 & G2 & G3 & G4 & G5).
  rewrite HO in G1, G2, G3, G4, G5. rewrite H5 in G1, G2, G3, G4, G5.
  assert (DEC : forall (get : fvlib -> property -> res Z) n tt xx,
            w = VNumber tt xx ->
            (exists l, stored p = Some l /\ zlen l = n /\ get lib p = Ok (number_in Little l)) -> get lib p = Ok xx).
  { intros get n tt xx -> (l & L1 & L2 & ->). f_equal. rewrite H6 in L1. cbn [content_of] in L1.
    destruct Hw as (Ht & Hr). destruct (number_size_in tt Ht) as (_ & Hn).
    assert (l = bytes_of Little (Z.to_nat (number_size tt)) xx) by congruence. subst l.
    apply number_bytes. rewrite Z2Nat.id by lia. exact Hr. }
  destruct w as [tt xx|b|l|l|l|tt l]; cbn [answers type_of content_of] in *.
  - split; [intros E; exact (DEC get_16bit 2 _ _ eq_refl (G2 E))|].
    split; [intros E; exact (DEC get_32bit 4 _ _ eq_refl (G3 E))|].
    split; [intros E; exact (DEC get_64bit 8 _ _ eq_refl (G4 E))|].
    intros E; exact (DEC get_filetime 8 _ _ eq_refl (G5 E)).
  - destruct (G1 eq_refl) as (l & L1 & _ & ->). rewrite H6 in L1. assert (l = [if b then 255 else 0]) by congruence. subst l.
    destruct b; reflexivity.
  - exact (stored_data lib p l HC H6).
  - destruct (C47_strings lib rd v d _ cp c t y c' t' p HS HG H3 (or_introl H5)) as (w & l' & L1 & L2 & L3 & L4 & L5).
    rewrite H5 in L2, L3. change (0x1e =? 0x1e) with true in L2, L3. cbv iota in L2, L3.
    rewrite H6 in L1. assert (l' = l ++ [0]) by congruence. subst l'.
    pose proof (zlen_nonneg l). rewrite (proj2 (Z.eqb_neq _ 0)) in L3 by (rewrite zlen_app; change (zlen [0]) with 1; lia).
    assert (w = {| fv_kind := FvByteString; fv_data := Some (l ++ [0], EncCodepage cp) |}) by (destruct w; simpl in L2, L3; congruence).
    subst w. intros n. split; [apply L4|apply L5].
  - destruct (C47_strings lib rd v d _ cp c t y c' t' p HS HG H3 (or_intror H5)) as (w & l' & L1 & L2 & L3 & L4 & L5).
    rewrite H5 in L2, L3. change (0x1f =? 0x1e) with false in L2, L3. cbv iota in L2, L3.
    rewrite H6 in L1. assert (l' = flat_map (bytes_of Little 2) l ++ [0; 0]) by congruence. subst l'.
    pose proof (zlen_nonneg (flat_map (bytes_of Little 2) l)).
    rewrite (proj2 (Z.eqb_neq _ 0)) in L3 by (rewrite zlen_app; change (zlen [0; 0]) with 2; lia).
    assert (w = {| fv_kind := FvUtf16String; fv_data := Some (flat_map (bytes_of Little 2) l ++ [0; 0], EncUtf16Little) |})
      by (destruct w; simpl in L2, L3; congruence).
    subst w. intros n. split; [apply L4|apply L5].
  - exact (stored_data lib p l HC H6).
Qed.
Print Assumptions C81_values.

(** Different sets are written as different bytes. *)
Theorem C81_injective :
  forall x y, set_ok x -> set_ok y -> set_written Little x = set_written Little y -> x = y.
Proof.
  intros x y Hx Hy E. apply said_inj; [exact Hx|exact Hy|]. rewrite <- !set_of_said.
  apply (set_at_fun (set_written Little x)); [now apply set_written_at|]. rewrite E. now apply set_written_at.
Qed.
Print Assumptions C81_injective.

(** Finding: of a set that is written in big-endian order, which the
    documentation allows, the header is read and never any section. *)
Theorem C81_big_endian_sections_are_lost :
  forall lib rd v d cp c t x,
    set_ok x -> lib_accepts lib ->
    is_readable_stream rd v d (set_written Big x) -> 0 <= c ->
    exists y c' t', get_set lib rd v d cp c t = (Ok (y, c'), t') /\
      set_view y = (Big, st_format x, st_version x, st_class x, 0, []).
Proof.
  intros lib rd v d cp c t x Hx HL HR Hc.
  pose proof (so_size x Hx) as Hs. rewrite <- set_written_same in Hs.
  destruct (C44_set_exact lib rd v d _ cp c t (set_of Big x) HR HL Hs Hc (set_written_at Big x Hx))
    as (y & c' & t' & H1 & H2).
  exists y, c', t'. split; [exact H1|]. exact H2.
Qed.
Print Assumptions C81_big_endian_sections_are_lost.

(** The way of a client: a file with a document with the set somewhere in it is
    opened, its items are followed to the stream, and the set is read. *)
Theorem C81_document :
  forall u lib rd h root doc path x cp t0,
    holds u rd h root doc ->
    lib_accepts lib -> lib_decodes lib -> lib_copies lib ->
    set_ok x -> stream_at (doc_items doc) path = Some (set_written Little x) ->
    exists o t tr j d y c' t', open_read u rd [] = (Ok o, t) /\ o_tree o = Some tr /\
      follow tr 0 path = Ok j /\ node_value tr j = Ok d /\
      get_set lib rd (opened_volume o) d cp 0 t0 = (Ok (y, c'), t') /\
      set_view y = said Little x /\
      forall i k id w, value_in x i k = Some (id, w) ->
        exists sec p, get_section y i = Ok sec /\ get_property sec k = Ok p /\
          pv_id p = id /\ pv_type p = type_of w /\ answers lib cp w p.
Proof.
  intros u lib rd h root doc path x cp t0 HH HA HD HP Hx Hpath.
  destruct (holds_opens _ _ _ _ _ HH) as (o & t & tr & Ho & E1 & _ & (nd & E2 & _ & E3 & _) & _). cbn [Spec_Doc.below] in E3.
  destruct (follow_stream rd (opened_volume o) tr path 0 nd _ _ E2 E3 Hpath) as (j & d & F1 & F2 & F3).
  destruct (C81_round_trip lib rd (opened_volume o) d cp 0 t0 x Hx HA F3 ltac:(lia)) as (y & c' & t' & Hg & Hv).
  exists o, t, tr, j, d, y, c', t'. repeat (split; [assumption|]).
  intros i k id w HI. exact (C81_values lib rd _ d cp 0 t0 x y c' t' i k id w Hx HD HP F3 Hg HI).
Qed.
Print Assumptions C81_document.

(** A Python program that walks over the set prints what was written. *)
Theorem C81_python :
  forall lib text v d cp rd c t w x fuel,
    proplib_ok lib text -> lib_accepts (pl_values lib) -> set_ok x ->
    is_readable_stream rd v d (set_written Little x) -> 0 <= c ->
    zlen (set_written Little x) < Z.of_nat fuel ->
    walk_set lib v d cp fuel rd c t w =
      (QText (guid_text (st_class x)),
       (map (fun sec => (QText (guid_text (fst sec)),
               (map (fun p => (QNumber (fst p), QNumber (type_of (snd p)),
                       match content_of Little (snd p) with [] => QNone | l => QBytes l end)) (snd sec),
                QRaise StopIteration))) (st_sections x), QRaise StopIteration)).
Proof.
  intros lib text v d cp rd c t w x fuel HP HL Hx HR Hc Hf.
  rewrite (C72_walk lib text v d cp _ rd c t w (set_of Little x) fuel HP HL HR (so_size x Hx) Hc (set_written_at Little x Hx) Hf).
  unfold set_line. cbn [ps_class ps_sections set_of]. f_equal. f_equal. rewrite map_map. apply map_ext. intros [class ps].
  unfold section_line, section_of. cbn [sc_class sc_properties fst snd]. f_equal. f_equal. rewrite map_map. apply map_ext.
  intros [id val]. unfold value_line, property_of. cbn [pv_id pv_type stored pv_value fv_data fst snd data_answer]. destruct (content_of Little val); reflexivity.
Qed.
Print Assumptions C81_python.

(** * Cases *)
Definition xs_set : pset :=
  {| st_format := 1; st_version := 0x20006; st_class := repeat 7 16;
     st_sections :=
       [ (repeat 1 16,
          [ (1, VNumber 0x02 1252); (2, VString [72; 105]); (3, VString []); (4, VNumber 0x03 4294967291);
            (10, VNumber 0x40 131000000000000000); (11, VBool true); (12, VBool false);
            (17, VBlob 0x47 [9; 8; 7]); (18, VBlob 0x41 []) ]);
         (repeat 2 16, []);
         (repeat 3 16,
          [ (3, VWide [72; 8364]); (4294967295, VNumber 0x15 (2 ^ 64 - 1)); (5, VGuid (map Z.of_nat (seq 0 16)));
            (6, VNumber 0x10 200) ]) ] |}.

Definition values_check (l : list (Z * pvalue)) : Prop := Forall (fun p => is_u32 (fst p) /\ value_ok (snd p)) l.

Lemma xs_set_ok : set_ok xs_set.
Proof.
  assert (G : forall l, zlen l = 16 -> all_bytes l = true -> guid_ok l) by (intros l H1 H2; split; [exact H1|now apply all_bytes_ok]).
  constructor.
  - cbn. lia.
  - cbn. unfold is_u32. lia.
  - apply G; reflexivity.
  - reflexivity.
  - assert (U : forall z, (0 <=? z) && (z <? 4294967296) = true -> is_u32 z) by (intros z Hz; unfold is_u32; lia).
    unfold xs_set. cbn [st_sections].
    repeat (apply Forall_cons || apply Forall_nil); cbn [fst snd];
      (split; [apply G; reflexivity|]);
      repeat (apply Forall_cons || apply Forall_nil); cbn [fst snd]; (split; [apply U; reflexivity|]); cbn [value_ok];
      try exact I; try (apply G; reflexivity);
      try (split; [vm_compute; tauto|]; split; [discriminate|reflexivity]);
      try (split; [vm_compute; tauto|]; split; [now apply all_bytes_ok|discriminate]).
    + split; [repeat constructor; lia|discriminate].
    + split; [constructor|discriminate].
    + split; [repeat constructor; lia|discriminate].
  - vm_compute. reflexivity.
Qed.

Lemma xp_lib_copies : lib_copies xp_lib.
Proof.
  intros w l. cbn [xp_lib lib_size lib_copy]. change (value_bytes w) with l. rewrite Z.ltb_irrefl. auto.
Qed.

(** Three sections and thirteen values. *)
Example C81_case :
  set_ok xs_set /\ lib_accepts xp_lib /\ lib_decodes xp_lib /\ lib_copies xp_lib /\
  let s := set_written Little xs_set in
  zlen s = 360 /\
  is_readable_stream (file_reader (line_file s)) (line_volume s) (line_dirent s) s /\
  xp_view (xp_read s) = Some (said Little xs_set) /\
  value_in xs_set 2 0 = Some (3, VWide [72; 8364]).
Proof.
  split; [exact xs_set_ok|]. split; [exact xp_lib_accepts|]. split; [exact xp_lib_decodes|]. split; [exact xp_lib_copies|].
  cbv zeta. split; [vm_compute; reflexivity|]. split; [apply xp_stream; vm_compute; congruence|].
  split; vm_compute; reflexivity.
Qed.

(** The same in big-endian order. *)
Example C81_big_endian_case :
  let s := set_written Big xs_set in
  is_readable_stream (file_reader (line_file s)) (line_volume s) (line_dirent s) s /\
  xp_view (xp_read s) = Some (Big, 1, 0x20006, repeat 7 16, 0, []).
Proof. cbv zeta. split; [apply xp_stream; vm_compute; congruence|vm_compute; reflexivity]. Qed.

(** In a storage of a document. *)
Definition xs_doc : document :=
  {| doc_name := [82; 0; 0; 0]; doc_ctime := 0; doc_mtime := 0;
     doc_items :=
       AddStream [97; 0; 0; 0] 1 134392752591234567 [10; 20; 30]
         (AddStorage [98; 0; 0; 0] 3 129067776000000000
            (AddStream [99; 0] 0 0 [] (AddStream [100; 0] 0 0 (set_written Little xs_set) Empty)) Empty) |}.

Lemma xs_writable e : writable (xw_format e) xs_doc.
Proof.
  constructor.
  - cbn. lia.
  - cbn. lia.
  - cbn. unfold is_u32. lia.
  - split; [vm_compute; discriminate|now apply xw_bytes].
  - cbn [names_ok w_items doc_items xs_doc]. repeat split; try (vm_compute; discriminate); now apply xw_bytes.
  - cbn [doc_ctime doc_mtime xs_doc]. lia.
  - cbn [times_ok w_items doc_items xs_doc]. lia.
  - apply Forall_forall. intros s Hs. cbn [w_items doc_items xs_doc streams app] in Hs.
    destruct Hs as [<-|[<-|[<-|[]]]]; (split; [now apply xw_bytes|reflexivity]).
  - reflexivity.
  - vm_compute. discriminate.
  - vm_compute. discriminate.
  - vm_compute. discriminate.
Qed.

Example C81_document_case :
  forall e,
    writable (xw_format e) xs_doc /\ comparable xf_una e (doc_name xs_doc) /\
    names_ok (comparable xf_una e) (doc_items xs_doc) /\
    stream_at (doc_items xs_doc) [1; 1]%nat = Some (set_written Little xs_set) /\
    let rd := file_reader (write (xw_format e) xs_doc) in
    match open_read xf_una rd [] with
    | (Ok o, _) =>
        match o_tree o with
        | Some tr =>
            match follow tr 0 [1; 1]%nat with
            | Ok j => match node_value tr j with
                      | Ok d => match fst (get_set xp_lib rd (opened_volume o) d 1252 0 []) with
                                | Ok (y, _) => set_view y = said Little xs_set
                                | _ => False
                                end
                      | _ => False
                      end
            | _ => False
            end
        | None => False
        end
    | _ => False
    end.
Proof.
  intros e. split; [apply xs_writable|].
  split; [split; intros H; vm_compute in H; discriminate H|].
  split; [cbn [names_ok doc_items xs_doc]; repeat split; intros H; vm_compute in H; discriminate H|].
  split; [reflexivity|]. destruct e; vm_compute; reflexivity.
Qed.

(** Finding: the dictionary of a section (property 0), which is a count and
    entries and has no type, is read as a value whose type is the count: with
    two names it is a 16-bit integer that holds a part of an identifier. *)
Theorem C81_dictionary_refuted :
  exists s dict x c p,
    (* two entries: identifier, size of the name with its end, name *)
    dict = bytes_of Little 4 2 ++
           bytes_of Little 4 0x1234 ++ bytes_of Little 4 2 ++ [65; 0] ++
           bytes_of Little 4 3 ++ bytes_of Little 4 2 ++ [66; 0] /\
    s = set_bytes Little 1 [(repeat 1 16, 48)]
          (bytes_of Little 4 (16 + zlen dict) ++ bytes_of Little 4 1 ++ bytes_of Little 4 0 ++ bytes_of Little 4 16 ++ dict) /\
    field s 64 (zlen dict) dict /\
    is_readable_stream (file_reader (line_file s)) (line_volume s) (line_dirent s) s /\
    xp_read s = Ok (x, c) /\ in_set x p /\
    pv_id p = 0 /\ pv_type p = 2 /\ get_16bit xp_lib p = Ok 0x1234.
Proof.
  set (dict := bytes_of Little 4 2 ++ bytes_of Little 4 0x1234 ++ bytes_of Little 4 2 ++ [65; 0] ++
               bytes_of Little 4 3 ++ bytes_of Little 4 2 ++ [66; 0]).
  set (s := set_bytes Little 1 [(repeat 1 16, 48)]
          (bytes_of Little 4 (16 + zlen dict) ++ bytes_of Little 4 1 ++ bytes_of Little 4 0 ++ bytes_of Little 4 16 ++ dict)).
  destruct (xp_read s) as [[x c]| | |] eqn:Hr; try (vm_compute in Hr; discriminate).
  pose proof Hr as Hr'. vm_compute in Hr'. apply Ok_inj in Hr'. apply (f_equal fst) in Hr'. cbn [fst] in Hr'.
  exists s, dict, x, c, {| pv_id := 0; pv_type := 2;
    pv_value := Some {| fv_kind := FvInteger16; fv_data := Some ([0x34; 0x12], EncOrder Little) |} |}.
  split; [reflexivity|]. split; [reflexivity|].
  split; [vm_compute; repeat split; congruence|].
  split; [apply xp_stream; vm_compute; congruence|].
  split; [exact Hr|]. subst x. split; [|repeat split; reflexivity].
  eexists. split; [left; reflexivity|left; reflexivity].
Qed.
Print Assumptions C81_dictionary_refuted.
