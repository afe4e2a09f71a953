(** Property C72: the Python objects for property sets.

    The hypotheses on libfvalue, libfguid and Python (not part of the
    repository) are in [proplib_ok]. *)
From Coq Require Import ZArith List Bool Lia.
From Verif Require Import Base Spec_IO M_Table M_Load M_Stream Spec_Stream Spec_Content
  M_Prop Spec_Prop L_Base L_Prop L_Prop2 L_Prop3 M_Time Spec_Time M_Python M_PyProp Spec_PyProp L_PyProp
  P_Prop X_Linear X_Prop.
From Verif Require M_Items.
Import ListNotations.
Open Scope Z_scope.

(** Whatever a program calls, in any order: no undefined behaviour, and every
    object it holds is a set of the stream, a section or a value of such a set,
    or a sequence of all parts of one of its objects. *)
Theorem C72_programs :
  forall lib text v d cp s h l w,
    proplib_ok lib text -> calls_ok v d s h ->
    prop_run lib v d cp h [] = (l, w) ->
    Forall (fun a => a <> QUndef) l /\ program_ok lib v d cp s w.
Proof.
  intros lib text v d cp s h l w HP Hc H.
  assert (H0 : program_ok lib v d cp s []) by (intros [|k] ob Hk; discriminate).
  destruct (run_ok lib text v d cp s HP h [] l w H0 Hc H) as (H1 & H2). auto.
Qed.
Print Assumptions C72_programs.

(** The answers of the value [j] of the section [k]: what the stream holds for
    this entry. *)
Theorem C72_values :
  forall lib text v d cp s x k sec j p,
    proplib_ok lib text -> got lib v d cp s x ->
    znth (ps_sections x) k = Some sec -> znth (sc_properties sec) j = Some p ->
    let e := ps_order x in
    exists base rel id ty bytes,
      u32_at s e (44 + 20 * k) base /\
      u32_at s e (base + 8 + 8 * j) id /\ u32_at s e (base + 12 + 8 * j) rel /\
      let off := (base + rel) mod 2 ^ 32 in
      value_at s e off ty bytes /\
      value_step lib p CallIdentifier = QNumber id /\
      value_step lib p CallValueType = QNumber ty /\
      value_step lib p CallData = data_answer bytes /\
      integer_of s e off ty (value_step lib p CallInteger) /\
      boolean_of s off ty (value_step lib p CallBoolean) /\
      datetime_of s e off ty (value_step lib p CallDatetime) /\
      string_of lib text cp ty bytes (value_step lib p CallString).
Proof.
  intros lib text v d cp s x k sec j p HP HG Hk Hj e.
  destruct (value_facts _ _ _ _ _ _ _ _ _ _ HG Hk Hj) as (HB & (base & rel & H1 & H2 & H3 & H4 & Hv) & Hh).
  exists base, rel, (pv_id p), (pv_type p), (stored p).
  split; [exact H1|]. split; [exact H2|]. split; [exact H3|].
  change (2 ^ 32) with 4294967296. cbv zeta.
  split; [exact Hv|]. split; [reflexivity|]. split; [reflexivity|].
  split; [exact (data_ok_answer lib text p HP)|].
  split; [exact (integer_ok lib text cp e p s _ HP HB Hv Hh)|].
  split; [exact (boolean_ok lib text cp e p s _ HP HB Hv Hh)|].
  split; [exact (datetime_ok lib text cp e p s _ HP HB Hv Hh)|].
  exact (string_ok lib text cp e p HP Hh).
Qed.
Print Assumptions C72_values.

(** Parts by index: of a sequence, where a negative index counts from the end,
    and of the set or the section itself, where it does not. *)
Theorem C72_parts_by_index :
  forall lib v d cp s w i z,
    program_ok lib v d cp s w ->
    (forall parent current n ob,
       nth_error w i = Some (PoSequence parent current n) -> nth_error w parent = Some ob ->
       prop_step lib v d cp w (OnParts i M_Items.CallLength) = (QNumber (zlen (parts_of ob)), w) /\
       prop_step lib v d cp w (OnParts i (M_Items.CallIndex (PInt z))) =
       match znth (parts_of ob) (if z <? 0 then z + zlen (parts_of ob) else z) with
       | Some part => (QObject (length w), w ++ [part])
       | None => (QRaise (if (- 2 ^ 63 <=? z) && (z <? 2 ^ 63) then ValueError else IndexError), w)
       end) /\
    (forall ob, nth_error w i = Some ob ->
       (exists x, ob = PoSet x) \/ (exists x, ob = PoSection x) ->
       prop_step lib v d cp w (OnPart i CallNumber) = (QNumber (zlen (parts_of ob)), w) /\
       prop_step lib v d cp w (OnPart i (CallGet (PInt z))) =
       match znth (parts_of ob) z with
       | Some part => (QObject (length w), w ++ [part])
       | None => (QRaise (if (- 2 ^ 31 <=? z) && (z <? 2 ^ 31) then IOError else OverflowError), w)
       end).
Proof.
  intros lib v d cp s w i z Hw. split.
  - intros parent current n ob Hi Hpa. split.
    + destruct (sequence_parent lib v d cp s w i parent current n Hw Hi) as (ob' & Hob & _ & Hl & _).
      cbn [prop_step]. rewrite Hi. unfold parts_step. rewrite Hpa.
      assert (ob' = ob) by congruence. subst ob'. now rewrite Hl.
    + exact (sequence_index lib v d cp s w i parent current n ob z Hw Hi Hpa).
  - intros ob Hi Hob.
    assert (Hn : exists n, number_of_parts ob = Some n)
      by (destruct Hob as [(x & ->)|(x & ->)]; cbn [number_of_parts]; eauto).
    destruct Hn as (n & Hn). split.
    + cbn [prop_step]. rewrite Hi. unfold part_step. rewrite Hn.
      now rewrite (number_of_parts_ok _ _ Hn).
    + exact (get_index lib v d cp s w i ob n z Hw Hi Hn).
Qed.
Print Assumptions C72_parts_by_index.

(** Two loops, over the sections of a set in the stream and over the values of
    each, show all that the set holds, in order, and then end; whatever the
    program did before. *)
Theorem C72_walk :
  forall lib text v d cp s rd c t w x fuel,
    proplib_ok lib text -> lib_accepts (pl_values lib) ->
    is_readable_stream rd v d s -> zlen s < 2 ^ 32 - 1 -> 0 <= c ->
    set_at s x -> zlen s < Z.of_nat fuel ->
    walk_set lib v d cp fuel rd c t w = set_line x.
Proof.
  intros lib text v d cp s rd c t w x fuel HP HL HR Hs Hc Hx Hf.
  destruct (C44_set_exact (pl_values lib) rd v d s cp c t x HR HL Hs Hc Hx) as (y & c' & t' & Hg & Hv).
  rewrite (walk_set_ok lib v d cp text HP fuel rd c t w s y c' t' (readable_is_stream _ _ _ _ HR) Hg Hf).
  exact (set_line_view y x Hv).
Qed.
Print Assumptions C72_walk.

(** ** A case *)

(** UTF-8 of strings of ASCII characters, with or without an end. *)
Definition drop_end (l : list Z) : list Z :=
  match rev l with 0 :: r => rev r | _ => l end.
Fixpoint even_bytes (l : list Z) : list Z :=
  match l with a :: _ :: r => a :: even_bytes r | _ => [] end.
Definition xq_text (l : list Z) (enc : fv_encoding) : option (list Z) :=
  match enc with
  | EncCodepage _ => Some (drop_end l)
  | EncUtf16Little => Some (drop_end (even_bytes l))
  | EncOrder _ => None
  end.
Definition xq_value_text (w : fvalue) : option (list Z) :=
  match fv_data w with Some (l, enc) => xq_text l enc | None => None end.

Definition xq_lib : proplib := {|
  pl_values := {|
    lib_new := lib_new xp_lib; lib_set := lib_set xp_lib; lib_bits := lib_bits xp_lib;
    lib_size := lib_size xp_lib; lib_copy := lib_copy xp_lib;
    lib_utf8 := fun w n =>
      match xq_value_text w with
      | Some s => if n <? zlen s + 1 then None else Some (s ++ [0])
      | None => None
      end;
    lib_utf16 := lib_utf16 xp_lib |};
  pl_utf8_size := fun w => match xq_value_text w with Some s => Some (zlen s + 1) | None => None end;
  pl_guid := fun l => Some (guid_text l ++ [0]);
  pl_decodes := forallb (fun c => (0 <? c) && (c <? 128))
|}.

Lemma xq_lib_ok : proplib_ok xq_lib xq_text.
Proof.
  constructor.
  - exact xp_lib_decodes.
  - reflexivity.
  - intros w. cbn. change (value_bytes w) with (data_of w). now rewrite Z.ltb_irrefl.
  - intros k l enc Hl. cbn. unfold xq_value_text. cbn [fv_data].
    destruct (xq_text l enc) as [s|]; [|reflexivity]. split; [reflexivity|]. now rewrite Z.ltb_irrefl.
  - intros k n s. cbn. discriminate.
  - intros l _ _. exists [0]. reflexivity.
  - intros s Hs. apply forallb_forall. intros c Hc. rewrite Forall_forall in Hs. specialize (Hs c Hc). lia.
Qed.

Definition xq_file (e : endian) : list Z := xp_set e (match e with Little => 2 | Big => 131072 end).
Definition xq_run (e : endian) (h : list prop_call) : list preply :=
  fst (prop_run xq_lib (line_volume (xq_file e)) (line_dirent (xq_file e)) 1252 h []).
Definition xq_get (e : endian) : prop_call := GetSet (file_reader (line_file (xq_file e))) 0 [].

(** The hypotheses hold for the set of C44, in both byte orders. *)
Example C72_case_hypotheses :
  forall e,
    let s := xq_file e in
    proplib_ok xq_lib xq_text /\ lib_accepts (pl_values xq_lib) /\
    is_readable_stream (file_reader (line_file s)) (line_volume s) (line_dirent s) s /\
    io_bytes (file_reader (line_file s)) /\ zlen s = 265 /\ exists x, set_at s x.
Proof.
  intros e s. split; [exact xq_lib_ok|]. split; [exact xp_lib_accepts|].
  assert (HR : is_readable_stream (file_reader (line_file s)) (line_volume s) (line_dirent s) s)
    by (apply xp_stream; destruct e; vm_compute; congruence).
  split; [exact HR|]. split.
  { apply file_reader_bytes. apply all_bytes_ok. destruct e; vm_compute; reflexivity. }
  split; [destruct e; reflexivity|].
  destruct (C44_case e (match e with Little => 2 | Big => 131072 end)) as (_ & _ & _ & x & c & _ & Hx & _);
    [destruct e; auto|]. exists x. exact Hx.
Qed.

Example C72_case_walk :
  forall e,
    walk_set xq_lib (line_volume (xq_file e)) (line_dirent (xq_file e)) 1252 300
      (file_reader (line_file (xq_file e))) 5 [] [PoSequence 7 1 2] =
    let stop := QRaise StopIteration in
    let io := QRaise IOError in
    (QText (guid_text (repeat 7 16)),
     ([(QText (guid_text (repeat 1 16)),
        ([(QNumber 1, QNumber 2, QBytes (bytes_in e 2 1252));
          (QNumber 2, QNumber 30, QBytes [72; 105; 0]);
          (QNumber 4, QNumber 3, QBytes (bytes_in e 4 4294967291));
          (QNumber 12, QNumber 64, QBytes (bytes_in e 8 131000000000000000));
          (QNumber 16, QNumber 11, QBytes [255]);
          (QNumber 17, QNumber 71, QBytes [9; 8; 7]);
          (QNumber 18, QNumber 153, io)], stop));
       (QText (guid_text (repeat 2 16)),
        ([(QNumber 3, QNumber 31, QBytes [72; 0; 0; 0]);
          (QNumber 5, QNumber 21, QBytes (bytes_in e 8 9));
          (QNumber 6, QNumber 4126, io)], stop))], stop)).
Proof. destruct e; vm_compute; reflexivity. Qed.

(** set.get_section(0).get_property(2).integer and others. *)
Example C72_case_values :
  forall e,
    xq_run e
      [xq_get e; OnPart 0 CallNumber; OnPart 0 (CallGet (PInt 0)); OnPart 1 (CallGet (PInt 0));
       OnPart 1 (CallGet (PInt 1)); OnPart 1 (CallGet (PInt 2)); OnPart 1 (CallGet (PInt 3));
       OnPart 1 (CallGet (PInt 4)); OnPart 1 (CallGet (PInt 7)); OnPart 1 (CallGet (PInt (-1)));
       OnValue 2 CallInteger; OnValue 3 CallString; OnValue 3 CallInteger; OnValue 4 CallInteger;
       OnValue 4 CallBoolean; OnValue 5 CallInteger; OnValue 5 CallDatetime; OnValue 5 CallString;
       OnValue 6 CallBoolean; OnValue 6 CallDatetime; OnPart 6 CallNumber;
       OnPart 0 CallParts; OnParts 7 (M_Items.CallIndex (PInt (-1)));
       OnPart 8 (CallGet (PInt 0)); OnValue 9 CallString;
       OnParts 7 (M_Items.CallIndex (PInt 2)); OnParts 7 M_Items.CallLength] =
    [QObject 0; QNumber 2; QObject 1; QObject 2; QObject 3; QObject 4; QObject 5; QObject 6;
     QRaise IOError; QRaise IOError;
     QNumber 1252; QText [72; 105]; QRaise IOError; QNumber (-5);
     QRaise IOError; QNumber 131000000000000000;
     QDate {| dc_year := 2016; dc_month := 2; dc_day := 15; dc_hours := 8; dc_minutes := 53;
              dc_seconds := 20; dc_micro_seconds := 0 |}; QRaise IOError;
     QBool true; QRaise IOError; QRaise AttributeError;
     QObject 7; QObject 8; QObject 9; QText [72]; QRaise ValueError; QNumber 2].
Proof. destruct e; vm_compute; reflexivity. Qed.
