(** Properties C44 to C47 and C52: property sets.

    The hypotheses on the value library (libfvalue, not part of the
    repository) are [lib_accepts] and [lib_decodes]. *)
From Coq Require Import ZArith List Bool Lia.
From Verif Require Import Base Spec_IO M_Table M_Load M_Stream Spec_Stream Spec_Content
  M_Prop Spec_Prop L_Base L_Prop L_Prop2 L_Prop3 X_Linear X_Prop.
Import ListNotations.
Open Scope Z_scope.

(** * C44 *)

(** A set that is returned is in the bytes of the stream: header, sections and
    properties; whatever the library of values and the I/O layer do. *)
Theorem C44_set_is_in_the_stream :
  forall lib rd v d s cp c t x c' t',
    is_stream rd v d s ->
    get_set lib rd v d cp c t = (Ok (x, c'), t') ->
    set_at s x.
Proof.
  intros lib rd v d s cp c t x c' t' (HV & HD & Hsh & HB & f & HS & HC) H.
  apply (get_set_sound f rd v d s HS HV HD Hsh HC lib cp HB c t x c' t' H).
Qed.
Print Assumptions C44_set_is_in_the_stream.

(** Any set in the bytes of a stream that can be read is returned, and nothing
    else is. *)
Theorem C44_set_exact :
  forall lib rd v d s cp c t x,
    is_readable_stream rd v d s -> lib_accepts lib ->
    zlen s < 2 ^ 32 - 1 -> 0 <= c -> set_at s x ->
    exists y c' t', get_set lib rd v d cp c t = (Ok (y, c'), t') /\ set_view y = set_view x.
Proof.
  intros lib rd v d s cp c t x (HV & HD & Hsh & HB & HI & f & HS & HT & HC) HL Hs Hc Hx.
  exact (get_set_exact f rd v d s lib cp c t x HS HT HV HD Hsh HC HI HB HL Hs Hc Hx).
Qed.
Print Assumptions C44_set_exact.

(** Two reads of the same stream agree, whatever the I/O layer does, wherever
    the stream stood, and whatever the library and the codepage are. *)
Theorem C44_set_is_unique :
  forall lib lib' rd rd' v d s cp cp' c c0 t t0 x y c' c0' t' t0',
    is_stream rd v d s -> is_stream rd' v d s ->
    get_set lib rd v d cp c t = (Ok (x, c'), t') ->
    get_set lib' rd' v d cp' c0 t0 = (Ok (y, c0'), t0') ->
    set_view x = set_view y.
Proof.
  intros lib lib' rd rd' v d s cp cp' c c0 t t0 x y c' c0' t' t0' H1 H2 Hx Hy.
  exact (set_at_fun s x y
    (C44_set_is_in_the_stream _ _ _ _ _ _ _ _ _ _ _ H1 Hx)
    (C44_set_is_in_the_stream _ _ _ _ _ _ _ _ _ _ _ H2 Hy)).
Qed.
Print Assumptions C44_set_is_unique.

(** No undefined behaviour, for any bytes: neither the entry, nor the library,
    nor the contents need to make sense. *)
Theorem C44_defined :
  forall lib rd v d cp c t,
    volume_ok v -> dirent_ok d -> io_bytes rd ->
    defined (fst (get_set lib rd v d cp c t)).
Proof. intros. apply get_set_defined; auto. Qed.
Print Assumptions C44_defined.

(** The documented number of sections has four bytes. *)
Lemma count_half s e n m : Forall is_byte s -> u32_at s e 24 n -> u16_at s e 24 m ->
  m = match e with Little => n mod 65536 | Big => n / 65536 end.
Proof.
  intros HB (l & (_ & _ & Hl & ->) & ->) (l' & (_ & _ & _ & ->) & ->).
  destruct (znth_some s 24) as (a & Ha); [lia|].
  destruct (znth_some s 25) as (b & Hb); [lia|].
  destruct (znth_some s 26) as (c & Hc); [lia|].
  destruct (znth_some s 27) as (d & Hd); [lia|].
  assert (E2 : slice s 24 2 = [a; b]).
  { apply znth_ext; [rewrite zlen_slice by lia; reflexivity|].
    intros i Hi. rewrite zlen_slice in Hi by lia. rewrite znth_slice by lia.
    assert (i = 0 \/ i = 1) as [-> | ->] by lia; [change (24 + 0) with 24; rewrite Ha|change (24 + 1) with 25; rewrite Hb]; reflexivity. }
  assert (E4 : slice s 24 4 = [a; b; c; d]).
  { apply znth_ext; [rewrite zlen_slice by lia; reflexivity|].
    intros i Hi. rewrite zlen_slice in Hi by lia. rewrite znth_slice by lia.
    assert (i = 0 \/ i = 1 \/ i = 2 \/ i = 3) as [-> | [-> | [-> | ->]]] by lia;
      [change (24 + 0) with 24; rewrite Ha|change (24 + 1) with 25; rewrite Hb|change (24 + 2) with 26; rewrite Hc|change (24 + 3) with 27; rewrite Hd]; reflexivity. }
  rewrite E2, E4.
  assert (Hr : forall i x, znth s i = Some x -> 0 <= x < 256).
  { intros i x Hx. rewrite Forall_forall in HB. apply HB. eapply znth_In. exact Hx. }
  apply Hr in Ha, Hb, Hc, Hd.
  destruct e; cbn [number_in rev app number].
  - replace (a + 256 * (b + 256 * (c + 256 * (d + 256 * 0))))
      with (a + 256 * (b + 256 * 0) + (c + 256 * d) * 65536) by ring.
    rewrite Z.mod_add by lia. symmetry. apply Z.mod_small. lia.
  - replace (d + 256 * (c + 256 * (b + 256 * (a + 256 * 0))))
      with (d + 256 * c + (b + 256 * (a + 256 * 0)) * 65536) by ring.
    rewrite Z.div_add by lia. rewrite Z.div_small by lia. reflexivity.
Qed.

Theorem C44_number_of_sections :
  forall lib rd v d s cp c t x c' t' n,
    is_stream rd v d s ->
    get_set lib rd v d cp c t = (Ok (x, c'), t') ->
    u32_at s (ps_order x) 24 n ->
    zlen (ps_sections x) = match ps_order x with Little => n mod 2 ^ 16 | Big => n / 2 ^ 16 end.
Proof.
  intros lib rd v d s cp c t x c' t' n HS H Hn.
  destruct (C44_set_is_in_the_stream _ _ _ _ _ _ _ _ _ _ _ HS H) as (_ & H16 & -> & _).
  destruct HS as (_ & _ & _ & HB & _). eapply count_half; eauto.
Qed.
Print Assumptions C44_number_of_sections.

(** By index: any section listed after the header, and an error for any other
    index. *)
Theorem C44_section_by_index :
  forall lib rd v d s cp c t x c' t',
    is_stream rd v d s ->
    get_set lib rd v d cp c t = (Ok (x, c'), t') ->
    (forall i, 0 <= i < ps_count x -> exists sec base,
       get_section x i = Ok sec /\ field s (28 + 20 * i) 16 (sc_class sec) /\
       u32_at s (ps_order x) (44 + 20 * i) base /\
       section_at s (ps_order x) base (sc_properties sec)) /\
    (forall i, i < 0 \/ ps_count x <= i -> get_section x i = Err).
Proof.
  intros lib rd v d s cp c t x c' t' HS H.
  destruct (C44_set_is_in_the_stream _ _ _ _ _ _ _ _ _ _ _ HS H) as (_ & _ & Hl & Hs).
  unfold get_section. split; intros i Hi.
  - destruct (znth (ps_sections x) i) as [sec|] eqn:E.
    + destruct (Hs i sec E) as (base & H1 & H2 & H3). exists sec, base. auto.
    + exfalso. destruct (znth_some (ps_sections x) i ltac:(lia)) as (y & Hy). congruence.
  - destruct (znth (ps_sections x) i) as [sec|] eqn:E; [|reflexivity].
    apply znth_range in E. lia.
Qed.
Print Assumptions C44_section_by_index.

(** Two sections and ten properties, in both byte orders (with the number of
    sections where the library takes it). *)
Example C44_case :
  forall e n, e = Little /\ n = 2 \/ e = Big /\ n = 2 * 65536 ->
    let s := xp_set e n in
    is_readable_stream (file_reader (line_file s)) (line_volume s) (line_dirent s) s /\
    lib_accepts xp_lib /\ zlen s = 265 /\
    exists x c, xp_read s = Ok (x, c) /\ set_at s x /\
      map (fun sec => map (fun p => (pv_id p, pv_type p)) (sc_properties sec)) (ps_sections x)
      = [[(1, 2); (2, 30); (4, 3); (12, 64); (16, 11); (17, 71); (18, 153)];
         [(3, 31); (5, 21); (6, 4126)]].
Proof.
  intros e n He s.
  assert (Hs : is_readable_stream (file_reader (line_file s)) (line_volume s) (line_dirent s) s).
  { apply xp_stream; destruct He as [[-> ->]|[-> ->]]; vm_compute; congruence. }
  split; [exact Hs|]. split; [exact xp_lib_accepts|].
  split; [destruct He as [[-> ->]|[-> ->]]; reflexivity|].
  destruct (xp_read s) as [[x c]| | |] eqn:Hr;
    try (destruct He as [[-> ->]|[-> ->]]; vm_compute in Hr; discriminate).
  exists x, c. split; [reflexivity|]. split.
  - unfold xp_read in Hr.
    destruct (get_set xp_lib (file_reader (line_file s)) (line_volume s) (line_dirent s) 1252 0 [])
      as [r t'] eqn:Hg. cbn [fst] in Hr. subst r.
    eapply C44_set_is_in_the_stream; [apply readable_is_stream; exact Hs|exact Hg].
  - destruct He as [[-> ->]|[-> ->]]; vm_compute in Hr; apply Ok_inj in Hr;
      apply (f_equal fst) in Hr; cbn [fst] in Hr; subst x; reflexivity.
Qed.

(** Finding: of a big-endian set with two sections none is returned. *)
Theorem C44_big_endian_count_refuted :
  exists s x c,
    is_readable_stream (file_reader (line_file s)) (line_volume s) (line_dirent s) s /\
    xp_read s = Ok (x, c) /\ ps_order x = Big /\ u32_at s Big 24 2 /\ ps_sections x = [].
Proof.
  exists (xp_set Big 2).
  destruct (xp_read (xp_set Big 2)) as [[x c]| | |] eqn:Hr; try (vm_compute in Hr; discriminate).
  exists x, c. split; [apply xp_stream; vm_compute; congruence|]. split; [reflexivity|].
  vm_compute in Hr. apply Ok_inj in Hr. apply (f_equal fst) in Hr. cbn [fst] in Hr. subst x.
  split; [reflexivity|]. split; [|reflexivity].
  exists [0; 0; 0; 2]. split; [|reflexivity]. vm_compute. repeat split; congruence.
Qed.
Print Assumptions C44_big_endian_count_refuted.

(** * C45 *)

(** The properties of section [k] are those of its list: as many, in order,
    with the identifiers of the list, and with the types found at the offsets
    of the list, which are larger than 8. *)
Theorem C45_section_lists_its_properties :
  forall lib rd v d s cp c t x c' t' k sec,
    is_stream rd v d s ->
    get_set lib rd v d cp c t = (Ok (x, c'), t') ->
    znth (ps_sections x) k = Some sec ->
    exists base,
      u32_at s (ps_order x) (44 + 20 * k) base /\
      u32_at s (ps_order x) (base + 4) (zlen (sc_properties sec)) /\
      forall j p, znth (sc_properties sec) j = Some p ->
        exists rel,
          u32_at s (ps_order x) (base + 8 + 8 * j) (pv_id p) /\
          u32_at s (ps_order x) (base + 8 + 8 * j + 4) rel /\ 8 < rel /\
          u32_at s (ps_order x) ((base + rel) mod 2 ^ 32) (pv_type p) /\
          value_at s (ps_order x) ((base + rel) mod 2 ^ 32) (pv_type p) (stored p).
Proof.
  intros lib rd v d s cp c t x c' t' k sec HS H Hk.
  destruct (C44_set_is_in_the_stream _ _ _ _ _ _ _ _ _ _ _ HS H) as (_ & _ & _ & Hall).
  destruct (Hall _ _ Hk) as (base & _ & Hb & _ & Hn & Hp).
  exists base. split; [exact Hb|]. split; [exact Hn|].
  intros j p Hj. destruct (Hp _ _ Hj) as (rel & H1 & H2 & H3 & H4).
  exists rel. split; [exact H1|]. split; [replace (base + 8 + 8 * j + 4) with (base + 12 + 8 * j) by lia; exact H2|].
  split; [exact H3|]. split; [exact (value_at_type _ _ _ _ _ H4)|exact H4].
Qed.
Print Assumptions C45_section_lists_its_properties.

(** Every list entry is returned, in particular the last one. *)
Theorem C45_every_entry :
  forall lib rd v d s cp c t x c' t' k base n j,
    is_stream rd v d s ->
    get_set lib rd v d cp c t = (Ok (x, c'), t') ->
    0 <= k < ps_count x ->
    u32_at s (ps_order x) (44 + 20 * k) base ->
    u32_at s (ps_order x) (base + 4) n -> 0 <= j < n ->
    exists sec p, znth (ps_sections x) k = Some sec /\ zlen (sc_properties sec) = n /\
      znth (sc_properties sec) j = Some p /\ property_at s (ps_order x) base j p.
Proof.
  intros lib rd v d s cp c t x c' t' k base n j HS H Hk Hb Hn Hj.
  destruct (C44_set_is_in_the_stream _ _ _ _ _ _ _ _ _ _ _ HS H) as (_ & _ & Hl & Hall).
  destruct (znth_some (ps_sections x) k) as (sec & Hsec); [lia|].
  destruct (Hall _ _ Hsec) as (base' & _ & Hb' & _ & Hn' & Hp).
  rewrite (u32_at_fun _ _ _ _ _ Hb' Hb) in *.
  pose proof (u32_at_fun _ _ _ _ _ Hn' Hn) as E.
  destruct (znth_some (sc_properties sec) j) as (p & Hjp); [lia|].
  exists sec, p. auto.
Qed.
Print Assumptions C45_every_entry.

(** An offset of 8 or less in any list makes the call fail. *)
Theorem C45_small_offset_rejected :
  forall lib rd v d s cp c t x c' t' k base n j rel,
    is_stream rd v d s ->
    get_set lib rd v d cp c t = (Ok (x, c'), t') ->
    0 <= k < ps_count x ->
    u32_at s (ps_order x) (44 + 20 * k) base ->
    u32_at s (ps_order x) (base + 4) n -> 0 <= j < n ->
    u32_at s (ps_order x) (base + 8 + 8 * j + 4) rel -> rel <= 8 ->
    False.
Proof.
  intros lib rd v d s cp c t x c' t' k base n j rel HS H Hk Hb Hn Hj Hr Hle.
  destruct (C45_every_entry _ _ _ _ _ _ _ _ _ _ _ _ _ _ _ HS H Hk Hb Hn Hj)
    as (sec & p & _ & _ & _ & rel' & _ & Hr' & Hgt & _).
  replace (base + 8 + 8 * j + 4) with (base + 12 + 8 * j) in Hr by lia.
  pose proof (u32_at_fun _ _ _ _ _ Hr Hr'). lia.
Qed.
Print Assumptions C45_small_offset_rejected.

(** By index: any property of the list, and an error for any other index. *)
Theorem C45_property_by_index :
  forall s e base sec,
    section_at s e base (sc_properties sec) ->
    (forall i, 0 <= i < zlen (sc_properties sec) -> exists p,
       get_property sec i = Ok p /\ property_at s e base i p) /\
    (forall i, i < 0 \/ zlen (sc_properties sec) <= i -> get_property sec i = Err).
Proof.
  intros s e base sec (_ & _ & H). unfold get_property. split; intros i Hi.
  - destruct (znth (sc_properties sec) i) as [p|] eqn:E.
    + exists p. auto.
    + exfalso. destruct (znth_some (sc_properties sec) i Hi) as (y & Hy). congruence.
  - destruct (znth (sc_properties sec) i) as [p|] eqn:E; [|reflexivity].
    apply znth_range in E. lia.
Qed.
Print Assumptions C45_property_by_index.

(** Offset 16 is accepted, 8 is not; with 9 the value begins in the list. *)
Example C45_case :
  let b := low_bytes 4 3 ++ low_bytes 4 77 in
  xp_view (xp_read (xp_one 16 b)) =
    Some (Little, 0, 0x20105, repeat 7 16, 1, [(repeat 1 16, [(2, 3, Some [77; 0; 0; 0])])]) /\
  xp_read (xp_one 8 b) = Err /\
  xp_view (xp_read (xp_one 9 b)) =
    Some (Little, 0, 0x20105, repeat 7 16, 1, [(repeat 1 16, [(2, 150994944, None)])]).
Proof. vm_compute. repeat split. Qed.

(** Finding: an offset that leads past 2^32 is accepted and leads to a place
    before the section. *)
Theorem C45_offset_past_the_end_refuted :
  exists s base rel x c,
    is_readable_stream (file_reader (line_file s)) (line_volume s) (line_dirent s) s /\
    u32_at s Little 44 base /\ u32_at s Little (base + 12) rel /\ zlen s < base + rel /\
    xp_read s = Ok (x, c) /\ zlen (ps_sections x) = 1.
Proof.
  exists (xp_one 4294967280 []), 48, 4294967280.
  destruct (xp_read (xp_one 4294967280 [])) as [[x c]| | |] eqn:Hr; try (vm_compute in Hr; discriminate).
  exists x, c. split; [apply xp_stream; vm_compute; congruence|].
  split; [exists [48; 0; 0; 0]; split; [vm_compute; repeat split; congruence|reflexivity]|].
  split; [exists [240; 255; 255; 255]; split; [vm_compute; repeat split; congruence|reflexivity]|].
  split; [vm_compute; reflexivity|]. split; [reflexivity|].
  vm_compute in Hr. apply Ok_inj in Hr. apply (f_equal fst) in Hr. cbn [fst] in Hr. subst x.
  reflexivity.
Qed.
Print Assumptions C45_offset_past_the_end_refuted.

(** * C46 *)

(** The bytes a property of a set stores: as many as its type has, or as the
    number before them says, cut at the end of a string. *)
Theorem C46_stored_bytes :
  forall lib rd v d s cp c t x c' t' p,
    is_stream rd v d s ->
    get_set lib rd v d cp c t = (Ok (x, c'), t') ->
    in_set x p ->
    exists off,
      u32_at s (ps_order x) off (pv_type p) /\
      ((exists n l, In (pv_type p, n) fixed_types /\ field s (off + 4) n l /\
          stored p = Some l /\ zlen l = n) \/
       (exists n l, In (pv_type p) sized_types /\ u32_at s (ps_order x) (off + 4) n /\
          field s (off + 8) n l /\ stored p = Some l /\ zlen l = n) \/
       (exists n raw l, pv_type p = 0x1e /\ u32_at s (ps_order x) (off + 4) n /\
          field s (off + 8) n raw /\ cut_string 1 raw l /\ stored p = Some l) \/
       (exists n raw l, pv_type p = 0x1f /\ u32_at s (ps_order x) (off + 4) n /\
          field s (off + 8) (2 * n mod 2 ^ 32) raw /\ cut_string 2 raw l /\ stored p = Some l) \/
       (stored p = None /\ ~ In (pv_type p) (map fst fixed_types) /\
        ~ In (pv_type p) sized_types /\ pv_type p <> 0x1e /\ pv_type p <> 0x1f)).
Proof.
  intros lib rd v d s cp c t x c' t' p HS H (sec & Hsec & Hp).
  destruct (In_znth _ _ Hsec) as (k & Hk). destruct (In_znth _ _ Hp) as (j & Hj).
  destruct (C45_section_lists_its_properties _ _ _ _ _ _ _ _ _ _ _ _ _ HS H Hk)
    as (base & _ & _ & Hall).
  destruct (Hall _ _ Hj) as (rel & _ & _ & _ & Hu & Hv).
  exists ((base + rel) mod 2 ^ 32). split; [exact Hu|].
  remember ((base + rel) mod 2 ^ 32) as off. clear Heqoff.
  inversion Hv as [ty n l U I F E1 E2|ty n l U I N L F E1 E2|n raw l U N L F C E1 E2
                  |n m raw l U N M Z L F C E1 E2|ty n last U T N V E1 E2|ty U I1 I2 I3 I4 I5 I6 E1 E2].
  - left. exists n, l. pose proof (field_len _ _ _ _ F). auto.
  - right; left. exists n, l. pose proof (field_len _ _ _ _ F). auto 10.
  - right; right; left. exists n, raw, l. auto 10.
  - right; right; right; left. exists n, raw, l. rewrite M in F. auto 10.
  - right; right; right; right. split; [reflexivity|]. clear - T. destruct T as [-> | ->];
      (split; [|split; [|split]]; [cbn; intuition congruence|cbn; intuition congruence|congruence|congruence]).
  - right; right; right; right. auto 10.
Qed.
Print Assumptions C46_stored_bytes.

(** The cut of a string is unique, is a beginning of it, and has no
    end-of-string character before its last one. *)
Theorem C46_cut_is_the_first_end :
  forall raw l, cut_string 1 raw l ->
    (exists rest, raw = l ++ rest) /\
    (forall i, znth l i = Some 0 -> i = zlen l - 1) /\
    (l <> raw -> znth l (zlen l - 1) = Some 0).
Proof.
  intros raw l (chars & rest & -> & -> & HF & Hf & Hr).
  assert (E : concat chars = map (fun c => hd 0 c) chars /\
              forall k c, nth_error chars k = Some c -> c = [hd 0 c]).
  { clear Hf Hr. induction HF as [|c chars Hc HF (IH1 & IH2)].
    - split; [reflexivity|]. intros [|k] c H; discriminate.
    - destruct c as [|a [|b c]]; try discriminate. split.
      + cbn [concat map hd app]. now rewrite IH1.
      + intros [|k] c H; [apply (f_equal (fun o => match o with Some z => z | None => [] end)) in H; simpl in H; subst; reflexivity|].
        apply (IH2 k). exact H. }
  destruct E as (E & E1). split; [eauto|].
  assert (Hz : zlen (concat chars) = Z.of_nat (length chars)).
  { rewrite E. unfold zlen. now rewrite map_length. }
  split.
  - intros i Hi. pose proof (znth_range _ _ _ Hi) as Hb. rewrite Hz in *. rewrite E in Hi.
    unfold znth in Hi. rewrite (proj2 (Z.ltb_ge i 0)) in Hi by lia.
    destruct (nth_error chars (Z.to_nat i)) as [c|] eqn:Ec.
    + pose proof (map_nth_error (fun c => hd 0 c) _ _ Ec) as Em. rewrite Em in Hi.
      assert (Hh : hd 0 c = 0) by congruence.
      pose proof (E1 _ _ Ec) as Ecc. rewrite Hh in Ecc.
      pose proof (Hf _ _ Ec Ecc). lia.
    + apply nth_error_None in Ec. lia.
  - intros Hne. destruct Hr as [->|(before & ->)]; [rewrite app_nil_r in Hne; congruence|].
    rewrite concat_app, zlen_app. cbn [concat app repeat].
    change (zlen [0]) with 1. rewrite znth_app_r by lia.
    replace (zlen (concat before) + 1 - 1 - zlen (concat before)) with 0 by lia. reflexivity.
Qed.
Print Assumptions C46_cut_is_the_first_end.

(** Booleans are cut to one byte, strings at their end (see [xp_values]). *)
Example C46_case :
  xp_view (xp_read (xp_set Little 2)) =
  Some (Little, 0, 0x20105, repeat 7 16, 2,
        [(repeat 1 16,
          [(1, 2, Some [228; 4]); (2, 30, Some [72; 105; 0]);
           (4, 3, Some [251; 255; 255; 255]);
           (12, 64, Some [0; 128; 147; 81; 206; 103; 209; 1]);
           (16, 11, Some [255]); (17, 71, Some [9; 8; 7]); (18, 153, None)]);
         (repeat 2 16,
          [(3, 31, Some [72; 0; 0; 0]);
           (5, 21, Some [9; 0; 0; 0; 0; 0; 0; 0]); (6, 4126, None)])]).
Proof. vm_compute. reflexivity. Qed.

(** Finding: a UTF-16 string of 2^31 + 1 characters is read as one character
    of a stream of 74 bytes. *)
Theorem C46_character_count_refuted :
  exists s x c p,
    is_readable_stream (file_reader (line_file s)) (line_volume s) (line_dirent s) s /\
    zlen s = 74 /\ u32_at s Little 64 0x1f /\ u32_at s Little 68 (2 ^ 31 + 1) /\
    xp_read s = Ok (x, c) /\ in_set x p /\ pv_type p = 0x1f /\ stored p = Some [65; 0].
Proof.
  set (s := xp_one 16 (low_bytes 4 0x1f ++ low_bytes 4 2147483649 ++ [65; 0])).
  destruct (xp_read s) as [[x c]| | |] eqn:Hr; try (vm_compute in Hr; discriminate).
  pose proof Hr as Hr'.
  vm_compute in Hr'. apply Ok_inj in Hr'. apply (f_equal fst) in Hr'. cbn [fst] in Hr'.
  exists s, x, c, {| pv_id := 2; pv_type := 31;
    pv_value := Some {| fv_kind := FvUtf16String; fv_data := Some ([65; 0], EncUtf16Little) |} |}.
  split; [apply xp_stream; vm_compute; congruence|].
  split; [reflexivity|].
  split; [exists [31; 0; 0; 0]; split; [vm_compute; repeat split; congruence|reflexivity]|].
  split; [exists [1; 0; 0; 128]; split; [vm_compute; repeat split; congruence|reflexivity]|].
  split; [exact Hr|]. subst x. split; [|split; reflexivity].
  eexists. split; [left; reflexivity|left; reflexivity].
Qed.
Print Assumptions C46_character_count_refuted.

(** * C47 *)

(** The typed getters succeed only for the types documented for them. *)
Theorem C47_getters_are_gated :
  forall lib p,
    (forall b, get_boolean lib p = Ok b -> pv_type p = 0x0b) /\
    (forall n, get_16bit lib p = Ok n -> In (pv_type p) [0x02; 0x12]) /\
    (forall n, get_32bit lib p = Ok n -> In (pv_type p) [0x03; 0x13]) /\
    (forall n, get_64bit lib p = Ok n -> In (pv_type p) [0x14; 0x15]) /\
    (forall n, get_filetime lib p = Ok n -> pv_type p = 0x40) /\
    (forall size l, get_utf8 lib p size = Ok l -> In (pv_type p) [0x1e; 0x1f]) /\
    (forall size l, get_utf16 lib p size = Ok l -> In (pv_type p) [0x1e; 0x1f]).
Proof.
  intros lib p.
  unfold get_boolean, get_16bit, get_32bit, get_64bit, get_filetime, get_utf8, get_utf16.
  repeat split; intros *; intros H;
    repeat match type of H with context [pv_type p =? ?k] =>
      destruct (Z.eqb_spec (pv_type p) k); cbn [negb andb] in H end;
    try discriminate; simpl; intuition congruence.
Qed.
Print Assumptions C47_getters_are_gated.

(** And for those types, on any property of a set that was read, they return
    the stored bytes as a number in the byte order of the set. *)
Theorem C47_getters_decode :
  forall lib rd v d s cp c t x c' t' p,
    is_stream rd v d s -> lib_decodes lib ->
    get_set lib rd v d cp c t = (Ok (x, c'), t') ->
    in_set x p ->
    let decodes (get : fvlib -> property -> res Z) n :=
      exists l, stored p = Some l /\ zlen l = n /\ get lib p = Ok (number_in (ps_order x) l) in
    (pv_type p = 0x0b -> decodes get_boolean 1) /\
    (In (pv_type p) [0x02; 0x12] -> decodes get_16bit 2) /\
    (In (pv_type p) [0x03; 0x13] -> decodes get_32bit 4) /\
    (In (pv_type p) [0x14; 0x15] -> decodes get_64bit 8) /\
    (pv_type p = 0x40 -> decodes get_filetime 8).
Proof.
  intros lib rd v d s cp c t x c' t' p (HV & HD & Hsh & HB & f & HS & HC) HL H (sec & Hsec & Hp).
  destruct (get_set_sound f rd v d s HS HV HD Hsh HC lib cp HB c t x c' t' H) as (_ & Hh).
  destruct (In_znth _ _ Hsec) as (k & Hk). destruct (In_znth _ _ Hp) as (j & Hj).
  specialize (Hh _ _ _ _ Hk Hj).
  unfold get_boolean, get_16bit, get_32bit, get_64bit, get_filetime.
  split; [|split; [|split; [|split]]].
  - intros E. destruct (bits_of lib cp (ps_order x) p FvBoolean 1 HL Hh) as (l & H1 & H2 & H3);
      [rewrite E; reflexivity|simpl; auto|]. exists l. rewrite E. auto.
  - intros E. destruct (bits_of lib cp (ps_order x) p FvInteger16 2 HL Hh) as (l & H1 & H2 & H3);
      [destruct E as [<- |[<- |[]]]; reflexivity|simpl; auto|].
    exists l. split; [exact H1|]. split; [exact H2|]. destruct E as [<- |[<- |[]]]; exact H3.
  - intros E. destruct (bits_of lib cp (ps_order x) p FvInteger32 4 HL Hh) as (l & H1 & H2 & H3);
      [destruct E as [<- |[<- |[]]]; reflexivity|simpl; auto|].
    exists l. split; [exact H1|]. split; [exact H2|]. destruct E as [<- |[<- |[]]]; exact H3.
  - intros E. destruct (bits_of lib cp (ps_order x) p FvInteger64 8 HL Hh) as (l & H1 & H2 & H3);
      [destruct E as [<- |[<- |[]]]; reflexivity|simpl; auto|].
    exists l. split; [exact H1|]. split; [exact H2|]. destruct E as [<- |[<- |[]]]; exact H3.
  - intros E. destruct (bits_of lib cp (ps_order x) p FvFiletime 8 HL Hh) as (l & H1 & H2 & H3);
      [rewrite E; reflexivity|simpl; auto 10|]. exists l. rewrite E. auto.
Qed.
Print Assumptions C47_getters_decode.

(** Strings are passed to the conversion of libfvalue with the codepage of
    the file, or as UTF-16 in little-endian order even if the set is
    big-endian (finding). *)
Theorem C47_strings :
  forall lib rd v d s cp c t x c' t' p,
    is_stream rd v d s ->
    get_set lib rd v d cp c t = (Ok (x, c'), t') ->
    in_set x p -> pv_type p = 0x1e \/ pv_type p = 0x1f ->
    exists w l,
      stored p = Some l /\
      fv_kind w = (if pv_type p =? 0x1e then FvByteString else FvUtf16String) /\
      fv_data w = (if zlen l =? 0 then None
                   else Some (l, if pv_type p =? 0x1e then EncCodepage cp else EncUtf16Little)) /\
      (forall size, get_utf8 lib p size =
         match lib_utf8 lib w size with Some r => Ok r | None => Err end) /\
      (forall size, get_utf16 lib p size =
         match lib_utf16 lib w size with Some r => Ok r | None => Err end).
Proof.
  intros lib rd v d s cp c t x c' t' p (HV & HD & Hsh & HB & f & HS & HC) H (sec & Hsec & Hp) HT.
  destruct (get_set_sound f rd v d s HS HV HD Hsh HC lib cp HB c t x c' t' H) as (_ & Hh).
  destruct (In_znth _ _ Hsec) as (k & Hk). destruct (In_znth _ _ Hp) as (j & Hj).
  specialize (Hh _ _ _ _ Hk Hj).
  unfold handed in Hh.
  assert (Hw : exists w0, pv_value p = Some w0 /\
     data_ok w0 (if pv_type p =? 0x1e then FvByteString else FvUtf16String)
             (if pv_type p =? 0x1e then EncCodepage cp else EncUtf16Little))
    by (destruct HT as [E | E]; rewrite E in Hh |- *; exact Hh).
  destruct Hw as (w & Hv & Hkind & Hd).
  exists w, (match fv_data w with None => [] | Some (l, _) => l end).
  unfold stored, get_utf8, get_utf16, on_value. rewrite Hv.
  split; [reflexivity|]. split; [exact Hkind|].
  split.
  - destruct (fv_data w) as [[l enc]|]; [|reflexivity]. destruct Hd as [-> Hl].
    rewrite (proj2 (Z.eqb_neq (zlen l) 0)) by lia. reflexivity.
  - destruct HT as [-> | ->]; split; reflexivity.
Qed.
Print Assumptions C47_strings.

(** The numbers of [xp_values], in both byte orders. *)
Example C47_case :
  forall e n, e = Little /\ n = 2 \/ e = Big /\ n = 2 * 65536 ->
    lib_decodes xp_lib /\
    match xp_read (xp_set e n) with
    | Ok (x, _) =>
        map (fun sec => map (fun p => (get_boolean xp_lib p, get_16bit xp_lib p, get_32bit xp_lib p))
                          (firstn 5 (sc_properties sec)))
            (firstn 1 (ps_sections x)) =
          [[(Err, Ok 1252, Err); (Err, Err, Err); (Err, Err, Ok 4294967291); (Err, Err, Err); (Ok 255, Err, Err)]] /\
        map (fun sec => map (fun p => (get_64bit xp_lib p, get_filetime xp_lib p, get_utf8 xp_lib p 10))
                          (sc_properties sec))
            (ps_sections x) =
          [[(Err, Err, Err); (Err, Err, Ok [72; 105; 0]); (Err, Err, Err); (Err, Ok 131000000000000000, Err);
            (Err, Err, Err); (Err, Err, Err); (Err, Err, Err)];
           [(Err, Err, Ok [72; 0; 0; 0]); (Ok 9, Err, Err); (Err, Err, Err)]]
    | _ => False
    end.
Proof.
  intros e n He. split; [exact xp_lib_decodes|].
  destruct He as [[-> ->]|[-> ->]]; vm_compute; split; reflexivity.
Qed.

(** * C52 *)

(** The sections, the properties and the bytes stored in them are bounded by
    the length of the stream, the last by its third power. *)
Theorem C52_memory_bound :
  forall lib rd v d s cp c t x c' t',
    is_stream rd v d s ->
    get_set lib rd v d cp c t = (Ok (x, c'), t') ->
    28 + 20 * zlen (ps_sections x) <= zlen s /\
    (forall sec, In sec (ps_sections x) -> 8 * zlen (sc_properties sec) <= zlen s) /\
    160 * set_size x <= zlen s ^ 3.
Proof.
  intros lib rd v d s cp c t x c' t' HS H.
  destruct (set_at_size s x (C44_set_is_in_the_stream _ _ _ _ _ _ _ _ _ _ _ HS H)) as (H1 & H2 & H3).
  split; [exact H1|]. split; [exact H2|].
  replace (zlen s ^ 3) with (zlen s * zlen s * zlen s) by ring. exact H3.
Qed.
Print Assumptions C52_memory_bound.

(** Finding: it is not bounded by the length of the stream: 1084 bytes make
    240000 bytes. *)
Theorem C52_amplification_refuted :
  exists s x c,
    is_readable_stream (file_reader (line_file s)) (line_volume s) (line_dirent s) s /\
    xp_read s = Ok (x, c) /\ zlen s = 1084 /\ set_size x = 240000.
Proof.
  assert (H : (match xp_read (xp_shared 20 30 400) with
               | Ok (x, _) => set_size x | _ => 0 end) = 240000)
    by (vm_compute; reflexivity).
  exists (xp_shared 20 30 400).
  destruct (xp_read (xp_shared 20 30 400)) as [[x c]| | |]; try discriminate.
  exists x, c. split; [apply xp_stream; vm_compute; congruence|]. split; [reflexivity|].
  split; [reflexivity|exact H].
Qed.
Print Assumptions C52_amplification_refuted.
