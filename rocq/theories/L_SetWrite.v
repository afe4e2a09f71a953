(** Lemmas on written property sets. *)
From Coq Require Import ZArith List Bool Lia.
From Verif Require Import Base Spec_IO M_Table M_Load M_Stream M_Tree M_Item Spec_Stream Spec_Load Spec_Content Spec_Write
  M_Prop Spec_Prop Spec_SetWrite L_Base L_Header L_Prop L_Write.
Import ListNotations.
Open Scope Z_scope.

Lemma number_value l : number l = le_value l.
Proof. induction l; cbn [number le_value]; [reflexivity|]. now rewrite IHl. Qed.

Lemma number_bytes e n x : 0 <= x < 256 ^ Z.of_nat n -> number_in e (bytes_of e n x) = x.
Proof.
  intros H. rewrite <- (value_bytes_of e n x H) at 2. unfold number_in, value.
  destruct e; apply number_value.
Qed.

(** The part [l] of [s], at [off]. *)
Definition part (s : list Z) (off : Z) (l : list Z) : Prop :=
  exists a b, s = a ++ l ++ b /\ zlen a = off.

Lemma part_whole s : part s 0 s.
Proof. exists [], []. rewrite app_nil_r. auto. Qed.

Lemma part_app s off l1 l2 : part s off (l1 ++ l2) -> part s off l1 /\ part s (off + zlen l1) l2.
Proof.
  intros (a & b & -> & <-). split.
  - exists a, (l2 ++ b). split; [now rewrite <- app_assoc|reflexivity].
  - exists (a ++ l1), b. split; [now rewrite <- !app_assoc|apply zlen_app].
Qed.

Lemma part_part s off l off' m : part s off l -> part l off' m -> part s (off + off') m.
Proof.
  intros (a & b & -> & <-) (c & d & -> & <-). exists (a ++ c), (d ++ b).
  split; [now rewrite <- !app_assoc|apply zlen_app].
Qed.

Lemma part_field s off l n : part s off l -> zlen l = n -> field s off n l.
Proof.
  intros (a & b & -> & <-) <-. pose proof (zlen_nonneg a). pose proof (zlen_nonneg l). pose proof (zlen_nonneg b).
  split; [lia|]. split; [lia|]. split; [rewrite !zlen_app; lia|].
  symmetry. now apply slice_part.
Qed.

Lemma part_u32 s e off x : part s off (bytes_of e 4 x) -> 0 <= x < 4294967296 -> u32_at s e off x.
Proof.
  intros H Hx. exists (bytes_of e 4 x). split; [apply part_field; [exact H|apply zlen_bytes_of]|].
  symmetry. now apply number_bytes.
Qed.

Lemma part_u16 s e off x : part s off (bytes_of e 2 x) -> 0 <= x < 65536 -> u16_at s e off x.
Proof.
  intros H Hx. exists (bytes_of e 2 x). split; [apply part_field; [exact H|apply zlen_bytes_of]|].
  symmetry. now apply number_bytes.
Qed.

Lemma part_end s off l : part s off l -> 0 <= off /\ off + zlen l <= zlen s.
Proof.
  intros (a & b & -> & <-). pose proof (zlen_nonneg a). pose proof (zlen_nonneg b). rewrite !zlen_app. lia.
Qed.

(** * Values *)
Lemma cut_1 l rest : Forall (fun b => 0 < b < 256) l -> cut_string 1 (l ++ [0] ++ rest) (l ++ [0]).
Proof.
  intros H. exists (map (fun b => [b]) l ++ [[0]]), rest.
  assert (E : concat (map (fun b => [b]) l ++ [[0]]) = l ++ [0]).
  { rewrite concat_app. cbn. f_equal. induction l; [reflexivity|]. cbn [map concat app]. inversion_clear H. now rewrite IHl. }
  rewrite E. split; [now rewrite <- app_assoc|]. split; [reflexivity|]. split.
  - apply Forall_app. split; [|repeat constructor]. apply Forall_forall. intros c Hc. apply in_map_iff in Hc.
    destruct Hc as (b & <- & _). reflexivity.
  - split.
    + intros k c Hk Hc. subst c. rewrite app_length, map_length. cbn [length].
      destruct (Nat.lt_ge_cases k (length l)) as [Hlt|Hge].
      * rewrite nth_error_app1 in Hk by (rewrite map_length; lia). apply nth_error_In, in_map_iff in Hk.
        destruct Hk as (b & Hb & Hin). rewrite Forall_forall in H. specialize (H b Hin).
        cbn [repeat] in Hb. assert (b = 0) by congruence. lia.
      * assert (k < length (map (fun b : Z => [b]) l ++ [[0%Z]]))%nat by (apply nth_error_Some; congruence).
        rewrite app_length, map_length in H0. cbn [length] in H0. lia.
    + right. eexists. reflexivity.
Qed.

Lemma cut_2 l : Forall (fun c => 0 < c < 65536) l ->
  cut_string 2 (flat_map (bytes_of Little 2) l ++ [0; 0]) (flat_map (bytes_of Little 2) l ++ [0; 0]).
Proof.
  intros H. exists (map (bytes_of Little 2) l ++ [[0; 0]]), [].
  assert (E : concat (map (bytes_of Little 2) l ++ [[0; 0]]) = flat_map (bytes_of Little 2) l ++ [0; 0]).
  { rewrite concat_app, flat_map_concat_map. reflexivity. }
  rewrite E. split; [now rewrite app_nil_r|]. split; [reflexivity|]. split.
  - apply Forall_app. split; [|repeat constructor]. apply Forall_forall. intros c Hc. apply in_map_iff in Hc.
    destruct Hc as (b & <- & _). reflexivity.
  - split; [|now left].
    intros k c Hk Hc. subst c. rewrite app_length, map_length. cbn [length].
    destruct (Nat.lt_ge_cases k (length l)) as [Hlt|Hge].
    + rewrite nth_error_app1 in Hk by (rewrite map_length; lia). apply nth_error_In, in_map_iff in Hk.
      destruct Hk as (b & Hb & Hin). rewrite Forall_forall in H. specialize (H b Hin).
      pose proof (value_bytes_of Little 2 b ltac:(change (256 ^ Z.of_nat 2) with 65536; lia)) as Hv.
      rewrite Hb in Hv. change (value Little (repeat 0 2)) with 0 in Hv. lia.
    + assert (k < length (map (bytes_of Little 2) l ++ [[0%Z; 0%Z]]))%nat by (apply nth_error_Some; congruence).
      rewrite app_length, map_length in H0. cbn [length] in H0. lia.
Qed.

Lemma zlen_wide l : zlen (flat_map (bytes_of Little 2) l) = 2 * zlen l.
Proof.
  induction l; [reflexivity|]. cbn [flat_map]. rewrite zlen_app, zlen_cons, IHl, zlen_bytes_of. lia.
Qed.

Lemma number_size_in t : In t (map fst number_types) ->
  In (t, number_size t) fixed_types /\ 0 <= number_size t <= 8.
Proof.
  intros H. cbn in H.
  repeat (destruct H as [<-|H]; [split; [vm_compute; tauto|vm_compute; split; discriminate]|]). destruct H.
Qed.

Lemma type_range v : value_ok v -> 0 <= type_of v < 4294967296.
Proof.
  destruct v; cbn [value_ok type_of]; try lia.
  - intros (H & _). cbn in H. repeat (destruct H as [<-|H]; [lia|]). destruct H.
  - intros (H & _). cbn in H. repeat (destruct H as [<-|H]; [lia|]). destruct H.
Qed.

Lemma part_fill s off x k l : part s off (fill x k l) -> part s off l.
Proof. unfold fill. intros H. now apply part_app in H. Qed.

Lemma value_part s e off v : value_ok v -> part s off (value_written e v) ->
  value_at s e off (type_of v) (Some (content_of e v)).
Proof.
  intros Hv H. pose proof (type_range v Hv) as Ht. unfold value_written in H. apply part_fill, part_app in H.
  destruct H as (H1 & H2). rewrite zlen_bytes_of in H2. change (Z.of_nat 4) with 4 in H2.
  pose proof (part_u32 _ _ _ _ H1 Ht) as Hu.
  destruct v as [t x|b|l|l|l|t l]; cbn [value_ok type_of content_of value_data] in *.
  - destruct Hv as (Hin & Hx). destruct (number_size_in t Hin) as (Hf & Hr).
    eapply va_fixed; [exact Hu|exact Hf|]. apply part_field; [exact H2|]. rewrite zlen_bytes_of. lia.
  - apply (va_fixed s e off 0x0b 1); [exact Hu|vm_compute; tauto|].
    assert (E : bytes_of e 2 (if b then 65535 else 0) = [if b then 255 else 0] ++ [if b then 255 else 0]) by (destruct b, e; reflexivity).
    rewrite E in H2. apply part_app in H2. apply part_field; [apply H2|reflexivity].
  - apply (va_fixed s e off 0x48 16); [exact Hu|vm_compute; tauto|]. apply part_field; [exact H2|apply Hv].
  - destruct Hv as (Hb & Hl). apply part_app in H2. destruct H2 as (H2 & H3).
    rewrite zlen_bytes_of in H3. pose proof (zlen_nonneg l).
    eapply va_ascii with (n := zlen l + 1) (raw := l ++ [0]); [exact Hu|apply part_u32; [exact H2|lia]|lia| |].
    + apply part_field; [replace (off + 8) with (off + 4 + Z.of_nat 4) by lia; exact H3|].
      rewrite zlen_app. reflexivity.
    + pose proof (cut_1 l [] Hb) as Hc. rewrite app_nil_r in Hc. exact Hc.
  - destruct Hv as (Hb & Hl). apply part_app in H2. destruct H2 as (H2 & H3).
    rewrite zlen_bytes_of in H3. pose proof (zlen_nonneg l).
    eapply va_utf16 with (n := zlen l + 1) (raw := flat_map (bytes_of Little 2) l ++ [0; 0]);
      [exact Hu|apply part_u32; [exact H2|lia]|symmetry; apply Z.mod_small; lia|lia|lia| |].
    + apply part_field; [replace (off + 8) with (off + 4 + Z.of_nat 4) by lia; exact H3|].
      rewrite zlen_app, zlen_wide. change (zlen [0; 0]) with 2. lia.
    + now apply cut_2.
  - destruct Hv as (Hin & Hb & Hl). apply part_app in H2. destruct H2 as (H2 & H3).
    rewrite zlen_bytes_of in H3. pose proof (zlen_nonneg l).
    apply (va_sized s e off t (zlen l)); [exact Hu| |apply part_u32; [exact H2|lia]|exact Hl|].
    + cbn in Hin |- *. tauto.
    + apply part_field; [replace (off + 8) with (off + 4 + Z.of_nat 4) by lia; exact H3|reflexivity].
Qed.

(** * Sections *)
Definition property_of (e : endian) (p : Z * pvalue) : property :=
  {| pv_id := fst p; pv_type := type_of (snd p);
     pv_value := Some {| fv_kind := FvBinary; fv_data := Some (content_of e (snd p), EncOrder e) |} |}.

Lemma zlen_list e l : forall off, zlen (list_written e off l) = 8 * zlen l.
Proof.
  induction l as [|[id v] l IH]; intros off; [reflexivity|]. cbn [list_written].
  rewrite !zlen_app, IH, zlen_cons, !zlen_bytes_of. lia.
Qed.

Lemma list_part e l : forall off k p, znth l k = Some p ->
  exists rel, part (list_written e off l) (8 * k) (bytes_of e 4 (fst p) ++ bytes_of e 4 rel) /\
              part (values_written e l) (rel - off) (value_written e (snd p)) /\ off <= rel.
Proof.
  induction l as [|[id v] l IH]; intros off k p Hk; [apply znth_range in Hk; change (zlen []) with 0 in Hk; lia|].
  cbn [list_written values_written flat_map].
  pose proof (znth_range _ _ _ Hk) as Hr.
  destruct (Z.eq_dec k 0) as [->|Hne].
  - assert (p = (id, v)) by (apply (f_equal (fun o => match o with Some z => z | None => p end)) in Hk; exact (eq_sym Hk)). subst p.
    exists off. cbn [fst snd]. split; [|split; [|lia]].
    + exists [], (list_written e (off + zlen (value_written e v)) l). split; [now rewrite <- app_assoc|reflexivity].
    + exists [], (flat_map (fun x => value_written e (snd x)) l). split; [reflexivity|rewrite Z.sub_diag; reflexivity].
  - change ((id, v) :: l) with ([(id, v)] ++ l) in Hk. rewrite znth_app_r in Hk by (unfold zlen; cbn [length]; lia).
    change (zlen [(id, v)]) with 1 in Hk.
    destruct (IH (off + zlen (value_written e v)) _ _ Hk) as (rel & (a & b & E1 & E2) & (c & d & F1 & F2) & Hle).
    exists rel. split; [|split].
    + exists ((bytes_of e 4 id ++ bytes_of e 4 off) ++ a), b. rewrite E1. split; [now rewrite <- !app_assoc|].
      rewrite !zlen_app, !zlen_bytes_of. lia.
    + exists (value_written e v ++ c), d. unfold values_written in F1. cbn [snd]. rewrite F1.
      split; [now rewrite <- !app_assoc|]. rewrite zlen_app. lia.
    + pose proof (zlen_nonneg (value_written e v)). lia.
Qed.

Lemma znth_map' {A B} (f : A -> B) l k : znth (map f l) k = option_map f (znth l k).
Proof. unfold znth. destruct (k <? 0); [reflexivity|]. apply nth_error_map. Qed.

Lemma section_part s e base l :
  zlen s < 4294967296 -> Forall (fun p => is_u32 (fst p) /\ value_ok (snd p)) l ->
  part s base (section_written e l) -> section_at s e base (map (property_of e) l).
Proof.
  intros Hs Hl H. pose proof (part_end _ _ _ H) as (Hb & He).
  unfold section_written in H, He. rewrite !zlen_app, !zlen_bytes_of, zlen_list in He.
  change (Z.of_nat 4) with 4 in He.
  pose proof (zlen_nonneg l) as Hn. pose proof (zlen_nonneg (values_written e l)) as Hvn.
  apply part_app in H. destruct H as (H0 & H). apply part_app in H. destruct H as (H1 & H).
  apply part_app in H. destruct H as (H2 & H3).
  rewrite !zlen_bytes_of in *. rewrite zlen_list in H3. change (Z.of_nat 4) with 4 in *.
  split; [|split].
  - split; [lia|]. split; [lia|]. split; [lia|reflexivity].
  - unfold zlen at 1. rewrite map_length. change (Z.of_nat (length l)) with (zlen l). apply part_u32; [exact H1|lia].
  - intros k q Hq. rewrite znth_map' in Hq. destruct (znth l k) as [p|] eqn:Ep; [|discriminate].
    cbn [option_map] in Hq. assert (q = property_of e p) by congruence. subst q. clear Hq.
    pose proof (znth_range _ _ _ Ep) as Hk.
    destruct (list_part e l (8 + 8 * zlen l) k p Ep) as (rel & P1 & P2 & Hle).
    assert (Hp : is_u32 (fst p) /\ value_ok (snd p)) by (rewrite Forall_forall in Hl; apply Hl; eapply znth_In; exact Ep).
    destruct Hp as (Hid & Hv). unfold is_u32 in Hid.
    pose proof (part_part _ _ _ _ _ H2 P1) as Q1. apply part_app in Q1. destruct Q1 as (Q1 & Q2).
    rewrite zlen_bytes_of in Q2. change (Z.of_nat 4) with 4 in Q2.
    pose proof (part_part _ _ _ _ _ H3 P2) as Q3.
    pose proof (part_end _ _ _ Q3) as (He1 & He2). pose proof (zlen_nonneg (value_written e (snd p))) as Hvz.
    exists rel. cbn [pv_id pv_type property_of stored pv_value fv_data].
    split; [apply part_u32; [replace (base + 8 + 8 * k) with (base + 4 + 4 + 8 * k) by lia; exact Q1|lia]|].
    split; [apply part_u32; [replace (base + 12 + 8 * k) with (base + 4 + 4 + 8 * k + 4) by lia; exact Q2|lia]|].
    split; [lia|]. rewrite Z.mod_small by lia.
    apply value_part; [exact Hv|]. replace (base + rel) with (base + 4 + 4 + 8 * zlen l + (rel - (8 + 8 * zlen l))) by lia.
    exact Q3.
Qed.

Lemma zlen_sections e l : Forall (fun sec : list Z * list (Z * pvalue) => guid_ok (fst sec) /\
                  Forall (fun p => is_u32 (fst p) /\ value_ok (snd p)) (snd sec)) l ->
  forall off, zlen (sections_written e off l) = 20 * zlen l.
Proof.
  induction l as [|[class ps] l IH]; intros H off; [reflexivity|]. cbn [sections_written].
  inversion_clear H as [|? ? ((Hz & _) & _) Hl]. cbn [fst] in Hz.
  rewrite !zlen_app, (IH Hl), zlen_cons, zlen_bytes_of, Hz. lia.
Qed.

Lemma sections_part e l : Forall (fun sec : list Z * list (Z * pvalue) => guid_ok (fst sec) /\
                  Forall (fun p => is_u32 (fst p) /\ value_ok (snd p)) (snd sec)) l ->
  forall off k sec, znth l k = Some sec ->
  exists base, part (sections_written e off l) (20 * k) (fst sec ++ bytes_of e 4 base) /\
               part (flat_map (fun sec => section_written e (snd sec)) l) (base - off) (section_written e (snd sec)) /\
               off <= base.
Proof.
  induction l as [|[class ps] l IH]; intros HF off k sec Hk; [apply znth_range in Hk; change (zlen []) with 0 in Hk; lia|].
  cbn [sections_written flat_map]. inversion_clear HF as [|? ? ((Hz & _) & _) Hl]. cbn [fst snd] in *.
  pose proof (znth_range _ _ _ Hk) as Hr.
  destruct (Z.eq_dec k 0) as [->|Hne].
  - assert (sec = (class, ps)) by (apply (f_equal (fun o => match o with Some z => z | None => sec end)) in Hk; exact (eq_sym Hk)). subst sec.
    exists off. cbn [fst snd]. split; [|split; [|lia]].
    + exists [], (sections_written e (off + zlen (section_written e ps)) l). split; [now rewrite <- app_assoc|reflexivity].
    + eexists [], _. split; [reflexivity|rewrite Z.sub_diag; reflexivity].
  - change ((class, ps) :: l) with ([(class, ps)] ++ l) in Hk. rewrite znth_app_r in Hk by (unfold zlen; cbn [length]; lia).
    change (zlen [(class, ps)]) with 1 in Hk.
    destruct (IH Hl (off + zlen (section_written e ps)) _ _ Hk) as (rel & (a & b & E1 & E2) & (c & d & F1 & F2) & Hle).
    exists rel. split; [|split].
    + exists ((class ++ bytes_of e 4 off) ++ a), b. rewrite E1. split; [now rewrite <- !app_assoc|].
      rewrite !zlen_app, !zlen_bytes_of. lia.
    + exists (section_written e ps ++ c), d. rewrite F1.
      split; [now rewrite <- !app_assoc|]. rewrite zlen_app. lia.
    + pose proof (zlen_nonneg (section_written e ps)). lia.
Qed.

(** * Sets *)
Definition section_of (e : endian) (sec : list Z * list (Z * pvalue)) : section :=
  {| sc_class := fst sec; sc_properties := map (property_of e) (snd sec) |}.

Definition set_of (e : endian) (x : pset) : property_set :=
  {| ps_order := e; ps_format := st_format x; ps_version := st_version x; ps_class := st_class x;
     ps_count := match e with Little => zlen (st_sections x) | Big => 0 end;
     ps_sections := match e with Little => map (section_of e) (st_sections x) | Big => [] end |}.

Lemma set_of_said x : set_view (set_of Little x) = said Little x.
Proof.
  unfold set_view, said, set_of. cbn [ps_order ps_format ps_version ps_class ps_count ps_sections].
  f_equal. rewrite map_map. apply map_ext. intros [class ps]. unfold section_view, section_of. cbn [sc_class sc_properties fst snd].
  f_equal. rewrite map_map. apply map_ext. intros [id v]. reflexivity.
Qed.

Lemma value_written_same v : zlen (value_written Big v) = zlen (value_written Little v).
Proof.
  unfold value_written. rewrite !zlen_fill by lia.
  enough (E : zlen (bytes_of Big 4 (type_of v) ++ value_data Big v) = zlen (bytes_of Little 4 (type_of v) ++ value_data Little v)) by now rewrite E.
  destruct v; cbn [value_data]; rewrite !zlen_app, ?zlen_bytes_of; reflexivity.
Qed.

Lemma values_written_same l : zlen (values_written Big l) = zlen (values_written Little l).
Proof.
  unfold values_written. induction l; [reflexivity|]. cbn [flat_map]. rewrite !zlen_app, IHl, value_written_same. reflexivity.
Qed.

Lemma set_written_same x : zlen (set_written Big x) = zlen (set_written Little x).
Proof.
  unfold set_written. rewrite !zlen_app, !zlen_bytes_of.
  assert (E : forall l off off', zlen (sections_written Big off l) = zlen (sections_written Little off' l)).
  { induction l as [|[class ps] l IH]; intros off off'; [reflexivity|]. cbn [sections_written].
    rewrite !zlen_app, !zlen_bytes_of. erewrite IH. reflexivity. }
  assert (F : forall l, zlen (flat_map (fun sec : list Z * list (Z * pvalue) => section_written Big (snd sec)) l) =
                        zlen (flat_map (fun sec : list Z * list (Z * pvalue) => section_written Little (snd sec)) l)).
  { induction l as [|[class ps] l IH]; [reflexivity|]. cbn [flat_map snd]. rewrite !zlen_app, IH. f_equal.
    unfold section_written. rewrite !zlen_app, !zlen_bytes_of, !zlen_list, values_written_same. reflexivity. }
  rewrite F. erewrite E. reflexivity.
Qed.

Lemma set_written_at e x : set_ok x -> set_at (set_written e x) (set_of e x).
Proof.
  intros [H1 H2 H3 H4 H5 H6]. set (s := set_written e x).
  assert (Hs : zlen s < 4294967296) by (subst s; destruct e; [|rewrite set_written_same]; lia).
  pose proof (part_whole s) as P. unfold s in P at 2. unfold set_written in P.
  pose proof (zlen_nonneg (st_sections x)) as Hn. unfold is_u32 in H2. destruct H3 as (Hc & Hcb).
  apply part_app in P. destruct P as (P0 & P). apply part_app in P. destruct P as (P1 & P).
  apply part_app in P. destruct P as (P2 & P). apply part_app in P. destruct P as (P3 & P).
  apply part_app in P. destruct P as (P4 & P). apply part_app in P. destruct P as (P5 & P6).
  rewrite !zlen_bytes_of in *. rewrite (zlen_sections e _ H5) in P6. rewrite Hc in *.
  change (0 + Z.of_nat 2) with 2 in *. change (2 + Z.of_nat 2) with 4 in *. change (4 + Z.of_nat 4) with 8 in *.
  change (8 + 16) with 24 in *. change (24 + Z.of_nat 4) with 28 in *.
  pose proof (part_end _ _ _ P5) as (_ & He).
  pose proof (zlen_nonneg (sections_written e (28 + 20 * zlen (st_sections x)) (st_sections x))) as Hsn.
  split; [|split; [|split]].
  - cbn [header_at ps_order ps_format ps_version ps_class set_of]. split; [split; [lia|]; split; [lia|]; split; [lia|reflexivity]|].
    split; [|split; [|split]].
    + destruct (part_field _ _ _ 2 P0 (zlen_bytes_of _ _ _)) as (_ & _ & _ & E). cbn [ps_order set_of]. rewrite <- E. destruct e; reflexivity.
    + cbn [ps_order ps_format set_of]. apply part_u16; [exact P1|lia].
    + cbn [ps_order ps_version set_of]. apply part_u32; [exact P2|lia].
    + cbn [ps_class set_of]. apply part_field; [exact P3|exact Hc].
  - cbn [ps_order ps_count set_of].
    assert (E : exists r, bytes_of e 4 (zlen (st_sections x)) = bytes_of e 2 (match e with Little => zlen (st_sections x) | Big => 0 end) ++ r).
    { destruct e.
      - eexists. cbn [bytes_of le_bytes]. change [?a; ?b; ?c; ?d] with ([a; b] ++ [c; d]). reflexivity.
      - eexists [_; _]. cbn [bytes_of le_bytes rev app].
        assert (D : zlen (st_sections x) / 256 / 256 = 0) by (rewrite Z.div_div by lia; apply Z.div_small; lia).
        rewrite !D. change (0 / 256) with 0. change (0 mod 256) with 0. reflexivity. }
    destruct E as (r & E). rewrite E in P4. apply part_app in P4. destruct P4 as (P4 & _). apply part_u16; [exact P4|destruct e; lia].
  - cbn [ps_sections ps_count set_of]. destruct e; [|reflexivity]. unfold zlen. now rewrite map_length.
  - cbn [ps_order ps_sections set_of]. intros k sec Hk. destruct e; [|apply znth_range in Hk; change (zlen []) with 0 in Hk; lia].
    rewrite znth_map' in Hk. destruct (znth (st_sections x) k) as [sc|] eqn:Ek; [|discriminate]. cbn [option_map] in Hk.
    assert (sec = section_of Little sc) by congruence. subst sec. clear Hk.
    pose proof (znth_range _ _ _ Ek) as Hkr.
    destruct (sections_part Little _ H5 (28 + 20 * zlen (st_sections x)) k sc Ek) as (base & Q1 & Q2 & Hle).
    assert (Hsc : guid_ok (fst sc) /\ Forall (fun p => is_u32 (fst p) /\ value_ok (snd p)) (snd sc))
      by (rewrite Forall_forall in H5; apply H5; eapply znth_In; exact Ek).
    destruct Hsc as ((Hg & _) & Hps).
    pose proof (part_part _ _ _ _ _ P5 Q1) as R1. apply part_app in R1. destruct R1 as (R1 & R2). rewrite Hg in R2.
    pose proof (part_part _ _ _ _ _ P6 Q2) as R3. replace (28 + 20 * zlen (st_sections x) + (base - (28 + 20 * zlen (st_sections x)))) with base in R3 by lia.
    pose proof (part_end _ _ _ R3) as (Hb1 & Hb2). pose proof (zlen_nonneg (section_written Little (snd sc))).
    exists base. cbn [sc_class sc_properties section_of]. split; [apply part_field; [exact R1|exact Hg]|].
    split; [apply part_u32; [replace (44 + 20 * k) with (28 + 20 * k + 16) by lia; exact R2|lia]|].
    apply section_part; [exact Hs|exact Hps|exact R3].
Qed.
