(** Lemmas on files that are cut off. *)
From Coq Require Import ZArith List Bool Lia ZifyBool.
From Verif Require Import Base Spec_IO M_Header M_Table M_Load M_Stream M_Tree M_Open M_Item
  Spec_Stream Spec_Load Spec_Tree Spec_Open Spec_Content L_Base L_Stream L_Open L_Open2 L_Exact L_Fuse Spec_Write L_Write7 Spec_Fault L_Fault.
Import ListNotations.
Open Scope Z_scope.

Lemma zlen_cut n (f : list Z) : 0 <= n -> zlen (cut n f) = Z.min n (zlen f).
Proof. intros H. unfold cut, zlen. rewrite firstn_length. lia. Qed.

Lemma zlen_cut_le n (f : list Z) : zlen (cut n f) <= zlen f.
Proof. unfold cut, zlen. rewrite firstn_length. lia. Qed.

Lemma zlen_cut_le2 n (f : list Z) : zlen (cut n f) <= Z.max 0 n.
Proof. unfold cut, zlen. rewrite firstn_length. lia. Qed.

Lemma slice_cut n f off m : 0 <= off -> 0 <= m -> off + m <= n -> slice (cut n f) off m = slice f off m.
Proof.
  intros H1 H2 H3. unfold slice, cut. rewrite skipn_firstn_comm, firstn_firstn. f_equal. lia.
Qed.

Lemma slice_cut_inside n f off m : 0 <= off -> 0 < m -> off + m <= zlen (cut n f) -> slice (cut n f) off m = slice f off m.
Proof. intros H1 H2 H3. pose proof (zlen_cut_le2 n f). apply slice_cut; lia. Qed.

Lemma cut_sound n f rd : io_sound rd (cut n f) -> io_sound rd f.
Proof.
  intros HS t off m l H1 H2 H3 H4. destruct (HS t off m l H1 H2 H3 H4) as [H5 ->]. pose proof (zlen_cut_le n f).
  split; [lia|]. now apply slice_cut_inside.
Qed.

Lemma cut_bytes n f : Forall is_byte f -> Forall is_byte (cut n f).
Proof. intros H. unfold cut. rewrite <- (firstn_skipn (Z.to_nat n) f) in H. now apply Forall_app in H as [H _]. Qed.

Lemma cut_always n f off m : 0 <= off -> 0 < m -> off + m <= n -> off + m <= zlen f ->
  always_read (file_reader (cut n f)) off m.
Proof. intros H1 H2 H3 H4 t. apply file_reader_total; auto. rewrite zlen_cut; lia. Qed.

Lemma always_cut n f rd off m : io_total rd (cut n f) -> 0 <= off -> 0 < m -> off + m <= n -> off + m <= zlen f ->
  always_read rd off m.
Proof. intros HT H1 H2 H3 H4 t. apply HT; auto. rewrite zlen_cut; lia. Qed.

Lemma znth_cut n (f : list Z) p b : znth f p = Some b -> p < n -> znth (cut n f) p = Some b.
Proof.
  intros H Hn. unfold znth in *. destruct (p <? 0) eqn:E; [discriminate|]. unfold cut.
  rewrite nth_error_firstn; [exact H|lia].
Qed.

(** * Two openings *)
Section Two.
Variables (u : una) (rd rd0 : reader) (f : list Z).
Variables (Hu : una_ok u) (HB : io_bytes rd) (HS : io_sound rd f).
Variables (HB0 : io_bytes rd0) (HS0 : io_sound rd0 f) (HT0 : io_total rd0 f).

Lemma open_head o t o0 t0 : open_read u rd [] = (Ok o, t) -> open_read u rd0 [] = (Ok o0, t0) ->
  o_header o = o_header o0 /\ o_msat o = o_msat o0.
Proof.
  intros HO HO0. pose proof (sound_weaker rd rd0 f HS HS0 HT0) as Hw.
  destruct (opened_header u rd Hu HB o t HO) as (_ & Hss & _).
  unfold open_read in HO, HO0.
  apply ibind_ok in HO as (m0 & t1 & H0 & HO). apply ibind_ok in HO0 as (m0' & t1' & H0' & HO0).
  rewrite H0 in H0'. injection H0' as <- <-.
  apply ibind_ok in HO as ([h m1] & t2 & H1 & HO). apply ibind_ok in HO0 as ([h' m1'] & t2' & H1' & HO0).
  apply (header_careful rd rd0 Hw) in H1. rewrite H1 in H1'. injection H1' as <- <- <-.
  unfold open_tables in HO, HO0. cbn zeta in HO, HO0.
  apply ibind_ok in HO as (msat & t3 & H2 & HO). apply ibind_ok in HO0 as (msat' & t3' & H2' & HO0).
  assert (E : o_header o = h /\ o_msat o = msat).
  { clear H2. do 6 (apply ibind_ok in HO as (? & ? & _ & HO)). unfold iret in HO. apply pair_equal_spec in HO as [HO _].
    assert (Eo : forall A (a b : A), Ok a = Ok b -> a = b) by congruence. apply Eo in HO. now subst o. }
  assert (E0 : o_header o0 = h /\ o_msat o0 = msat').
  { clear H2'. do 6 (apply ibind_ok in HO0 as (? & ? & _ & HO0)). unfold iret in HO0. apply pair_equal_spec in HO0 as [HO0 _].
    assert (Eo : forall A (a b : A), Ok a = Ok b -> a = b) by congruence. apply Eo in HO0. now subst o0. }
  destruct E as [E1 E2], E0 as [E3 E4]. rewrite E1 in Hss.
  apply (read_msat_careful rd rd0 Hw) in H2; [|lia]. rewrite H2 in H2'. injection H2' as <- <-. split; congruence.
Qed.

Lemma open_two o t o0 t0 : open_read u rd [] = (Ok o, t) -> open_read u rd0 [] = (Ok o0, t0) ->
  tables_read rd f o0 -> o = o0 /\ t = t0.
Proof.
  intros HO HO0 HR. destruct (open_head o t o0 t0 HO HO0) as [E1 E2].
  assert (HR' : tables_read rd f o).
  { assert (Es : o_sat o = o_sat o0).
    { destruct (opened_header u rd0 Hu HB0 o0 t0 HO0) as (_ & Hss & _).
      pose proof (fun id => tables_agree rd rd0 f HS HS0 HT0 o0 id ltac:(lia) HR) as HA.
      pose proof (sound_weaker rd rd0 f HS HS0 HT0) as Hw.
      unfold open_read in HO, HO0.
      apply ibind_ok in HO as (m0 & t1 & H0 & HO). apply ibind_ok in HO0 as (m0' & t1' & H0' & HO0).
      rewrite H0 in H0'. injection H0' as <- <-.
      apply ibind_ok in HO as ([h m1] & t2 & H1 & HO). apply ibind_ok in HO0 as ([h' m1'] & t2' & H1' & HO0).
      apply (header_careful rd rd0 Hw) in H1. rewrite H1 in H1'. injection H1' as <- <- <-.
      unfold open_tables in HO, HO0. cbn zeta in HO, HO0.
      apply ibind_ok in HO as (msat & t3 & H2 & HO). apply ibind_ok in HO0 as (msat' & t3' & H2' & HO0).
      apply ibind_ok in HO as (s0 & t4 & H3 & HO). apply ibind_ok in HO0 as (s0' & t4' & H3' & HO0).
      apply ibind_ok in HO as (sat & t5 & H4 & HO). apply ibind_ok in HO0 as (sat' & t5' & H4' & HO0).
      assert (E : o_header o = h /\ o_msat o = msat /\ o_sat o = sat).
      { clear H2 H3 H4. do 4 (apply ibind_ok in HO as (? & ? & _ & HO)). unfold iret in HO. apply pair_equal_spec in HO as [HO _].
        assert (Eo : forall A (a b : A), Ok a = Ok b -> a = b) by congruence. apply Eo in HO. now subst o. }
      assert (E0 : o_header o0 = h /\ o_msat o0 = msat' /\ o_sat o0 = sat').
      { clear H2' H3' H4'. do 4 (apply ibind_ok in HO0 as (? & ? & _ & HO0)). unfold iret in HO0. apply pair_equal_spec in HO0 as [HO0 _].
        assert (Eo : forall A (a b : A), Ok a = Ok b -> a = b) by congruence. apply Eo in HO0. now subst o0. }
      destruct E as (F1 & F2 & F3), E0 as (F4 & F5 & F6). rewrite F4 in Hss, HA.
      apply (read_msat_careful rd rd0 Hw) in H2; [|lia]. rewrite H2 in H2'. injection H2' as <- <-.
      rewrite H3 in H3'. injection H3' as <- <-.
      rewrite (read_sat_agree rd rd0) in H4; [|intros id Hid; apply HA; left; now rewrite F5]. rewrite H4 in H4'. congruence. }
    unfold tables_read, table_sector in *. rewrite E1, E2, Es. exact HR. }
  pose proof (open_same u rd rd0 f Hu HB HS HS0 HT0 o t HO HR') as G. rewrite G in HO0. injection HO0 as <- <-. auto.
Qed.
End Two.

(** * What a part of a file says *)
Section Cut.
Variables (f : list Z) (n : Z).

Lemma sector_cut ss id : 0 < ss -> fst (request ss id) + ss <= n -> sector_at (cut n f) ss id = sector_at f ss id.
Proof.
  intros Hss H. unfold sector_at. apply slice_cut; [|lia|exact H].
  pose proof (Z.mod_pos_bound (id + 1) 4294967296 ltac:(reflexivity)). nia.
Qed.

Lemma inside_cut ss id : 0 < ss -> fst (request ss id) + ss <= n -> sector_inside f ss id -> sector_inside (cut n f) ss id.
Proof.
  intros Hss H HI. unfold sector_inside in *. rewrite zlen_cut; [lia|].
  pose proof (sector_offset_pos id ss Hss). rewrite sector_offset_request in H0. lia.
Qed.

Lemma cut_inside ss id : sector_inside (cut n f) ss id -> sector_inside f ss id.
Proof. unfold sector_inside. pose proof (zlen_cut_le n f). lia. Qed.

Lemma master_cut e ss first ids last : 0 < ss -> (forall id, In id ids -> fst (request ss id) + ss <= n) ->
  master_chain e f ss first ids last -> master_chain e (cut n f) ss first ids last.
Proof.
  intros Hss HI H. induction H as [id|id ids last H1 H2 IH]; [constructor|]. constructor; [exact H1|].
  rewrite sector_cut; [|exact Hss|apply HI; now left]. apply IH. intros x Hx. apply HI. now right.
Qed.

Lemma sectors_cut (g : list Z -> list Z) ss ids : 0 < ss -> (forall id, In id ids -> fst (request ss id) + ss <= n) ->
  flat_map (fun id => g (sector_at (cut n f) ss id)) ids = flat_map (fun id => g (sector_at f ss id)) ids.
Proof.
  intros Hss HI. induction ids as [|id ids IH]; [reflexivity|]. cbn [flat_map].
  rewrite sector_cut; [|exact Hss|apply HI; now left]. f_equal. apply IH. intros x Hx. apply HI. now right.
Qed.

Lemma says_cut o : file_says f (o_header o) (o_msat o) (o_sat o) (o_ssat o) (o_entries o) -> needed_before f o n ->
  file_says (cut n f) (o_header o) (o_msat o) (o_sat o) (o_ssat o) (o_entries o).
Proof.
  intros (H1 & H2 & H3 & HM & HA & HSS & HD) (H0 & HN). unfold file_says. cbn zeta in *.
  set (h := o_header o) in *. set (e := fh_byte_order h) in *. set (ss := fh_sector_size h) in *.
  assert (Hss : 0 < ss) by lia.
  assert (E0 : slice (cut n f) 0 512 = slice f 0 512) by (apply slice_cut; lia).
  assert (EH : header_values_of e (cut n f) = header_values_of e f) by (unfold header_values_of; now rewrite E0).
  rewrite E0. split; [exact H1|]. split; [exact H2|]. split; [exact H3|]. split; [|split; [|split]].
  - destruct HM as [(A & B & C)|(A & B & ids & last & C1 & C2 & C3 & C4 & C5)]; [left|right].
    + rewrite EH. auto.
    + split; [exact A|]. split; [exact B|]. exists ids, last.
      assert (HI : forall id, In id ids -> fst (request ss id) + ss <= n).
      { intros id Hid. apply HN; [right; left; exists ids, last; split; [exact C1|exact Hid]|]. rewrite Forall_forall in C2. auto. }
      split; [now apply master_cut|]. split.
      { rewrite Forall_forall in C2 |- *. intros id Hid. apply inside_cut; auto. }
      split; [exact C3|]. split; [exact C4|]. rewrite EH, C5. do 2 f_equal. unfold master_values.
      symmetry. apply (sectors_cut (fun s => removelast (words e s))); auto.
  - destruct HA as (k & A1 & A2 & A3 & A4 & A5). exists k. split; [exact A1|]. split; [exact A2|].
    assert (HI : forall id, In id (firstn k (used_ids (o_msat o))) -> fst (request ss id) + ss <= n).
    { intros id Hid. apply HN; [left; left; rewrite <- (firstn_skipn k (used_ids _)); apply in_or_app; now left|].
      rewrite Forall_forall in A3. auto. }
    split; [|split].
    + rewrite Forall_forall in A3 |- *. intros id Hid. apply inside_cut; auto.
    + destruct A4 as [A4|[A4|(id & A4 & A6)]]; [now left|right; now left|right; right]. exists id. split; [exact A4|].
      intros G. apply A6. eapply cut_inside; eauto.
    + rewrite A5. f_equal. unfold words_of_sectors. symmetry. apply (sectors_cut (words e)); auto.
  - destruct HSS as (ids & A1 & A2 & A3 & A4 & A5 & A6 & A7). exists ids. split; [exact A1|]. split; [exact A2|].
    split; [exact A3|]. split; [exact A4|].
    assert (HI : forall id, In id ids -> fst (request ss id) + ss <= n).
    { intros id Hid. rewrite Forall_forall in A4, A5. apply HN; [|now apply A5]. left. right.
      apply In_nth_error in Hid as (k & Hk). exists k. split; [now apply A3|]. apply A4. eapply nth_error_In; eauto. }
    split; [|split].
    + rewrite Forall_forall in A5 |- *. intros id Hid. apply inside_cut; auto.
    + destruct A6 as [A6|[A6|[A6|(x & A6 & A8)]]]; [now left|right; now left|right; right; now left|right; right; right].
      exists x. split; [exact A6|]. destruct A8 as [A8|[A8|A8]]; auto. right; right. intros G. apply A8. eapply cut_inside; eauto.
    + rewrite A7. f_equal. unfold words_of_sectors. symmetry. apply (sectors_cut (words e)); auto.
  - destruct HD as (D0 & ids & last & A1 & A2 & A3 & A4 & A5 & A6 & A7 & A8). split; [exact D0|]. exists ids, last.
    assert (HI : forall id, In id ids -> fst (request ss id) + ss <= n).
    { intros id Hid. rewrite Forall_forall in A5. apply HN; [|now apply A5]. right. right.
      apply In_nth_error in Hid as (k & Hk). exists k. now apply A1. }
    assert (EB : bytes_of_sectors (cut n f) ss ids = bytes_of_sectors f ss ids).
    { unfold bytes_of_sectors. exact (sectors_cut (fun s => s) ss ids Hss HI). }
    rewrite EB. split; [exact A1|]. split; [exact A2|]. split; [exact A3|]. split; [exact A4|]. split; [|auto].
    rewrite Forall_forall in A5 |- *. intros id Hid. apply inside_cut; auto.
Qed.

Lemma tables_cut rd o : io_total rd (cut n f) -> 0 < fh_sector_size (o_header o) -> tables_before f o n -> tables_read rd f o.
Proof.
  intros HT Hss HB id HI Hin. apply (always_cut n f); auto.
  pose proof (sector_offset_pos id _ Hss) as G. now rewrite sector_offset_request in G.
Qed.

(** Streams before the end. *)
Lemma contents_cut v d s : contents f v d s -> stream_before v d n -> contents (cut n f) v d s.
Proof.
  intros (H1 & H2 & H3) HN. split; [exact H1|]. split; [exact H2|]. intros i b Hb. destruct (H3 i b Hb) as (p & Hp & Hf).
  exists p. split; [exact Hp|]. apply znth_cut; [exact Hf|]. apply (HN i p); [|exact Hp].
  apply znth_range in Hb. lia.
Qed.
End Cut.

Lemma file_unique rd f f' : io_sound rd f -> io_total rd f -> io_sound rd f' -> io_total rd f' -> f = f'.
Proof.
  intros S1 T1 S2 T2.
  assert (L : forall a b, io_sound rd a -> io_total rd a -> io_sound rd b -> 0 < zlen a -> zlen a <= zlen b /\ a = slice b 0 (zlen a)).
  { intros a b Sa Ta Sb Hl. destruct (Ta [] 0 (zlen a)) as (l & H1 & H2); try lia.
    destruct (Sa _ _ _ _ (Z.le_refl 0) Hl H1 H2) as (_ & E). destruct (Sb _ _ _ _ (Z.le_refl 0) Hl H1 H2) as (H3 & E').
    split; [lia|]. rewrite slice_all in E. congruence. }
  destruct (Z_lt_le_dec 0 (zlen f)) as [H|H].
  - destruct (L f f' S1 T1 S2 H) as [H1 E1]. destruct (L f' f S2 T2 S1 ltac:(lia)) as [H2 _].
    assert (E : zlen f = zlen f') by lia. rewrite E1, E. apply slice_all.
  - destruct (Z_lt_le_dec 0 (zlen f')) as [H'|H'].
    + destruct (L f' f S2 T2 S1 H') as [H1 _]. lia.
    + destruct f, f'; try reflexivity; unfold zlen in *; cbn [length] in *; lia.
Qed.

(** A stream that can be read from the file is one for an I/O layer that
    fails now and then. *)
Lemma readable_faulty rd rd0 f v d s : io_sound rd f -> io_sound rd0 f -> io_total rd0 f ->
  is_readable_stream rd0 v d s -> is_stream rd v d s.
Proof.
  intros HS HS0 HT0 (H1 & H2 & H3 & H4 & _ & f' & HS' & HT' & HC). rewrite <- (file_unique rd0 f f' HS0 HT0 HS' HT') in HC.
  split; [exact H1|]. split; [exact H2|]. split; [exact H3|]. split; [exact H4|]. exists f. auto.
Qed.

Lemma readable_cut rd rd0 f n v d s : io_sound rd (cut n f) -> io_total rd (cut n f) -> io_sound rd0 f -> io_total rd0 f ->
  is_readable_stream rd0 v d s -> stream_before v d n -> is_readable_stream rd v d s.
Proof.
  intros HS HT HS0 HT0 (H1 & H2 & H3 & H4 & H5 & f' & HS' & HT' & HC) HN.
  rewrite <- (file_unique rd0 f f' HS0 HT0 HS' HT') in HC.
  split; [exact H1|]. split; [exact H2|]. split; [exact H3|]. split; [exact H4|]. split; [exact H5|]. exists (cut n f).
  split; [exact HS|]. split; [exact HT|]. now apply contents_cut.
Qed.

(** * The client *)
Section Client.
Variables (rd rd0 : reader) (f : list Z) (v : volume) (t : tree).
Variables (HS : io_sound rd f) (HS0 : io_sound rd0 f) (HT0 : io_total rd0 f).

Lemma items_from_only below js x : shows rd0 v t js x ->
  (forall j nd a a', nth_error (tr_nodes t) j = Some nd -> shows rd0 v t (n_subs nd) a -> below j = Some a' -> a' = a) ->
  forall k nd pre y, nth_error (tr_nodes t) k = Some nd -> n_subs nd = pre ++ js ->
    items_from rd v t below k (zlen (n_subs nd)) (length js) = Some y -> y = x.
Proof.
  intros H. induction H as [|j js nd n c m s r Hj Hsub Hty Hn Hc Hm HR H IH|j js nd n c m a r Hj Ha _ Hty Hn Hc Hm H IH];
    intros HB k nd0 pre y Hk E; cbn [items_from length].
  - congruence.
  - rewrite (sub_item_at t k nd0 pre j js Hk E). unfold node_value. rewrite Hj.
    destruct (items_from rd v t below k (zlen (n_subs nd0)) (length js)) as [r'|] eqn:Er; [|discriminate].
    apply (IH HB k nd0 (pre ++ [j]) r' Hk) in Er; [|now rewrite <- app_assoc]. subst r'.
    rewrite Hty. change (2 =? 2) with true. cbv iota.
    destruct (stream_read_buffer rd v (n_entry nd) 0 (de_size (n_entry nd)) (de_size (n_entry nd)) []) as [[[s' c']| | |] t'] eqn:Ers; try discriminate.
    pose proof (readable_faulty rd rd0 f v _ s HS HS0 HT0 HR) as HR'.
    assert (Hsz : zlen s = de_size (n_entry nd)) by (destruct HR as (_ & _ & _ & _ & _ & f' & _ & _ & _ & G & _); exact G).
    apply (read_buffer_slice _ _ _ _ _ _ _ _ _ _ _ HR') in Ers as [-> _]; [|rewrite <- Hsz; unfold zlen; lia].
    rewrite <- Hsz, slice_all. congruence.
  - rewrite (sub_item_at t k nd0 pre j js Hk E). unfold node_value. rewrite Hj.
    destruct (items_from rd v t below k (zlen (n_subs nd0)) (length js)) as [r'|] eqn:Er; [|discriminate].
    apply (IH HB k nd0 (pre ++ [j]) r' Hk) in Er; [|now rewrite <- app_assoc]. subst r'.
    rewrite Hty. change (1 =? 2) with false. cbv iota. destruct (below j) as [a'|] eqn:Eb; [|discriminate].
    rewrite (HB j nd a a' Hj Ha Eb). congruence.
Qed.

Lemma items_below_only fuel : forall k nd x y, nth_error (tr_nodes t) k = Some nd -> shows rd0 v t (n_subs nd) x ->
  items_below rd v t fuel k = Some y -> y = x.
Proof.
  induction fuel as [|fuel IH]; intros k nd x y Hk Hsh H; [discriminate|]. cbn [items_below] in H.
  unfold get_number_of_sub_items, sub_nodes in H. rewrite Hk in H. cbn [rbind] in H. unfold zlen at 2 in H. rewrite Nat2Z.id in H.
  eapply (items_from_only _ (n_subs nd) x Hsh) with (pre := []); eauto.
Qed.
End Client.
