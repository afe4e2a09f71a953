(** Lemmas on written files that are cut off. *)
From Coq Require Import ZArith List Bool Lia ZifyBool.
From Verif Require Import Base Spec_IO M_Header M_Table M_Load M_Stream M_Tree M_Open M_Item
  Spec_Stream Spec_Load Spec_Tree Spec_Open Spec_Content L_Base L_Stream L_Open L_Open2 L_Exact Spec_Write L_Write L_Write2 L_Write3 L_Write4
  L_Write6 L_Write7 Spec_Fault L_Fault L_Fault2.
Import ListNotations.
Open Scope Z_scope.

Lemma cut_opens u rd f n o t : una_ok u -> Forall is_byte f -> io_bytes rd -> io_sound rd (cut n f) -> io_total rd (cut n f) ->
  open_read u (file_reader f) [] = (Ok o, t) -> moderate (o_header o) -> needed_before f o n ->
  open_read u rd [] = (Ok o, t).
Proof.
  intros Hu Hf HB HS HT HO HM HN. pose proof (file_reader_bytes f Hf) as HB0.
  destruct (opened_header u _ Hu HB0 o t HO) as (_ & Hss & _).
  destruct (open_says u _ f Hu HB0 (file_reader_sound f) (file_reader_total f) o t HO HM) as (H1 & H2 & _).
  apply says_cut with (n := n) in H1; [|exact HN].
  destruct (says_open u rd _ Hu HB HS HT _ _ _ _ _ H1 HM H2) as (o' & t' & HO' & _).
  destruct (open_two u rd (file_reader f) f Hu HB (cut_sound n f rd HS) HB0 (file_reader_sound f) (file_reader_total f) o' t' o t HO' HO) as [<- <-].
  - apply (tables_cut f n); [exact HT|lia|]. destruct HN as [_ HN]. intros id HI. apply HN. now left.
  - exact HO'.
Qed.

Section Written.
Variables (u : una) (rd : reader) (fm : format) (doc : document) (n : Z).
Hypothesis Hu : una_ok u.
Hypothesis W : writable fm doc.
Hypothesis HC : comparable u (fm_order fm) (doc_name doc).
Hypothesis HCs : names_ok (comparable u (fm_order fm)) (doc_items doc).
Hypothesis HB : io_bytes rd.

Notation ss := (w_ss fm).
Notation f := (write fm doc).
Hypothesis HS : io_sound rd (cut n f).
Hypothesis HT : io_total rd (cut n f).

Lemma w_opens : exists o t, open_read u (file_reader f) [] = (Ok o, t) /\ o_header o = w_h fm doc /\
  o_msat o = hv_msat_values (w_header_values fm doc) /\ o_sat o = w_sat fm doc.
Proof.
  destruct (says_open u (file_reader f) _ Hu (file_reader_bytes _ (write_bytes fm doc W)) (file_reader_sound f) (file_reader_total f)
    _ _ _ _ _ (write_says fm doc W) (write_moderate fm doc W)) as (o & t & H1 & H2 & H3 & H4 & H5 & H6).
  - exact (write_links fm doc W u HC HCs).
  - exists o, t. auto.
Qed.

Lemma w_zlen : zlen f = (w_big_at fm doc + w_n_big fm doc + 1) * ss.
Proof.
  rewrite write_parts. rewrite !zlen_app, (zlen_p_header _ _ W), (zlen_p_sat _ _ W), (zlen_p_ssat _ _ W), (zlen_p_dir _ _ W),
    (zlen_p_con _ _ W), (zlen_p_big _ _ W). destruct (at_eqs fm doc) as (E1 & E2 & E3 & E4). rewrite E4, E3, E2, E1. lia.
Qed.

Lemma w_request id : 0 <= id < 4294967295 -> fst (request ss id) = (id + 1) * ss.
Proof. intros H. unfold request. cbn [fst]. rewrite Z.mod_small by lia. reflexivity. Qed.

Lemma w_sat_short : zlen (w_sat fm doc) <= EOC.
Proof.
  rewrite (zlen_sat _ _ W). pose proof (n_sat_range _ _ W). pose proof (ss_4 _ _ W). unfold EOC. nia.
Qed.

Lemma w_eoc_chain k id : nth_sector (w_sat fm doc) EOC k id -> id = EOC.
Proof.
  intros H. induction H as [|k id id' H IH Hz]; [reflexivity|]. subst id. apply znth_range in Hz. pose proof w_sat_short. lia.
Qed.

Lemma w_tables o : o_header o = w_h fm doc -> o_msat o = hv_msat_values (w_header_values fm doc) -> o_sat o = w_sat fm doc ->
  forall id, table_sector o id -> 0 <= id < w_dir_at fm doc.
Proof.
  intros E1 E2 E3 id HI. unfold table_sector in HI. rewrite E1, E2, E3, (msat_used _ _ W) in HI.
  pose proof (at_eqs fm doc) as HE. pose proof (n_sat_range _ _ W). pose proof (n_ssat_range _ _ W).
  destruct HI as [HI|(k & HI & N1 & N2)].
  - apply region_ids_In in HI. lia.
  - change (fh_ssat_sector_identifier (w_h fm doc)) with (if w_n_ssat fm doc =? 0 then EOC else w_ssat_at fm doc) in HI.
    destruct (w_n_ssat fm doc =? 0) eqn:E0; [apply w_eoc_chain in HI; contradiction|].
    apply (chain_at_only _ _ _ _ _ (sat_ssat _ _ W)) in HI; [|lia|exact w_sat_short]. destruct HI as [HI|HI]; [contradiction|lia].
Qed.

Lemma w_header_ss : fh_sector_size (w_h fm doc) = ss. Proof. reflexivity. Qed.

Lemma w_tables_before o : o_header o = w_h fm doc -> o_msat o = hv_msat_values (w_header_values fm doc) -> o_sat o = w_sat fm doc ->
  (w_dir_at fm doc + 1) * ss <= n -> tables_before f o n.
Proof.
  intros E1 E2 E3 Hn id HI _. rewrite E1, w_header_ss. apply (w_tables o E1 E2 E3) in HI. pose proof (ss_pos _ _ W).
  pose proof (last_sector _ _ W). pose proof (at_eqs fm doc). pose proof (n_dir_range _ _ W). pose proof (n_con_nonneg _ _ W). pose proof (n_big_nonneg _ _ W).
  rewrite w_request by lia. nia.
Qed.

Lemma w_needed o : o_header o = w_h fm doc -> o_msat o = hv_msat_values (w_header_values fm doc) -> o_sat o = w_sat fm doc ->
  (w_con_at fm doc + 1) * ss <= n -> needed_before f o n.
Proof.
  intros E1 E2 E3 Hn. pose proof (ss_pos _ _ W) as Hss. pose proof (last_sector _ _ W) as HL. pose proof (at_eqs fm doc) as HE.
  pose proof (n_dir_range _ _ W). pose proof (n_con_nonneg _ _ W). pose proof (n_big_nonneg _ _ W).
  pose proof (n_sat_range _ _ W). pose proof (n_ssat_range _ _ W).
  split; [nia|]. intros id HN HI. rewrite E1, w_header_ss in *. unfold needed_sector in HN. cbn zeta in HN. rewrite E1, E3 in HN.
  destruct HN as [HN|[(ids & last & HN & HIn)|(k & HN)]].
  - apply (w_tables o E1 E2 E3) in HN. rewrite w_request by lia. nia.
  - change (fh_msat_sector_identifier (w_h fm doc)) with EOC in HN. inversion HN; subst; [destruct HIn|]. congruence.
  - change (fh_root_directory_sector_identifier (w_h fm doc)) with (w_dir_at fm doc) in HN.
    apply (chain_at_only _ _ _ _ _ (sat_dir _ _ W)) in HN; [|lia|exact w_sat_short]. destruct HN as [->|HN].
    + exfalso. unfold sector_inside in HI. rewrite w_zlen in HI. change (fst (request ss EOC)) with (4294967295 * ss) in HI. nia.
    + rewrite w_request by lia. nia.
Qed.

Lemma written_cut_opens : (w_con_at fm doc + 1) * ss <= n -> exists o t,
  open_read u rd [] = (Ok o, t) /\ open_read u (file_reader f) [] = (Ok o, t).
Proof.
  intros Hn. destruct w_opens as (o & t & HO & E1 & E2 & E3). exists o, t. split; [|exact HO].
  apply (cut_opens u rd f n); auto; [exact (write_bytes fm doc W)|rewrite E1; exact (write_moderate fm doc W)|now apply w_needed].
Qed.

Lemma written_cut_opened o t : open_read u rd [] = (Ok o, t) ->
  (w_con_at fm doc + 1) * ss <= n /\ open_read u (file_reader f) [] = (Ok o, t).
Proof.
  intros HO. destruct w_opens as (o0 & t0 & HO0 & E1 & E2 & E3).
  pose proof (file_reader_bytes _ (write_bytes fm doc W)) as HB0.
  pose proof (cut_sound n f rd HS) as HSf.
  destruct (open_head u rd (file_reader f) f Hu HB HSf (file_reader_sound f) (file_reader_total f) o t o0 t0 HO HO0) as [F1 F2].
  rewrite E1 in F1. rewrite E2 in F2.
  pose proof (ss_pos _ _ W) as Hss. pose proof (last_sector _ _ W) as HL. pose proof (at_eqs fm doc) as HE.
  pose proof (n_dir_range _ _ W) as Hd. pose proof (n_con_nonneg _ _ W). pose proof (n_big_nonneg _ _ W).
  pose proof (n_sat_range _ _ W). pose proof (n_ssat_range _ _ W).
  destruct (open_says u rd _ Hu HB HS HT o t HO) as (HF & _ & _); [rewrite F1; exact (write_moderate fm doc W)|].
  destruct HF as (_ & _ & _ & _ & _ & _ & HD). rewrite F1 in HD. rewrite w_header_ss in HD.
  change (fh_root_directory_sector_identifier (w_h fm doc)) with (w_dir_at fm doc) in HD.
  destruct HD as (_ & ids & last & A1 & A2 & A3 & A4 & A5 & A6 & _).
  assert (Hmax : forall id, 0 <= id < 4294967295 -> sector_inside (cut n f) ss id -> (id + 2) * ss <= n).
  { intros id Hid HI. unfold sector_inside in HI. rewrite w_request in HI by exact Hid. pose proof (zlen_cut_le2 n f). nia. }
  assert (G1 : (w_dir_at fm doc + 2) * ss <= n).
  { apply Hmax; [lia|]. destruct ids as [|id ids].
    - cbn [length] in A2. inversion A2; subst. destruct A6 as [[[A6|A6] _]|[[] _]]; unfold EOC, FREE in A6; lia.
    - pose proof (A1 0%nat id eq_refl) as G. inversion G; subst. now inversion A5. }
  assert (HTb : tables_before f o0 n) by (apply w_tables_before; auto; nia).
  destruct (open_two u rd (file_reader f) f Hu HB HSf HB0 (file_reader_sound f) (file_reader_total f) o t o0 t0 HO HO0) as [-> ->].
  { apply (tables_cut f n); [exact HT| |exact HTb]. rewrite E1, w_header_ss. lia. }
  split; [|exact HO0]. rewrite E3 in A1, A2.
  assert (G2 : (Z.to_nat (w_n_dir fm doc) <= length ids)%nat).
  { destruct (Nat.le_gt_cases (Z.to_nat (w_n_dir fm doc)) (length ids)) as [G|G]; [exact G|exfalso].
    pose proof (chain_at_sector _ _ _ (length ids) (sat_dir _ _ W) ltac:(lia)) as Q.
    pose proof (nth_sector_fun _ _ _ _ _ A2 Q) as ->.
    destruct A6 as [[[A6|A6] _]|[A6 _]]; [unfold EOC in A6; lia|unfold FREE in A6; lia|].
    apply In_nth_error in A6 as (k & Hk). assert (Hkl : (k < length ids)%nat) by (apply nth_error_Some; congruence).
    apply A1 in Hk. pose proof (chain_at_sector _ _ _ k (sat_dir _ _ W) ltac:(lia)) as Q2.
    pose proof (nth_sector_fun _ _ _ _ _ Hk Q2) as Q3. lia. }
  destruct (nth_error ids (Z.to_nat (w_n_dir fm doc - 1))) as [id|] eqn:Ei; [|apply nth_error_None in Ei; lia].
  pose proof (chain_at_sector _ _ _ (Z.to_nat (w_n_dir fm doc - 1)) (sat_dir _ _ W) ltac:(lia)) as Q.
  pose proof (nth_sector_fun _ _ _ _ _ (A1 _ _ Ei) Q) as ->. apply nth_error_In in Ei. rewrite Forall_forall in A5.
  apply A5 in Ei. apply Hmax in Ei; [|lia]. destruct HE as (X1 & X2 & X3 & X4). rewrite X3.
  replace (w_dir_at fm doc + w_n_dir fm doc + 1) with (w_dir_at fm doc + Z.of_nat (Z.to_nat (w_n_dir fm doc - 1)) + 2) by lia. exact Ei.
Qed.
End Written.
