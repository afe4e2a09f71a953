(** Lemmas on opening and closing a file when requests for memory can fail: the
    result of the whole call. *)
From Coq Require Import ZArith List Bool Lia Permutation.
From Verif Require Import Base Spec_IO Spec_Stream Spec_Load Spec_Tree Spec_Open L_Base M_Table M_Header M_Load M_Stream M_Tree
  M_Open M_Mem Spec_Mem L_Tree L_Tree2 L_Tree3 L_Header L_Load L_Load2 L_Open L_Open2 L_Free L_Mem L_Mem2 L_Mem3 L_Mem4 L_Mem5.
Import ListNotations.
Open Scope Z_scope.

Lemma not_refused k q : granted q -> ~ In (k, false) q.
Proof. intros G H. specialize (G _ _ H). discriminate. Qed.

Lemma refused_kind k q : of_kind k q -> refused q -> In (k, false) q.
Proof. intros K [k' H]. rewrite <- (K _ _ H). exact H. Qed.

Lemma kind_other k k' q : of_kind k q -> k' <> k -> ~ In (k', false) q.
Proof. intros K N H. apply N. exact (K _ _ H). Qed.

Lemma open_mm mem u rd s : una_ok u -> io_bytes rd -> fit s ->
  exists r s' q, mm_open_read mem u rd s = (Ok r, s') /\ open_mm_post u rd s r s' q.
Proof.
  intros Hu HB F. unfold mm_open_read.
  destruct (alloc_spec mem RHeader s F) as (r & s1 & X1 & T1 & M1). rewrite (mbind_ok _ _ _ _ _ X1). destruct r as [b|].
  2: { exists None, s1, [(RHeader, false)]. split; [reflexivity|]. split; [exact M1|]. left. apply refused_one. }
  destruct (mt_initialize_spec mem 109 s1 ltac:(unfold TABLE_MAX; lia) (proj1 M1)) as (r & s2 & q2 & X2 & T2 & K2 & H2).
  rewrite (mbind_ok _ _ _ _ _ X2). destruct r as [msat0|].
  2: { destruct H2 as [M2 R2]. destruct (on_error_spec None [] (Some b) s2 (proj1 M2)) as (s3 & X3 & T3 & M3);
         [cbn [list_blocks tables_blocks flat_map opt_list app]; own|].
       cbn [list_blocks tables_blocks flat_map opt_list app] in M3.
       exists None, s3, ((RHeader, true) :: q2). split; [exact X3|]. split; [weigh|]. left. apply refused_two, R2. }
  destruct H2 as (M2 & V2 & G2).
  destruct (header_step rd (m_trace s2) HB) as [HD HH].
  destruct (header_read rd (zeros 109) (m_trace s2)) as [r t3] eqn:EH. rewrite <- V2 in EH.
  destruct (mio_spec _ s2 r t3 (proj1 M2) EH HD) as (o & s3 & X3 & T3 & M3 & H3). rewrite (mbind_ok _ _ _ _ _ X3).
  destruct o as [[h vals]|]; subst r.
  2: { destruct (on_error_spec None [msat0] (Some b) s3 (proj1 M3)) as (s4 & X4 & T4 & M4);
         [cbn [list_blocks tables_blocks flat_map opt_list app]; own|].
       cbn [list_blocks tables_blocks flat_map opt_list app] in M4. rewrite app_nil_r in M4.
       exists None, s4, ((RHeader, true) :: q2). split; [exact X4|]. split; [weigh|]. right.
       unfold open_read. change (table_initialize 109) with (Ok (zeros 109)). rewrite (ilift_step _ _ _ (zeros 109)) by reflexivity.
       rewrite V2, T2, T1 in EH. unfold ibind at 1. rewrite EH. congruence. }
  destruct (HH _ _ _ eq_refl) as [HF Hlen]. rewrite V2, T2, T1 in EH. clear HD HH.
  (* the master table *)
  pose proof (step_msat rd h vals HF (m_trace s3) Hlen) as D4.
  destruct (read_msat_mm mem rd (fh_byte_order h) (fh_sector_size h) (set_vals msat0 vals) (fh_msat_sector_identifier h)
              (fh_number_of_msat_sectors h) s3 (proj1 M3)) as (ok & msat & s4 & q4 & X4 & K4 & M4 & H4).
  { change (mt_blocks (set_vals msat0 vals)) with (mt_blocks msat0). own. }
  { exact D4. }
  change (mt_blocks (set_vals msat0 vals)) with (mt_blocks msat0) in M4. cbn [set_vals mt_vals] in H4.
  rewrite (mbind_ok _ _ _ _ _ X4). cbn beta iota. destruct ok; cbn [negb].
  2: { destruct (on_error_spec None [msat] (Some b) s4 (proj1 M4)) as (s5 & X5 & T5 & M5);
         [cbn [list_blocks tables_blocks flat_map opt_list app]; own|].
       cbn [list_blocks tables_blocks flat_map opt_list app] in M5. rewrite app_nil_r in M5.
       exists None, s5, ((RHeader, true) :: q2 ++ q4). split; [exact X5|]. split; [weigh|].
       destruct H4 as [[G4 H4]|R4]; [right|left; apply refused_two, refused_r, R4].
       unfold open_read. change (table_initialize 109) with (Ok (zeros 109)). rewrite (ilift_step _ _ _ (zeros 109)) by reflexivity.
       erewrite ibind_step by exact EH. cbn beta iota. unfold open_tables, ibind at 1. rewrite T3 in H4. rewrite H4. congruence. }
  destruct H4 as [H4 G4]. rewrite T3 in H4. clear D4.
  (* the sector allocation table *)
  destruct (mt_initialize_spec mem 0 s4 ltac:(unfold TABLE_MAX; lia) (proj1 M4)) as (r & s5 & q5 & X5 & T5 & K5 & H5).
  rewrite (mbind_ok _ _ _ _ _ X5). destruct r as [sat0|].
  2: { destruct H5 as [M5 R5]. destruct (on_error_spec None [msat] (Some b) s5 (proj1 M5)) as (s6 & X6 & T6 & M6);
         [cbn [list_blocks tables_blocks flat_map opt_list app]; own|].
       cbn [list_blocks tables_blocks flat_map opt_list app] in M6. rewrite app_nil_r in M6.
       exists None, s6, ((RHeader, true) :: q2 ++ q4 ++ q5). split; [exact X6|]. split; [weigh|]. left. apply refused_two, refused_r, refused_r, R5. }
  destruct H5 as (M5 & V5 & G5). change (zeros 0) with (@nil Z) in V5.
  destruct (step_sat rd h HB HF (mt_vals msat) (m_trace s5)) as (satv & t6 & D6 & Us & Zs).
  destruct (read_sat_mm mem rd (fh_byte_order h) (fh_sector_size h) (mt_vals msat) sat0 (fh_number_of_sat_sectors h) s5 (proj1 M5))
    as (sat & s6 & q6 & X6 & K6 & M6 & H6); [own|rewrite V5; eauto|].
  rewrite (mbind_ok _ _ _ _ _ X6). cbn beta iota. cbn [negb]. rewrite V5 in H6. rewrite T5 in D6, H6.
  assert (Fs : Forall is_u32 (mt_vals sat) /\ zlen (mt_vals sat) <= 33554432).
  { destruct H6 as [[_ H6]|(_ & _ & k & Hk & Hl)].
    - rewrite D6 in H6. apply pair_equal_spec in H6 as [E _]. apply Ok_inj in E. subst satv. auto.
    - cbn [app] in Hk. split; [rewrite Hk; apply zeros_fine|]. apply Hl. change (zlen (@nil Z)) with 0. unfold TABLE_MAX. lia. }
  destruct Fs as [Us' Zs'].
  assert (S6 : table_step (refused q6) (read_sat rd (fh_byte_order h) (fh_sector_size h) (mt_vals msat) [] (fh_number_of_sat_sectors h))
                 (m_trace s4) (mt_vals sat) (m_trace s6)).
  { destruct H6 as [[G6 H6]|(R6 & E6 & k & Hk & _)]; [left; split; [now apply granted_not|exact H6]|right; split; [exact R6|]; split; [exact E6|]; split; [exact Zs'|]; eauto]. }
  clear H6 D6 Us Zs satv t6.
  (* the short sector allocation table *)
  destruct (mt_initialize_spec mem 0 s6 ltac:(unfold TABLE_MAX; lia) (proj1 M6)) as (r & s7 & q7 & X7 & T7 & K7 & H7).
  rewrite (mbind_ok _ _ _ _ _ X7). destruct r as [ssat0|].
  2: { destruct H7 as [M7 R7]. destruct (on_error_spec None [sat; msat] (Some b) s7 (proj1 M7)) as (s8 & X8 & T8 & M8);
         [cbn [list_blocks tables_blocks flat_map opt_list app]; own|].
       cbn [list_blocks tables_blocks flat_map opt_list app] in M8. rewrite app_nil_r in M8.
       exists None, s8, ((RHeader, true) :: q2 ++ q4 ++ q5 ++ q6 ++ q7). split; [exact X8|]. split; [weigh|]. left.
       apply refused_two, refused_r, refused_r, refused_r, refused_r, R7. }
  destruct H7 as (M7 & V7 & G7). change (zeros 0) with (@nil Z) in V7.
  destruct (step_ssat rd h HF (mt_vals sat) (m_trace s7) Us' Zs') as (ssatv & t8 & D8).
  destruct (read_ssat_mm mem rd (fh_byte_order h) (fh_sector_size h) (mt_vals sat) ssat0 (fh_ssat_sector_identifier h)
              (fh_number_of_ssat_sectors h) s7 (proj1 M7))
    as (ssat & s8 & q8 & X8 & K8 & M8 & H8); [own|rewrite V7; eauto|].
  rewrite (mbind_ok _ _ _ _ _ X8). cbn beta iota. cbn [negb]. rewrite V7 in H8. rewrite T7 in H8.
  assert (S8 : table_step (refused q8) (read_ssat rd (fh_byte_order h) (fh_sector_size h) (mt_vals sat) [] (fh_ssat_sector_identifier h)
                 (fh_number_of_ssat_sectors h)) (m_trace s6) (mt_vals ssat) (m_trace s8)).
  { destruct H8 as [[G8 H8]|(R8 & E8 & k & Hk & Hl)]; [left; split; [now apply granted_not|exact H8]|right; split; [exact R8|]; split; [exact E8|]; split; [|eauto]].
    apply Hl. change (zlen (@nil Z)) with 0. unfold TABLE_MAX. lia. }
  clear H8 D8 ssatv t8.
  set (q := (RHeader, true) :: q2 ++ q4 ++ q5 ++ q6 ++ q7 ++ q8).
  assert (M : moved s q [] ([b] ++ mt_blocks msat ++ mt_blocks sat ++ mt_blocks ssat) s8) by (unfold q; weigh).
  assert (Q : forall k, In (k, false) q -> k = RSat \/ k = RSsat).
  { intros k Hk. unfold q in Hk. destruct Hk as [[=]|Hk]. repeat (apply in_app_or in Hk as [Hk|Hk]);
      try (exfalso; match goal with G : granted ?p, H : In _ ?p |- _ => exact (not_refused _ _ G H) end); [left; exact (K6 _ _ Hk)|right; exact (K8 _ _ Hk)]. }
  assert (QS : In (RSat, false) q <-> refused q6).
  { split; [intros Hk|intros R; apply (refused_kind _ _ K6) in R].
    - unfold q in Hk. destruct Hk as [[=]|Hk]. repeat (apply in_app_or in Hk as [Hk|Hk]);
        try (exfalso; match goal with G : granted ?p, H : In _ ?p |- _ => exact (not_refused _ _ G H) end); [now exists RSat|]. exfalso. now specialize (K8 _ _ Hk).
    - unfold q. right. do 3 (apply in_or_app; right). apply in_or_app. now left. }
  assert (QSS : In (RSsat, false) q <-> refused q8).
  { split; [intros Hk|intros R; apply (refused_kind _ _ K8) in R].
    - unfold q in Hk. destruct Hk as [[=]|Hk]. repeat (apply in_app_or in Hk as [Hk|Hk]);
        try (exfalso; match goal with G : granted ?p, H : In _ ?p |- _ => exact (not_refused _ _ G H) end); [|now exists RSsat]. exfalso. now specialize (K6 _ _ Hk).
    - unfold q. right. do 5 (apply in_or_app; right). exact R. }
  assert (QG : ~ refused q -> ~ refused q6 /\ ~ refused q8).
  { intros N. split; intros R; apply N; unfold q; apply refused_two; do 3 apply refused_r; [apply refused_l|do 2 apply refused_r]; exact R. }
  clearbody q. clear M1 M2 M3 M4 M5 M6 M7 M8 X1 X2 X3 X4 X5 X6 X7 X8 K2 K4 K5 K6 K7 K8 G2 G4 G5 G7.
  (* the directory *)
  destruct (alloc_spec mem RDirectory s8 (proj1 M)) as (r & s9 & X9 & T9 & M9). rewrite (mbind_ok _ _ _ _ _ X9). destruct r as [lb|].
  2: { destruct (on_error_spec None [ssat; sat; msat] (Some b) s9 (proj1 M9)) as (s10 & X10 & T10 & M10);
         [cbn [list_blocks tables_blocks flat_map opt_list app]; own|].
       cbn [list_blocks tables_blocks flat_map opt_list app] in M10. rewrite app_nil_r in M10.
       exists None, s10, (q ++ [(RDirectory, false)]). split; [exact X10|]. split; [weigh|]. left. apply refused_r, refused_one. }
  destruct (step_directory rd h HB HF (mt_vals sat) (m_trace s9) Us' Zs') as [D10 E10].
  destruct (read_directory_mm mem rd (fh_byte_order h) (fh_sector_size h) (mt_vals sat) (fh_root_directory_sector_identifier h)
              s9 (proj1 M9) D10) as (o & s10 & q10 & X10 & K10 & H10). rewrite T9 in H10, E10.
  rewrite (mbind_ok _ _ _ _ _ X10). 
  assert (Pre : ~ refused q -> forall k : list dirent -> io opened,
     open_read u rd (m_trace s) =
     (dio l <- read_directory rd (fh_byte_order h) (fh_sector_size h) (mt_vals sat) (fh_root_directory_sector_identifier h);
      dio tr <- ilift (create_tree u (fh_byte_order h) l);
      iret {| o_header := h; o_msat := mt_vals msat; o_sat := mt_vals sat; o_ssat := mt_vals ssat;
              o_entries := l; o_tree := tr |}) (m_trace s8)).
  { intros N _. destruct (QG N) as [N6 N8].
    destruct S6 as [[_ S6]|[? _]]; [|contradiction]. destruct S8 as [[_ S8]|[? _]]; [|contradiction].
    unfold open_read. change (table_initialize 109) with (Ok (zeros 109)). rewrite (ilift_step _ _ _ (zeros 109)) by reflexivity.
    erewrite ibind_step by exact EH. cbn beta iota. unfold open_tables.
    erewrite ibind_step by exact H4. rewrite (ilift_step _ _ _ []) by reflexivity.
    erewrite ibind_step by exact S6. rewrite (ilift_step _ _ _ []) by reflexivity.
    erewrite ibind_step by exact S8. reflexivity. }
  assert (Dec : forall p, refused p \/ ~ refused p).
  { intros p. destruct (existsb (fun kb => negb (snd kb)) p) eqn:E.
    - left. apply existsb_exists in E as ([k [|]] & Hin & E); [discriminate|]. now exists k.
    - right. intros [k Hin]. assert (existsb (fun kb : kind * bool => negb (snd kb)) p = true); [|congruence].
      apply existsb_exists. exists (k, false). auto. }
  destruct o as [l|].
  2: { destruct H10 as [M10 H10].
       destruct (on_error_spec (Some (lb, [])) [ssat; sat; msat] (Some b) s10 (proj1 M10)) as (s11 & X11 & T11 & M11);
         [cbn [list_blocks tables_blocks els_blocks flat_map opt_list app]; own|].
       cbn [list_blocks tables_blocks els_blocks flat_map opt_list app] in M11. rewrite app_nil_r in M11.
       exists None, s11, (q ++ [(RDirectory, true)] ++ q10). split; [exact X11|]. split; [weigh|].
       destruct H10 as [[G10 H10]|R10]; [|left; apply refused_r, refused_r, R10].
       destruct (Dec q) as [R|N]; [left; apply refused_l, R|]. right. rewrite (Pre N (fun _ => ierr)). unfold ibind at 1. rewrite H10. congruence. }
  destruct H10 as (M10 & G10 & H10).
  assert (El : entries_ok (map el_entry l)) by (eapply E10; exact H10).
  destruct (release_spec b s10 (proj1 M10)) as (s11 & X11 & T11 & M11); [own|]. rewrite (mbind_ok _ _ _ _ _ X11).
  pose proof (create_tree_defined u (fh_byte_order h) (map el_entry l) Hu El) as D12.
  destruct (create_tree_mm mem u (fh_byte_order h) (map el_entry l) s11 (proj1 M11) D12) as (o & s12 & q12 & X12 & T12 & K12 & H12).
  rewrite (mbind_ok _ _ _ _ _ X12). destruct o as [[tr nodes]|].
  2: { destruct H12 as [M12 H12].
       destruct (on_error_spec (Some (lb, l)) [ssat; sat; msat] None s12 (proj1 M12)) as (s13 & X13 & T13 & M13);
         [cbn [list_blocks tables_blocks flat_map opt_list app]; own|].
       cbn [list_blocks tables_blocks flat_map opt_list app] in M13. rewrite !app_nil_r in M13.
       exists None, s13, (q ++ [(RDirectory, true)] ++ q10 ++ q12). split; [exact X13|]. split; [weigh|].
       destruct H12 as [[G12 H12]|R12]; [|left; apply refused_r, refused_r, refused_r, R12].
       destruct (Dec q) as [R|N]; [left; apply refused_l, R|]. right. rewrite (Pre N (fun _ => ierr)).
       erewrite ibind_step by exact H10. unfold ibind at 1, ilift. rewrite H12. congruence. }
  destruct H12 as (M12 & G12 & H12 & Hn).
  pose proof (filter_blocks (in_tree tr) l) as HFB.
  destruct (els_free_spec (filter (fun x => negb (in_tree tr x)) l) s12 (proj1 M12)) as (s13 & X13 & T13 & M13).
  { intros x. specialize (HFB x). repeat match goal with H : moved _ _ _ _ _ |- _ => pose proof (proj2 (proj2 H) x); clear H end. cnts. lia. }
  rewrite (mbind_ok _ _ _ _ _ X13).
  destruct (release_spec lb s13 (proj1 M13)) as (s14 & X14 & T14 & M14).
  { intros x. specialize (HFB x). repeat match goal with H : moved _ _ _ _ _ |- _ => pose proof (proj2 (proj2 H) x); clear H end. cnts. lia. }
  rewrite (mbind_ok _ _ _ _ _ X14).
  eexists (Some _), s14, (q ++ [(RDirectory, true)] ++ q10 ++ q12). split; [reflexivity|].
  assert (QE : forall k, In (k, false) (q ++ [(RDirectory, true)] ++ q10 ++ q12) <-> In (k, false) q).
  { intros k. split; [|intros H; apply in_or_app; now left]. intros Hk. apply in_app_or in Hk as [Hk|Hk]; [exact Hk|]. exfalso.
    apply (not_refused k ([(RDirectory, true)] ++ q10 ++ q12)); [|exact Hk]. cbn [app]. grants. }
  unfold open_mm_post. cbn [mf_opened mf_msat mf_sat mf_ssat mf_nodes mf_entries o_header o_msat o_sat o_ssat o_entries o_tree].
  split.
  { split; [apply M14|]. split.
    - repeat match goal with H : moved _ _ _ _ ?s |- context [m_requests ?s] => rewrite (proj1 (proj2 H)) end.
      repeat (rewrite ?app_nil_r, <- ?app_assoc; cbn [app]). reflexivity.
    - intros x. specialize (HFB x). unfold file_blocks. cbn [mf_opened mf_msat mf_sat mf_ssat mf_nodes mf_entries o_tree].
      repeat match goal with H : moved _ _ _ _ _ |- _ => pose proof (proj2 (proj2 H) x); clear H end. cnts. lia. }
  split.
  { unfold opens. cbn [o_header o_msat o_sat o_ssat o_entries o_tree]. exists vals, t3, (m_trace s4), (m_trace s6), (m_trace s8).
    split; [exact EH|]. split; [exact H4|].
    split; [destruct S6 as [[N S6]|[R S6]]; [left|right]; (split; [rewrite QE, QS; assumption|exact S6])|].
    split; [destruct S8 as [[N S8]|[R S8]]; [left|right]; (split; [rewrite QE, QSS; assumption|exact S8])|].
    split; [rewrite T14, T13, T12, T11; exact H10|exact H12]. }
  split; [intros k Hk; apply Q, QE, Hk|]. repeat (split; [reflexivity|]). split; [exact El|exact Hn].
Qed.

(** * Closing *)
Lemma element_of_in l : forall id, In id (map (fun x => de_id (el_entry x)) l) ->
  exists x, element_of l id = Ok x /\ In x l /\ de_id (el_entry x) = id.
Proof.
  induction l as [|x l IH]; intros id Hin; [destruct Hin|]. cbn [element_of map] in *.
  destruct (de_id (el_entry x) =? id) eqn:E; [exists x; split; [reflexivity|]; split; [now left|]; lia|].
  destruct Hin as [<-|Hin]; [rewrite Z.eqb_refl in E; discriminate|].
  destruct (IH id Hin) as (y & Hy & Hi & Hd). exists y. split; [exact Hy|]. split; [now right|exact Hd].
Qed.

Lemma values_els l nodes : (forall n, In n nodes -> In (de_id (n_entry n)) (map (fun x => de_id (el_entry x)) l)) ->
  exists els, Forall2 (fun n x => element_of l (de_id (n_entry n)) = Ok x) nodes els /\
    incl els l /\ map (fun x => de_id (el_entry x)) els = map (fun n => de_id (n_entry n)) nodes.
Proof.
  induction nodes as [|n nodes IH]; intros H.
  - exists []. split; [constructor|]. split; [intros x []|reflexivity].
  - destruct (element_of_in l _ (H n (or_introl eq_refl))) as (x & Hx & Hi & Hd).
    destruct IH as (els & HF & HI & HM); [intros m Hm; apply H; now right|].
    exists (x :: els). split; [constructor; assumption|]. split; [intros y [<-|Hy]; auto|]. cbn [map]. congruence.
Qed.

Lemma values_free_spec l nodes els : Forall2 (fun n x => element_of l (de_id (n_entry n)) = Ok x) nodes els ->
  forall s, fit s -> owns s (els_blocks els) ->
  exists s', values_free l nodes s = (Ok tt, s') /\ m_trace s' = m_trace s /\ moved s [] (els_blocks els) [] s'.
Proof.
  induction 1 as [|n x nodes els Hx _ IH]; intros s F O; cbn [values_free].
  - exists s. split; [reflexivity|]. split; [reflexivity|]. now apply moved_refl.
  - cbn [els_blocks flat_map] in *. fold (els_blocks els) in *. rewrite Hx.
    rewrite (mbind_ok (mlift (Ok x)) _ s x s) by reflexivity.
    destruct (el_free_spec x s F) as (s1 & E1 & T1 & M1); [own|]. rewrite (mbind_ok _ _ _ _ _ E1).
    destruct (IH s1 (proj1 M1)) as (s2 & E2 & T2 & M2); [own|]. exists s2. split; [exact E2|]. split; [congruence|]. weigh.
Qed.

Lemma els_blocks_perm a b : Permutation a b -> forall x, cnt (els_blocks a) x = cnt (els_blocks b) x.
Proof. intros P x. apply (Permutation_count_occ Z.eq_dec). now apply Permutation_flat_map. Qed.

Lemma nodup_map_same {A} (g : A -> Z) l : NoDup (map g l) -> forall x y, In x l -> In y l -> g x = g y -> x = y.
Proof.
  induction l as [|z l IH]; intros N x y Hx Hy E; [destruct Hx|]. cbn [map] in N. inversion N as [|a b Hn N']; subst.
  destruct Hx as [<-|Hx], Hy as [<-|Hy]; [reflexivity| | |eauto].
  - exfalso. apply Hn. rewrite E. now apply in_map.
  - exfalso. apply Hn. rewrite <- E. now apply in_map.
Qed.

(** The entries of the nodes are those with the flag. *)
Lemma tree_els u e l tr : una_ok u -> entries_ok (map el_entry l) -> create_tree u e (map el_entry l) = Ok (Some tr) ->
  exists els, Forall2 (fun n x => element_of l (de_id (n_entry n)) = Ok x) (tr_nodes tr) els /\
    Permutation els (filter (in_tree (Some tr)) l).
Proof.
  intros Hu He HT. destruct (create_tree_made _ _ _ _ Hu He HT) as (root & HM).
  pose proof (made_flags _ tr u e root HM) as HF. pose proof (made_nodup u e _ He root tr HM) as HN.
  pose proof (made_incl u e _ root tr HM) as HI.
  destruct (values_els l (tr_nodes tr)) as (els & H2 & Hi & Hm).
  { intros n Hn. assert (In (n_entry n) (map el_entry l)) as Hin by (apply HI; unfold tree_entries; now apply in_map).
    apply in_map_iff in Hin as (x & Ex & Hx). apply in_map_iff. exists x. split; [now rewrite Ex|exact Hx]. }
  exists els. split; [exact H2|].
  assert (Hm' : map (fun x => de_id (el_entry x)) els = map de_id (tree_entries tr)) by (rewrite Hm; unfold tree_entries; now rewrite map_map).
  assert (NL : NoDup (map (fun x => de_id (el_entry x)) l)) by (destruct He as [He _]; rewrite map_map in He; exact He).
  apply NoDup_Permutation.
  - apply (NoDup_map_inv (fun x => de_id (el_entry x))). rewrite Hm'. exact HN.
  - apply NoDup_filter. apply (NoDup_map_inv _ _ NL).
  - intros x. rewrite filter_In. cbn [in_tree]. rewrite existsb_exists. split.
    + intros Hx. split; [apply Hi, Hx|]. exists (de_id (el_entry x)). split; [|apply Z.eqb_refl].
      apply (Permutation_in _ (Permutation_sym HF)). rewrite <- Hm'. now apply (in_map (fun x => de_id (el_entry x))).
    + intros [Hx (id & Hid & E)]. apply Z.eqb_eq in E. subst id. apply (Permutation_in _ HF) in Hid. rewrite <- Hm' in Hid.
      apply in_map_iff in Hid as (y & E & Hy).
      assert (y = x) as ->; [|exact Hy]. apply (nodup_map_same (fun x => de_id (el_entry x)) l NL); auto.
Qed.

(** What closing needs of the file. *)
Definition closable (f : mfile) : Prop :=
  match o_tree (mf_opened f) with
  | Some tr => exists els, Forall2 (fun n x => element_of (mf_entries f) (de_id (n_entry n)) = Ok x) (tr_nodes tr) els /\
                 Permutation els (filter (in_tree (Some tr)) (mf_entries f))
  | None => True
  end.

Lemma open_closable u rd s f s' q : una_ok u -> open_mm_post u rd s (Some f) s' q -> closable f.
Proof.
  intros Hu (_ & (vals & t1 & t2 & t3 & t4 & _ & _ & _ & _ & _ & HT) & _ & HE & _ & _ & _ & He & _). unfold closable.
  destruct (o_tree (mf_opened f)) as [tr|]; [|exact I]. rewrite HE in HT, He. exact (tree_els _ _ _ _ Hu He HT).
Qed.

Lemma close_mm f s : closable f -> fit s -> owns s (file_blocks f) ->
  exists s', mm_close f s = (Ok tt, s') /\ m_trace s' = m_trace s /\ moved s [] (file_blocks f) [] s'.
Proof.
  intros C F O. unfold mm_close, file_blocks in *. unfold closable in C.
  destruct (tables_free_spec [mf_msat f; mf_sat f; mf_ssat f] s F) as (s1 & X1 & T1 & M1).
  { cbn [tables_blocks flat_map app]. rewrite app_nil_r. own. }
  cbn [tables_blocks flat_map app] in M1. rewrite app_nil_r in M1. rewrite (mbind_ok _ _ _ _ _ X1).
  destruct (o_tree (mf_opened f)) as [tr|].
  - destruct C as (els & H2 & P). pose proof (els_blocks_perm _ _ P) as HP.
    destruct (values_free_spec _ _ _ H2 s1 (proj1 M1)) as (s2 & X2 & T2 & M2).
    { intros x. specialize (HP x). specialize (O x). pose proof (proj2 (proj2 M1) x). cnts. lia. }
    rewrite (mbind_ok _ _ _ _ _ X2).
    destruct (release_all_spec (mf_nodes f) s2 (proj1 M2)) as (s3 & X3 & T3 & M3).
    { intros x. specialize (HP x). specialize (O x). pose proof (proj2 (proj2 M1) x). pose proof (proj2 (proj2 M2) x). cnts. lia. }
    exists s3. split; [exact X3|]. split; [congruence|]. split; [apply M3|]. split.
    + rewrite (proj1 (proj2 M3)), (proj1 (proj2 M2)), (proj1 (proj2 M1)). now rewrite !app_nil_r.
    + intros x. specialize (HP x). pose proof (proj2 (proj2 M1) x). pose proof (proj2 (proj2 M2) x). pose proof (proj2 (proj2 M3) x). cnts. lia.
  - cbn [values_free]. rewrite (mbind_ok (mret tt) _ s1 tt s1) by reflexivity.
    assert (E0 : filter (in_tree None) (mf_entries f) = []) by (generalize (mf_entries f); intros l; induction l; [reflexivity|assumption]).
    rewrite E0 in *. cbn [els_blocks flat_map] in *.
    destruct (release_all_spec (mf_nodes f) s1 (proj1 M1)) as (s3 & X3 & T3 & M3); [own|].
    exists s3. split; [exact X3|]. split; [congruence|]. weigh.
Qed.

(** * The states *)
Lemma sane_fit s : sane s -> fit s.
Proof.
  intros [N R] x. unfold cnt. split; [now apply NoDup_count_occ|]. intros H. apply R. apply (count_occ_In Z.eq_dec). lia.
Qed.

Lemma fit_sane s : fit s -> sane s.
Proof.
  intros F. split; [apply (NoDup_count_occ Z.eq_dec); intros x; apply F|]. intros p Hp. apply F.
  apply (count_occ_In Z.eq_dec) in Hp. exact Hp.
Qed.

Lemma moved_perm s q a b s' rest : moved s q a b s' -> Permutation (m_live s) (a ++ rest) -> Permutation (m_live s') (b ++ rest).
Proof.
  intros (_ & _ & C) P. apply (Permutation_count_occ Z.eq_dec). intros x. specialize (C x).
  pose proof (proj1 (Permutation_count_occ Z.eq_dec _ _) P x) as E. fold (cnt (m_live s) x) in E. fold (cnt (m_live s') x).
  fold (cnt (a ++ rest) x) in E. fold (cnt (b ++ rest) x). cnts. lia.
Qed.

Lemma owns_perm s a rest : Permutation (m_live s) (a ++ rest) -> owns s a.
Proof.
  intros P x. pose proof (proj1 (Permutation_count_occ Z.eq_dec _ _) P x) as E. fold (cnt (m_live s) x) in E. fold (cnt (a ++ rest) x) in E.
  cnts. lia.
Qed.

Lemma open_close_mm mem u rd s : una_ok u -> io_bytes rd -> sane s ->
  exists r s', mm_open_read mem u rd s = (Ok r, s') /\ sane s' /\
  match r with
  | None => Permutation (m_live s') (m_live s)
  | Some f =>
      exists own, Permutation (m_live s') (own ++ m_live s) /\
      forall s2 rest, sane s2 -> Permutation (m_live s2) (own ++ rest) ->
        exists s3, mm_close f s2 = (Ok tt, s3) /\ sane s3 /\ Permutation (m_live s3) rest
  end.
Proof.
  intros Hu HB Hs. destruct (open_mm mem u rd s Hu HB (sane_fit _ Hs)) as (r & s' & q & E & P).
  exists r, s'. split; [exact E|]. destruct r as [f|].
  - split; [apply fit_sane, P|]. exists (file_blocks f). split; [exact (moved_perm _ _ _ _ _ (m_live s) (proj1 P) (Permutation_refl _))|].
    intros s2 rest Hs2 P2. destruct (close_mm f s2 (open_closable _ _ _ _ _ _ Hu P) (sane_fit _ Hs2) (owns_perm _ _ _ P2)) as (s3 & X & _ & M).
    exists s3. split; [exact X|]. split; [apply fit_sane, M|]. exact (moved_perm _ _ _ _ _ rest M P2).
  - split; [apply fit_sane, P|]. exact (moved_perm _ _ _ _ _ (m_live s) (proj1 P) (Permutation_refl _)).
Qed.

Lemma open_granted_mm mem u rd s r s' : una_ok u -> io_bytes rd -> sane s -> mm_open_read mem u rd s = (Ok r, s') ->
  refusals s s' [] ->
  open_read u rd (m_trace s) = (match r with Some f => Ok (mf_opened f) | None => Err end, m_trace s').
Proof.
  intros Hu HB Hs E (q & Hq & HG). destruct (open_mm mem u rd s Hu HB (sane_fit _ Hs)) as (r' & s'' & q' & E' & P).
  rewrite E in E'. apply pair_equal_spec in E' as [E1 <-]. apply Ok_inj in E1. subst r'.
  assert (q' = q) as ->.
  { assert (HQ : m_requests s' = m_requests s ++ q') by (destruct r; apply P). rewrite Hq in HQ. now apply app_inv_head in HQ. }
  destruct r as [f|]; cbn [open_mm_post] in P.
  - destruct P as (_ & O & _). apply (opens_all _ _ _ _ _ _ _ (HG RSat) (HG RSsat) O).
  - destruct P as (_ & [[k R]|O]); [destruct (HG k R)|exact O].
Qed.

Lemma open_refused_mm mem u rd s f s' : una_ok u -> io_bytes rd -> sane s -> mm_open_read mem u rd s = (Ok (Some f), s') ->
  refusals s s' [RSat; RSsat] /\
  opens u rd (m_trace s) (refusal s s' RSat) (refusal s s' RSsat) (mf_opened f) (m_trace s').
Proof.
  intros Hu HB Hs E. destruct (open_mm mem u rd s Hu HB (sane_fit _ Hs)) as (r' & s'' & q & E' & P).
  rewrite E in E'. apply pair_equal_spec in E' as [E1 <-]. apply Ok_inj in E1. subst r'. cbn [open_mm_post] in P.
  destruct P as (M & O & Q & _). split.
  - exists q. split; [apply M|]. intros k Hk. destruct (Q k Hk) as [->| ->]; cbn [In]; auto.
  - assert (HR : forall k, refusal s s' k <-> In (k, false) q).
    { intros k. split; [intros (q2 & Hq & Hin)|intros Hin; exists q; split; [apply M|exact Hin]].
      rewrite (proj1 (proj2 M)) in Hq. apply app_inv_head in Hq. now rewrite Hq. }
    destruct O as (m & t1 & t2 & t3 & t4 & H1 & H2 & H3 & H4 & H5 & H6). exists m, t1, t2, t3, t4.
    split; [exact H1|]. split; [exact H2|]. split; [|split; [|split; [exact H5|exact H6]]].
    + destruct H3 as [[N H3]|[R H3]]; [left|right]; (split; [rewrite HR; assumption|exact H3]).
    + destruct H4 as [[N H4]|[R H4]]; [left|right]; (split; [rewrite HR; assumption|exact H4]).
Qed.
