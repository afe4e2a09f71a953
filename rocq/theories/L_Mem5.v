(** Lemmas on opening and closing a file when requests for memory can fail: the
    whole file. *)
From Coq Require Import ZArith List Bool Lia Permutation.
From Verif Require Import Base Spec_IO Spec_Stream Spec_Load Spec_Tree Spec_Open L_Base M_Table M_Header M_Load M_Stream M_Tree
  M_Open M_Mem Spec_Mem L_Tree L_Tree2 L_Tree3 L_Header L_Load L_Load2 L_Open L_Open2 L_Free L_Mem L_Mem2 L_Mem3 L_Mem4.
Import ListNotations.
Open Scope Z_scope.

(** * The steps without failures, from any state of the I/O layer *)
Section Steps.
  Variables (u : una) (rd : reader) (h : file_header) (hdr : list Z).
  Hypothesis Hu : una_ok u.
  Hypothesis HB : io_bytes rd.
  Hypothesis HF : header_fine h.
  Let e := fh_byte_order h.
  Let ss := fh_sector_size h.

  Lemma step_msat t : zlen hdr = 109 ->
    defined (fst (read_msat rd e ss hdr (fh_msat_sector_identifier h) (fh_number_of_msat_sectors h) t)).
  Proof.
    intros Hh. destruct HF as [Hp _ Hns Hr0 _ Hsid Hnss _ _]. fold ss in Hp.
    destruct (read_msat_cases rd e ss hdr (fh_msat_sector_identifier h) (fh_number_of_msat_sectors h) t Hp Hh)
      as [H|[(H1 & H2 & H)|(H1 & H2 & H3 & ids & secs & last & H4 & H5 & H6 & H7)]].
    - rewrite H. exact I.
    - rewrite H. exact I.
    - destruct H7 as [(H7 & _)|(extra & H7 & _)]; rewrite H7; exact I.
  Qed.

  Lemma step_sat msat t : exists sat t', read_sat rd e ss msat [] (fh_number_of_sat_sectors h) t = (Ok sat, t') /\
    Forall is_u32 sat /\ zlen sat <= 33554432.
  Proof.
    destruct HF as [Hp _ Hns Hr0 _ Hsid Hnss _ _]. fold ss in Hp. pose proof (power_range ss Hp) as Hr.
    destruct (Z_lt_ge_dec ss 4) as [Hlt|Hge].
    - exists [], t. rewrite read_sat_small by lia. split; [reflexivity|]. split; [constructor|]. change (zlen (@nil Z)) with 0. lia.
    - destruct (read_sat_outcome rd e ss msat (fh_number_of_sat_sectors h) t Hp ltac:(lia)) as (sat & t2 & H1 & H2).
      destruct (sat_outcome_ok rd e ss _ _ _ _ _ ltac:(lia) HB H2) as (H3 & H4 & H5). eauto.
  Qed.

  Lemma step_ssat sat t : Forall is_u32 sat -> zlen sat <= 33554432 ->
    exists ssat t', read_ssat rd e ss sat [] (fh_ssat_sector_identifier h) (fh_number_of_ssat_sectors h) t = (Ok ssat, t').
  Proof.
    intros Us Zs. destruct HF as [Hp _ Hns Hr0 _ Hsid Hnss _ _]. fold ss in Hp. pose proof (power_range ss Hp) as Hr.
    destruct (Z_lt_ge_dec ss 4) as [Hlt|Hge].
    - destruct (read_ssat_small rd e ss sat (fh_ssat_sector_identifier h) (fh_number_of_ssat_sectors h) t) as (x & H1 & H2); eauto.
    - destruct (read_ssat_outcome rd e ss sat (fh_ssat_sector_identifier h) (fh_number_of_ssat_sectors h) t)
        as (ssat & t3 & H1 & H2); auto; [lia|unfold is_u32 in *; lia|]. eauto.
  Qed.

  Lemma step_directory sat t : Forall is_u32 sat -> zlen sat <= 33554432 ->
    defined (fst (read_directory rd e ss sat (fh_root_directory_sector_identifier h) t)) /\
    forall l t', read_directory rd e ss sat (fh_root_directory_sector_identifier h) t = (Ok l, t') -> entries_ok l.
  Proof.
    intros Us Zs. destruct HF as [Hp _ Hns Hr0 _ Hsid Hnss _ _]. fold ss in Hp. pose proof (power_range ss Hp) as Hr.
    destruct (read_directory_cases rd e ss sat (fh_root_directory_sector_identifier h) t Hp Us Zs Hr0)
      as [(d & Hd & Ld)|(H128 & Hm128 & _ & l & t4 & Hd & Od)]; rewrite Hd; (split; [exact I|]); [discriminate|].
    intros l' t' E. apply pair_equal_spec in E as [E _]. apply Ok_inj in E. subst l'.
    destruct (power_128 ss Hp Hm128) as (_ & Hss & _).
    destruct (directory_ok rd e ss _ _ _ _ _ HB ltac:(lia) Hss Od) as (El & _ & _). exact El.
  Qed.
End Steps.

Lemma header_step rd t : io_bytes rd ->
  defined (fst (header_read rd (zeros 109) t)) /\
  forall h m t', header_read rd (zeros 109) t = (Ok (h, m), t') -> header_fine h /\ zlen m = 109.
Proof.
  intros HB. unfold header_read, ibind, ilift.
  destruct (read_exact_cases rd 0 512 t) as [(data & Hd1 & Hd2 & Hd3)|[Hd _]].
  2: { rewrite Hd. split; [exact I|discriminate]. }
  rewrite Hd1. assert (Hby : Forall is_byte data) by (eapply HB; eauto).
  pose proof (header_read_data_defined data (zeros 109) eq_refl) as Hdef. split; [exact Hdef|].
  intros h m t' E. apply pair_equal_spec in E as [E _].
  destruct (header_read_data_inv data (zeros 109) h m Hby eq_refl E) as (e & Hacc & -> & ->).
  split; [apply (decoded_fine e data Hby Hacc)|]. unfold msat_of. rewrite zlen_values_from. reflexivity.
Qed.

Lemma zeros_fine k : Forall is_u32 (zeros k).
Proof. apply Forall_forall. intros x H. apply repeat_spec in H. subst. unfold is_u32. lia. Qed.

(** * Releasing *)
Definition tables_blocks (ts : list mtable) : list Z := flat_map mt_blocks ts.

Lemma tables_free_spec ts : forall s, fit s -> owns s (tables_blocks ts) ->
  exists s', tables_free ts s = (Ok tt, s') /\ m_trace s' = m_trace s /\ moved s [] (tables_blocks ts) [] s'.
Proof.
  induction ts as [|x l IH]; intros s F O; cbn [tables_free].
  - exists s. split; [reflexivity|]. split; [reflexivity|]. now apply moved_refl.
  - cbn [tables_blocks flat_map] in *. fold (tables_blocks l) in *.
    destruct (mt_free_spec x s F) as (s1 & E1 & T1 & M1); [own|]. rewrite (mbind_ok _ _ _ _ _ E1).
    destruct (IH s1 (proj1 M1)) as (s2 & E2 & T2 & M2); [own|]. exists s2. split; [exact E2|]. split; [congruence|]. weigh.
Qed.

Definition list_blocks (lst : option (Z * list melement)) : list Z :=
  match lst with Some (b, l) => els_blocks l ++ [b] | None => [] end.

Lemma on_error_spec lst ts hdr s : fit s -> owns s (list_blocks lst ++ tables_blocks ts ++ opt_list hdr) ->
  exists s', on_error lst ts hdr s = (Ok None, s') /\ m_trace s' = m_trace s /\
    moved s [] (list_blocks lst ++ tables_blocks ts ++ opt_list hdr) [] s'.
Proof.
  intros F O. unfold on_error.
  assert (HL : exists s1, (match lst with
           | Some (b, l) => dm _ <- els_free l; release b
           | None => mret tt
           end) s = (Ok tt, s1) /\ m_trace s1 = m_trace s /\ moved s [] (list_blocks lst) [] s1).
  { destruct lst as [[b l]|]; cbn [list_blocks] in *.
    - destruct (els_free_spec l s F) as (s1 & E1 & T1 & M1); [own|]. rewrite (mbind_ok _ _ _ _ _ E1).
      destruct (release_spec b s1 (proj1 M1)) as (s2 & E2 & T2 & M2); [own|]. exists s2. split; [exact E2|]. split; [congruence|]. weigh.
    - exists s. split; [reflexivity|]. split; [reflexivity|]. now apply moved_refl. }
  destruct HL as (s1 & E1 & T1 & M1). rewrite (mbind_ok _ _ _ _ _ E1).
  destruct (tables_free_spec ts s1 (proj1 M1)) as (s2 & E2 & T2 & M2); [own|]. rewrite (mbind_ok _ _ _ _ _ E2).
  destruct (release_all_spec (opt_list hdr) s2 (proj1 M2)) as (s3 & E3 & T3 & M3); [own|]. rewrite (mbind_ok _ _ _ _ _ E3).
  exists s3. split; [reflexivity|]. split; [congruence|]. weigh.
Qed.

(** * Opening *)
Definition file_blocks (f : mfile) : list Z :=
  mt_blocks (mf_msat f) ++ mt_blocks (mf_sat f) ++ mt_blocks (mf_ssat f) ++ mf_nodes f ++
  els_blocks (filter (in_tree (o_tree (mf_opened f))) (mf_entries f)).

Lemma filter_blocks g l x : (cnt (els_blocks l) x = cnt (els_blocks (filter g l)) x + cnt (els_blocks (filter (fun y => negb (g y)) l)) x)%nat.
Proof.
  induction l as [|y l IH]; [reflexivity|]. cbn [filter]. destruct (g y); cbn [negb els_blocks flat_map];
    fold (els_blocks l); fold (els_blocks (filter g l)); fold (els_blocks (filter (fun y => negb (g y)) l)); cnts; lia.
Qed.

Lemma opens_all u rd t a b o t' : ~ a -> ~ b -> opens u rd t a b o t' -> open_read u rd t = (Ok o, t').
Proof.
  intros Na Nb (m & t1 & t2 & t3 & t4 & H1 & H2 & [[_ H3]|[? _]] & [[_ H4]|[? _]] & H5 & H6); try contradiction.
  unfold open_read. change (table_initialize 109) with (Ok (zeros 109)). rewrite (ilift_step _ _ _ (zeros 109)) by reflexivity.
  erewrite ibind_step by exact H1. cbn beta iota. unfold open_tables.
  erewrite ibind_step by exact H2. rewrite (ilift_step _ _ _ []) by reflexivity.
  erewrite ibind_step by exact H3. rewrite (ilift_step _ _ _ []) by reflexivity.
  erewrite ibind_step by exact H4. erewrite ibind_step by exact H5.
  rewrite (ilift_step _ _ _ (o_tree o)) by exact H6. destruct o; reflexivity.
Qed.

(** The outcome of opening from the state [s]. *)
Definition open_mm_post (u : una) (rd : reader) (s : mst) (r : option mfile) (s' : mst) (q : list (kind * bool)) : Prop :=
  match r with
  | Some f => moved s q [] (file_blocks f) s' /\
              opens u rd (m_trace s) (In (RSat, false) q) (In (RSsat, false) q) (mf_opened f) (m_trace s') /\
              (forall k, In (k, false) q -> k = RSat \/ k = RSsat) /\
              o_entries (mf_opened f) = map el_entry (mf_entries f) /\
              o_msat (mf_opened f) = mt_vals (mf_msat f) /\ o_sat (mf_opened f) = mt_vals (mf_sat f) /\
              o_ssat (mf_opened f) = mt_vals (mf_ssat f) /\ entries_ok (o_entries (mf_opened f)) /\
              (o_tree (mf_opened f) = None -> mf_nodes f = [])
  | None => moved s q [] [] s' /\ (refused q \/ open_read u rd (m_trace s) = (Err, m_trace s'))
  end.
