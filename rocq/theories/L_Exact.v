(** Exactness of opening a file. *)
From Coq Require Import ZArith List Bool Lia ZifyBool ZifyNat Sorted.
From Verif Require Import Base Spec_IO Spec_Stream Spec_Load Spec_Open Spec_Tree L_Base M_Table M_Header M_Load
  M_Stream M_Tree M_Open L_Stream L_Load L_Load2 L_Header L_Tree L_Tree2 L_Tree3 L_Open L_Open2.
Import ListNotations.
Open Scope Z_scope.

(** * A reader of a file *)
Lemma firstn_S_nth {A} (l : list A) k x : nth_error l k = Some x -> firstn (S k) l = firstn k l ++ [x].
Proof.
  revert k. induction l as [|a l IH]; intros [|k] H; try discriminate.
  - injection H as ->. reflexivity.
  - cbn [firstn app]. f_equal. now apply IH.
Qed.

Section Static.
  Variable rd : reader.
  Variable f : list Z.
  Hypothesis HS : io_sound rd f.
  Hypothesis HT : io_total rd f.

  Lemma inside_read ss id t : 0 < ss -> sector_inside f ss id ->
    read_at rd (sector_offset id ss) ss t = (Ok (Some (sector_at f ss id)), t ++ [request ss id]) /\
    delivered rd ss id (sector_at f ss id).
  Proof.
    intros Hss Hin. destruct (HT t _ _ (request_nonneg ss id ltac:(lia)) Hss Hin) as (l & H1 & H2).
    destruct (sector_read_cases rd ss id t) as [(s & Hr & Hdl)|[_ Hr]].
    - destruct (delivered_sector rd f ss id s HS Hss Hdl) as [-> _]. auto.
    - exfalso. exact (Hr _ H1 H2).
  Qed.

  Lemma inside_read_exact ss id t : 0 < ss -> sector_inside f ss id ->
    read_exact rd (sector_offset id ss) ss t = (Ok (sector_at f ss id), t ++ [request ss id]).
  Proof.
    intros Hss Hin. destruct (inside_read ss id t Hss Hin) as [H _]. unfold read_exact, ibind. rewrite H. reflexivity.
  Qed.

  (** The directory. *)
  Lemma dir_loop_complete e ss sat N : ss = 128 * Z.of_nat N -> (1 <= N <= 256)%nat ->
    Forall is_u32 sat -> zlen sat <= 33554432 ->
    forall ids fuel acc B m id visited depth t last,
      zlen B = 128 * Z.of_nat m -> is_u32 id -> 0 <= depth <= 1025 -> Z.of_nat m <= depth * 256 ->
      1026 <= Z.of_nat fuel + depth ->
      map fields_of acc = slots_entries e B m ->
      chain_start sat id ids -> nth_sector sat id (length ids) last -> NoDup ids ->
      (forall x, In x ids -> ~ In x visited) ->
      Forall (fun id => id <> EOC /\ id <> FREE) ids -> Forall (sector_inside f ss) ids ->
      (((last = EOC \/ last = FREE) /\ zlen ids + depth <= 1025) \/
       ((In last visited \/ In last ids) /\ zlen ids + depth <= 1024)) ->
      Forall (fun i => ~ bad_slot e (sector_at f ss i) N) ids ->
      exists l, dir_loop fuel rd e ss (Z.of_nat N) sat acc (Z.of_nat m) id visited depth t
                = (Ok l, t ++ map (request ss) ids) /\
        map fields_of l = slots_entries e (B ++ bytes_of_sectors f ss ids) (m + length ids * N).
  Proof.
    intros Hss HN Hsat Hsz.
    induction ids as [|i ids IH]; intros fuel acc B m id visited depth t last HB Hid Hd Hm Hf Hacc HC HL Hnd Hv HE HI Hlast Hbad;
      (destruct fuel as [|fuel]; [exfalso; clear - Hf Hd; lia|]); cbn [dir_loop];
      change END_OF_CHAIN with EOC; change UNUSED with FREE; change MAX_DIRECTORY_DEPTH with 1024.
    - cbn [length] in HL. inversion HL; subst last. change (zlen (@nil Z)) with 0 in Hlast.
      assert (Hok : exists l, (Ok acc : res (list dirent), t) = (Ok l, t ++ map (request ss) []) /\
        map fields_of l = slots_entries e (B ++ bytes_of_sectors f ss []) (m + length (@nil Z) * N)).
      { exists acc. cbn. rewrite !app_nil_r, Nat.add_0_r. auto. }
      destruct ((id =? EOC) || (id =? FREE)) eqn:E; [exact Hok|].
      destruct Hlast as [[[->| ->] _]|[[Hin|[]] Hle]]; [discriminate|discriminate|].
      destruct (1024 <? depth) eqn:E2; [lia|].
      assert (existsb (Z.eqb id) visited = true) as -> by now apply existsb_In. exact Hok.
    - assert (i = id). { specialize (HC O i eq_refl). inversion HC. auto. } subst i.
      inversion HE as [|x y [Ha Hb] HE']; subst x y. inversion HI as [|x y Hin HI']; subst x y.
      inversion Hnd as [|x y Hni Hnd']; subst x y. inversion Hbad as [|x y Hg Hbad']; subst x y.
      rewrite zlen_cons in Hlast. pose proof (zlen_nonneg ids) as Hzn.
      destruct ((id =? EOC) || (id =? FREE)) eqn:E; [lia|].
      destruct (1024 <? depth) eqn:E2; [lia|].
      destruct (existsb (Z.eqb id) visited) eqn:E3.
      { exfalso. apply existsb_In in E3. apply (Hv id); [now left|auto]. }
      erewrite ibind_step by (apply inside_read_exact; [lia|exact Hin]).
      destruct (inside_read ss id t ltac:(lia) Hin) as [_ Hdl]. pose proof (delivered_len _ _ _ _ Hdl) as Hlen.
      rewrite Nat2Z.id.
      destruct (dir_sector_loop_eq e (sector_at f ss id) (Z.of_nat m) N ltac:(lia) ltac:(lia) ltac:(lia) N 0%nat acc ltac:(lia))
        as [[Hx _]|(_ & ds & Hde & Hds)]; [contradiction|].
      change (128 * Z.of_nat 0) with 0 in Hde. change (Z.of_nat 0) with 0 in Hde. rewrite Z.add_0_r in Hde.
      rewrite (ilift_step _ _ _ _ Hde). cbn beta iota.
      cbn [length] in HL. destruct (nth_sector_inv_cons _ _ _ _ HL) as (id' & Hn & HL').
      pose proof (znth_range _ _ _ Hn) as Hr.
      destruct (table_next_in sat id) as (z & Hz & Hz2); [lia|lia|].
      assert (z = id') by congruence. subst z.
      rewrite (ilift_step _ _ _ id') by exact Hz.
      rewrite <- Nat2Z.inj_add.
      assert (Hid' : is_u32 id') by (eapply Forall_znth; eauto).
      destruct (IH fuel (acc ++ ds) (B ++ sector_at f ss id) (m + N)%nat id' (id :: visited) (depth + 1)
                  (t ++ [request ss id]) last) as (l & Hl1 & Hl2); auto; try lia.
      + rewrite zlen_app; lia.
      + rewrite map_app, Hacc, Hds, slots_entries_app by auto. reflexivity.
      + intros k x Hx. specialize (HC (S k) x Hx). destruct (nth_sector_inv_cons _ _ _ _ HC) as (y & Hy1 & Hy2).
        congruence.
      + intros x Hx [<-|Hin']; [auto|]. apply (Hv x); [now right|auto].
      + destruct Hlast as [[? ?]|[[?|[<-|?]] ?]]; [left; split; [auto|lia]|right; split; [left; now right|lia]|
          right; split; [left; now left|lia]|right; split; [now right|lia]].
      + exists l. rewrite Hl1. cbn [map]. rewrite <- app_assoc. split; [reflexivity|].
        rewrite Hl2. cbn [length bytes_of_sectors flat_map mult]. rewrite <- app_assoc. f_equal. lia.
  Qed.

  Lemma bad_slot_sectors e ss N ids : ss = 128 * Z.of_nat N -> Forall (sector_inside f ss) ids -> 0 < ss ->
    (forall k, (k < length ids * N)%nat -> ~ long_name e (slot_of (bytes_of_sectors f ss ids) k)) ->
    Forall (fun i => ~ bad_slot e (sector_at f ss i) N) ids.
  Proof.
    intros Hss HI Hp. induction HI as [|i ids Hi HI IH]; intros H; constructor.
    - intros (k & Hk & H1 & H2). apply (H k); [cbn [length]; lia|]. cbn [bytes_of_sectors flat_map].
      destruct (inside_read ss i [] Hp Hi) as [_ Hdl]. pose proof (delivered_len _ _ _ _ Hdl) as Hlen.
      assert (Heq : slot_of (sector_at f ss i ++ bytes_of_sectors f ss ids) k = slot_of (sector_at f ss i) k).
      { unfold slot_of. rewrite slice_app_l by lia. reflexivity. }
      unfold long_name, slot_empty. unfold bytes_of_sectors in Heq. rewrite Heq. auto.
    - apply IH. intros k Hk HL. apply (H (N + k)%nat); [cbn [length]; lia|]. cbn [bytes_of_sectors flat_map].
      destruct (inside_read ss i [] Hp Hi) as [_ Hdl]. pose proof (delivered_len _ _ _ _ Hdl) as Hlen.
      assert (Heq : slot_of (sector_at f ss i ++ bytes_of_sectors f ss ids) (N + k) = slot_of (bytes_of_sectors f ss ids) k).
      { unfold slot_of. replace (128 * Z.of_nat (N + k)) with (zlen (sector_at f ss i) + 128 * Z.of_nat k) by lia.
        rewrite slice_app_r by lia. reflexivity. }
      unfold long_name, slot_empty in *. unfold bytes_of_sectors in *. rewrite Heq. auto.
  Qed.

  Lemma read_directory_complete e ss sat first t l0 :
    power_of_two ss -> 128 <= ss -> ss mod 128 = 0 -> Forall is_u32 sat -> zlen sat <= 33554432 -> is_u32 first ->
    directory e f ss sat first l0 ->
    exists l t', read_directory rd e ss sat first t = (Ok l, t') /\ map fields_of l = map fields_of l0.
  Proof.
    intros Hp H128 Hm Hsat Hsz Hf (Hne & ids & last & D1 & D2 & D3 & D4 & D5 & D6 & D7 & D8).
    destruct (power_128 ss Hp Hm) as (_ & Hss & HN). pose proof (power_range ss Hp) as Hr.
    unfold read_directory.
    destruct ((ss =? 0) || (MEMORY_MAXIMUM_ALLOCATION_SIZE <? ss) || negb (ss mod 128 =? 0)) eqn:E0.
    { change MEMORY_MAXIMUM_ALLOCATION_SIZE with 134217728 in E0. lia. }
    change END_OF_CHAIN with EOC. destruct (first =? EOC) eqn:E1; [lia|].
    set (N := Z.to_nat (ss / 128)) in *. replace (ss / 128) with (Z.of_nat N) by (unfold N; lia).
    assert (HssN : ss = 128 * Z.of_nat N) by (unfold N; lia).
    destruct (dir_loop_complete e ss sat N HssN ltac:(unfold N; lia) Hsat Hsz ids 1026 [] [] 0%nat first [] 0 t last)
      as (l & H1 & H2); auto; try reflexivity; try lia.
    - destruct D6 as [[? ?]|[? ?]]; [left; split; [auto|lia]|right; split; [auto|lia]].
    - apply (bad_slot_sectors e ss N); auto. lia.
    - exists l. eexists. split; [exact H1|]. rewrite H2, D8. reflexivity.
  Qed.

  (** The master table. *)
  Lemma msat_loop_complete e ss : 4 <= ss -> ss mod 4 = 0 ->
    forall ids fuel pre M id depth t last,
      0 <= M -> 0 <= depth <= 257 -> 258 <= Z.of_nat fuel + depth ->
      master_chain e f ss id ids last -> Forall (sector_inside f ss) ids ->
      zlen ids * (ss / 4 - 1) <= M -> 
      (last = EOC /\ zlen ids + depth <= 257 \/ M = zlen ids * (ss / 4 - 1) /\ zlen ids + depth <= 256) ->
      (ids <> [] -> 1 <= M) -> 8 <= ss ->
      msat_loop fuel rd e ss (ss / 4 - 1) (pre ++ zeros M) (zlen pre) id depth t =
        (Ok (pre ++ master_values e f ss ids ++ zeros (M - zlen ids * (ss / 4 - 1))), t ++ map (request ss) ids).
  Proof.
    intros Hss Hm4. 
    assert (HE4 : ss = 4 * (ss / 4)) by (pose proof (Z.div_mod ss 4); lia).
    set (E := ss / 4 - 1) in *.
    induction ids as [|i ids IH]; intros fuel pre M id depth t last HM Hd Hf HC HI Hle Hlast HM1 H8;
      (destruct fuel as [|fuel]; [exfalso; clear - Hf Hd; lia|]); cbn [msat_loop];
      change END_OF_CHAIN with EOC; change MAX_TABLE_DEPTH with 256.
    - inversion HC; subst. change (zlen (@nil Z)) with 0 in *.
      assert (Hok : (Ok (pre ++ zeros M), t) = (Ok (pre ++ master_values e f ss [] ++ zeros (M - 0 * E)), t ++ map (request ss) [])).
      { cbn [master_values flat_map map app]. rewrite app_nil_r. do 4 f_equal. lia. }
      destruct (last =? EOC) eqn:E0; [exact Hok|]. destruct Hlast as [[-> _]|[HM0 Hdp]]; [discriminate|].
      destruct (256 <? depth) eqn:E1; [lia|]. rewrite zlen_app, zlen_zeros by lia.
      destruct (zlen pre + M <=? zlen pre) eqn:E2; [exact Hok|lia].
    - inversion HC as [|x y z Hne HC']; subst. rewrite zlen_cons in *. pose proof (zlen_nonneg ids) as Hz.
      inversion HI as [|x y Hin HI']; subst.
      destruct (i =? EOC) eqn:E0; [lia|]. destruct (256 <? depth) eqn:E1; [lia|].
      rewrite zlen_app, zlen_zeros by lia. assert (1 <= E) by (unfold E; apply Z.le_add_le_sub_r, Z.div_le_lower_bound; lia).
      destruct (zlen pre + M <=? zlen pre) eqn:E2; [nia|].
      destruct (inside_read ss i t ltac:(lia) Hin) as [_ Hdl]. pose proof (delivered_len _ _ _ _ Hdl) as Hlen.
      erewrite ibind_step by (apply inside_read_exact; [lia|exact Hin]).
      set (s := sector_at f ss i) in *.
      rewrite (ilift_step _ _ _ _
        (msat_sector_loop_eq e s (Z.to_nat E) 0 pre M ltac:(lia) ltac:(lia) ltac:(nia))).
      cbn beta iota. rewrite (ilift_step _ _ _ (last_word e s)).
      2: { rewrite get_u32_value by lia. unfold last_word. do 2 f_equal. lia. }
      assert (Hw : values_from e s 0 (Z.to_nat E) = msat_values e s)
        by (symmetry; apply msat_values_eq; auto).
      rewrite Hw, app_assoc.
      replace (zlen pre + Z.of_nat (Z.to_nat E)) with (zlen (pre ++ msat_values e s))
        by (rewrite <- Hw, zlen_app, zlen_values_from; lia).
      rewrite (IH fuel (pre ++ msat_values e s) (M - Z.of_nat (Z.to_nat E)) (last_word e s) (depth + 1) (t ++ [request ss i]) last); auto; try lia; try nia.
      + cbn [master_values flat_map map]. rewrite <- !app_assoc. unfold msat_values. fold s. cbn [app]. do 5 f_equal.
        f_equal. nia.
      + intros Hids. destruct ids as [|i2 ids]; [congruence|]. rewrite zlen_cons in Hle. pose proof (zlen_nonneg ids). nia.
  Qed.

  Lemma read_msat_complete e ss id n t msat :
    power_of_two ss -> 128 <= ss -> 0 <= n -> 
    zlen (header_values_of e f) = 109 ->
    master_table e f ss id n msat ->
    exists t', read_msat rd e ss (header_values_of e f) id n t = (Ok msat, t').
  Proof.
    intros Hp H128 Hn Hh HM. pose proof (power_range ss Hp) as Hr. unfold read_msat.
    destruct ((ss =? 0) || (MEMORY_MAXIMUM_ALLOCATION_SIZE <? ss)) eqn:E0.
    { change MEMORY_MAXIMUM_ALLOCATION_SIZE with 134217728 in E0. lia. }
    rewrite Hh. change (109 <? 109) with false. cbn iota. change END_OF_CHAIN with EOC.
    destruct HM as [(-> & -> & ->)|(Hid & Hsz & ids & last & C1 & C2 & C3 & C4 & C5)].
    { change (EOC =? EOC) with true. change (0 =? 0) with true. cbn [andb]. eexists. reflexivity. }
    destruct (id =? EOC) eqn:E1; [lia|]. cbn [andb].
    set (m := if n =? 0 then 1 else n) in *. cbn zeta.
    assert (HE : 32 <= ss / 4) by (apply Z.div_le_lower_bound; lia).
    assert (Hm1 : 1 <= m) by (unfold m; destruct (n =? 0) eqn:X; lia).
    destruct (ss / 4 =? 0) eqn:E2; [lia|].
    assert (Htot : s32 (109 + m * (ss / 4 - 1)) = 109 + m * (ss / 4 - 1)).
    { unfold s32. rewrite Z.mod_small by (unfold TWO32; nia). cbn zeta. change INT_MAX with 2147483647.
      destruct (_ <=? _) eqn:X; lia. }
    rewrite Htot. destruct (109 <? 109 + m * (ss / 4 - 1)) eqn:E3; [|nia].
    assert (Hres : table_resize (header_values_of e f) (109 + m * (ss / 4 - 1)) = Ok (header_values_of e f ++ zeros (m * (ss / 4 - 1)))).
    { unfold table_resize. change TABLE_MAX with 33554432. destruct ((_ <? 0) || (_ <? _)) eqn:X; [nia|].
      rewrite Hh, E3. do 3 f_equal. lia. }
    rewrite (ilift_step _ _ _ _ Hres).
    pose proof (msat_loop_complete e ss ltac:(lia) (power_mod4 _ Hp ltac:(lia)) ids 258 (header_values_of e f)
                  (m * (ss / 4 - 1)) id 0 t last) as X.
    rewrite Hh in X. eexists. rewrite X; auto; try lia; try nia.
    rewrite C5. f_equal. f_equal. do 2 f_equal. f_equal. lia.
  Qed.

  (** The allocation table is determined. *)
  Lemma allocation_table_unique e ss ids n sat1 sat2 :
    allocation_table e f ss ids n sat1 -> allocation_table e f ss ids n sat2 -> sat1 = sat2.
  Proof.
    intros (k1 & A1 & A2 & A3 & A4 & ->) (k2 & B1 & B2 & B3 & B4 & ->).
    set (room := if n * (ss / 4) <=? 33554432 then n else 0) in *.
    assert (Hlt : forall a b : nat, (a < b)%nat -> Z.of_nat b <= room -> (b <= length ids)%nat ->
       Forall (sector_inside f ss) (firstn b ids) ->
       ~ (Z.of_nat a = room \/ a = length ids \/ exists id, nth_error ids a = Some id /\ ~ sector_inside f ss id)).
    { intros a b Hab Hb1 Hb2 Hb3 [H|[H|(id & H & Hn)]]; [lia|lia|]. apply Hn.
      apply (proj1 (Forall_forall _ _) Hb3). apply nth_error_In with (n := a).
      rewrite <- (firstn_skipn b ids) in H. rewrite nth_error_app1 in H; auto. rewrite firstn_length. lia. }
    destruct (Nat.lt_trichotomy k1 k2) as [H|[->|H]]; [exfalso; eapply Hlt; eauto|reflexivity|exfalso; eapply (Hlt k2 k1); eauto].
  Qed.

  Lemma chain_start_firstn sat first a b : chain_start sat first a -> chain_start sat first b ->
    forall k, (k <= length a)%nat -> (k <= length b)%nat -> firstn k a = firstn k b.
  Proof.
    intros Ha Hb. induction k as [|k IH]; intros A1 A2; [reflexivity|].
    destruct (nth_error a k) as [x|] eqn:Ex; [|apply nth_error_None in Ex; lia].
    destruct (nth_error b k) as [y|] eqn:Ey; [|apply nth_error_None in Ey; lia].
    assert (x = y) by (eapply nth_sector_fun; eauto). subst y.
    rewrite (firstn_S_nth a k x Ex), (firstn_S_nth b k x Ey), IH by lia. reflexivity.
  Qed.

  Lemma short_table_unique e ss sat first n s1 s2 :
    short_table e f ss sat first n s1 -> short_table e f ss sat first n s2 -> s1 = s2.
  Proof.
    intros (a & A1 & A2 & A3 & A4 & A5 & A6 & ->) (b & B1 & B2 & B3 & B4 & B5 & B6 & ->).
    set (room := if n * (ss / 4) <=? 33554432 then n else 0) in *.
    assert (Hlt : forall a b : list Z, (length a < length b)%nat -> zlen b <= room -> zlen b <= 257 ->
       chain_start sat first b -> Forall (fun id => id <> EOC /\ id <> FREE) b -> Forall (sector_inside f ss) b ->
       ~ (zlen a = room \/ zlen a = 257 \/
         (forall x, ~ nth_sector sat first (length a) x) \/
         exists x, nth_sector sat first (length a) x /\ (x = EOC \/ x = FREE \/ ~ sector_inside f ss x))).
    { clear. intros a b Hab H1 H2 H3 H4 H5 H. unfold zlen in *.
      destruct (nth_error b (length a)) as [y|] eqn:Ey; [|apply nth_error_None in Ey; lia].
      pose proof (nth_error_In _ _ Ey) as Hin. pose proof (H3 _ _ Ey) as Hy.
      pose proof (proj1 (Forall_forall _ _) H4 _ Hin) as [Y1 Y2].
      pose proof (proj1 (Forall_forall _ _) H5 _ Hin) as Y3.
      destruct H as [H|[H|[H|(x & Hx & H)]]]; [lia|lia|exact (H _ Hy)|].
      assert (x = y) by (eapply nth_sector_fun; eauto). subst y. tauto. }
    assert (Hl : length a = length b).
    { destruct (Nat.lt_trichotomy (length a) (length b)) as [H|[H|H]]; auto; exfalso;
        [exact (Hlt a b H B1 B2 B3 B4 B5 A6)|exact (Hlt b a H A1 A2 A3 A4 A5 B6)]. }
    assert (a = b).
    { rewrite <- (firstn_all a), <- (firstn_all b), Hl. apply (chain_start_firstn sat first); auto; lia. }
    subst b. reflexivity.
  Qed.
End Static.

(** * The links *)
Lemma find_root_first l root : find_root l = Some root <-> first_root l root.
Proof.
  induction l as [|d l IH]; cbn [find_root].
  - split; [discriminate|]. intros (_ & pre & post & H & _). destruct pre; discriminate.
  - change TYPE_ROOT_STORAGE with 5. destruct (de_type d =? 5) eqn:E.
    + split.
      * intros [= <-]. split; [lia|]. exists [], l. split; auto.
      * intros (Ht & [|p pre] & post & H & HF); injection H as -> ->; auto.
        inversion HF; subst. lia.
    + rewrite IH. split; intros (Ht & pre & post & H & HF).
      * split; auto. exists (d :: pre), post. split; [now subst|]. constructor; auto. lia.
      * split; auto. destruct pre as [|p pre]; injection H as -> ->; [lia|].
        exists pre, post. split; auto. now inversion HF.
Qed.

Lemma find_root_none l : find_root l = None -> forall root, ~ first_root l root.
Proof. intros H root Hr. apply find_root_first in Hr. congruence. Qed.

Lemma rbind_ok_iff {A B} (x : res A) (k : A -> res B) b : rbind x k = Ok b <-> exists a, x = Ok a /\ k a = Ok b.
Proof. destruct x; cbn; split; try discriminate; try (intros (a0 & H & _); discriminate); eauto.
  intros (a0 & [= <-] & H). exact H. Qed.

Lemma check_summary_ok u e d : una_ok u ->
  (check_summary_name u e d = Ok tt <-> name_comparable u e d).
Proof.
  intros Hu. unfold check_summary_name, name_comparable.
  change summary_stream_name with str_summary. change document_summary_stream_name with str_document_summary.
  pose proof (uo_utf8 u Hu str_document_summary (de_name d) e) as H1.
  pose proof (uo_utf8 u Hu str_summary (de_name d) e) as H2.
  destruct (zlen (de_name d) =? 28) eqn:E1; [|destruct (zlen (de_name d) =? 20) eqn:E2].
  - destruct (una_utf8_compare u str_document_summary (de_name d) e); try (exfalso; exact H1); cbn [rbind].
    + split; auto. intros _. split; [congruence|lia].
    + split; [discriminate|]. intros [H _]. exfalso. apply H; auto. lia.
  - destruct (una_utf8_compare u str_summary (de_name d) e); try (exfalso; exact H2); cbn [rbind].
    + split; auto. intros _. split; [lia|congruence].
    + split; [discriminate|]. intros [_ H]. exfalso. apply H; auto. lia.
  - split; auto. intros _. split; lia.
Qed.

(** A root that is not in slot 0. *)
Lemma create_tree_other u e l root : una_ok u -> entries_ok l ->
  find_root l = Some root -> de_id root <> 0 -> de_sub root <> FREE ->
  ((exists tr, create_tree u e l = Ok (Some tr)) <->
   (name_comparable u e root /\ prev_targets l root = [] /\ de_next root = FREE)).
Proof.
  intros Hu Hl Hr H0 Hs. destruct (find_root_In l root Hr) as [Hin _].
  destruct Hl as [Hnd Hall].
  pose proof (proj1 (Forall_forall _ _) Hall _ Hin) as Hb.
  destruct Hb as (Hid & Hpr & Hne & Hsu).
  assert (Hu32 : forall x, is_u32 x -> u32 (s32 x) = x).
  { intros x Hx. now apply u32_s32_id. }
  rewrite <- (check_summary_ok u e root Hu).
  unfold create_tree. destruct l as [|d0 l0]; [discriminate|]. set (l := d0 :: l0) in *. rewrite Hr.
  change UNUSED with FREE. destruct (de_sub root =? FREE) eqn:E; [lia|].
  rewrite Nat.add_comm. cbn [plus process_entry]. change UNUSED with FREE.
  rewrite (Hu32 _ Hpr), (Hu32 _ Hne).
  destruct (de_id root =? 0) eqn:E0; [lia|]. rewrite !andb_false_r.
  cbn [t_nodes nth_error n_parent].
  assert (Hpt : prev_targets l root = [] <-> (de_prev root = FREE \/ find_entry l (de_prev root) = None)).
  { unfold prev_targets. destruct (de_prev root =? FREE) eqn:Ep; [split; auto; lia|].
    pose proof (find_entry_named l (de_prev root) Hnd) as Hfn. destruct (find_entry l (de_prev root)); rewrite Hfn; split; auto; try discriminate.
    intros [?|?]; [lia|discriminate]. }
  rewrite Hpt.
  destruct (check_summary_name u e root) as [[]| | |]; cbn [rbind].
  2-4: split; [intros (tr & H); discriminate|intros [H _]; discriminate].
  destruct (de_prev root =? FREE) eqn:Ep; cbn [negb].
  - destruct (de_next root =? FREE) eqn:En; cbn [negb].
    + cbn [rbind]. split; [intros _; split; auto; split; [left; lia|lia]|intros _; eexists; reflexivity].
    + split; [|lia]. intros (tr & H). exfalso. cbn [rbind] in H.
      destruct (find_entry l (de_next root)); [|discriminate H].
      unfold process_link in H. destruct (is_set _ _); discriminate H.
  - destruct (find_entry l (de_prev root)) as [p|] eqn:Ef.
    + split; [|intros (_ & [?|?] & _); [lia|discriminate]]. intros (tr & H). exfalso.
      unfold process_link in H. destruct (is_set _ _); discriminate H.
    + cbn [rbind]. destruct (de_next root =? FREE) eqn:En; cbn [negb].
      * split; [intros _; split; auto; split; [auto|lia]|intros _; eexists; reflexivity].
      * split; [|lia]. intros (tr & H). exfalso. cbn [rbind] in H.
        destruct (find_entry l (de_next root)); [|discriminate H].
        unfold process_link in H. destruct (is_set _ _); discriminate H.
Qed.

Lemma links_ok_exact u e l : una_ok u -> entries_ok l ->
  ((exists o, create_tree u e l = Ok o) <-> links_ok u e l).
Proof.
  intros Hu Hl. destruct l as [|d0 l0].
  { split; [now left|intros _; eexists; reflexivity]. }
  set (l := d0 :: l0) in *.
  destruct (find_root l) as [root|] eqn:Er.
  2: { split.
       - intros (o & H). unfold create_tree in H. unfold l in H, Er. rewrite Er in H. discriminate.
       - intros [H|(root & H & _)]; [discriminate|]. exfalso. eapply find_root_none; eauto. }
  assert (Huniq : forall r, first_root l r -> r = root) by (intros r H; apply find_root_first in H; congruence).
  destruct (Z.eq_dec (de_sub root) FREE) as [Es|Es].
  { split; [intros _; right; exists root; split; [now apply find_root_first|auto]|].
    intros _. exists None. unfold create_tree. unfold l in Er |- *. rewrite Er. change UNUSED with FREE.
    rewrite Es. reflexivity. }
  assert (Hsome : forall o, create_tree u e l = Ok o -> exists tr, o = Some tr).
  { intros o H. unfold create_tree in H. unfold l in H, Er. rewrite Er in H. change UNUSED with FREE in H.
    destruct (de_sub root =? FREE) eqn:E; [lia|]. apply rbind_ok_iff in H as (st & _ & H). injection H as <-. eauto. }
  destruct (Z.eq_dec (de_id root) 0) as [E0|E0].
  - pose proof (create_tree_exact u e l root Hu Hl Er E0 Es) as HX. split.
    + intros (o & H). destruct (Hsome o H) as (tr & ->). right. exists root. split; [now apply find_root_first|].
      right; left. split; auto. apply HX. eauto.
    + intros [H|(r & Hr & H)]; [discriminate|]. rewrite (Huniq r Hr) in H.
      destruct H as [H|[(_ & H)|(H & _)]]; [lia| |lia]. apply HX in H as (tr & H). eauto.
  - pose proof (create_tree_other u e l root Hu Hl Er E0 Es) as HX. split.
    + intros (o & H). destruct (Hsome o H) as (tr & ->). right. exists root. split; [now apply find_root_first|].
      right; right. split; auto. apply HX. eauto.
    + intros [H|(r & Hr & H)]; [discriminate|]. rewrite (Huniq r Hr) in H.
      destruct H as [H|[(H & _)|(_ & H)]]; [lia|lia|]. apply HX in H as (tr & H). eauto.
Qed.

(** * Opening *)

Lemma fields_of_inj : forall a b, fields_of a = fields_of b -> a = b.
Proof. intros [] [] H. unfold fields_of in H. cbn in H. injection H; intros; subst. reflexivity. Qed.
Lemma map_fields_inj : forall a b, map fields_of a = map fields_of b -> a = b.
Proof.
  induction a as [|x a IH]; intros [|y b] H; try discriminate; auto.
  cbn [map] in H. inversion H as [[H1 H2]]. f_equal; [|apply IH; assumption]. apply fields_of_inj. change (hd (fields_of x) (map fields_of (x :: a)) = hd (fields_of x) (map fields_of (y :: b))). cbn [map]. now rewrite H.
Qed.

Section Exact.
  Variable u : una.
  Variable rd : reader.
  Variable f : list Z.
  Hypothesis Hu : una_ok u.
  Hypothesis HB : io_bytes rd.
  Hypothesis HS : io_sound rd f.
  Hypothesis HT : io_total rd f.

  Lemma room_spec ss n : 4 <= ss -> 0 <= n -> n * (ss / 4) < 2147483648 ->
    table_sectors ss n = if n * (ss / 4) <=? 33554432 then n else 0.
  Proof.
    intros H1 H2 H3. destruct (room_cases ss n H1 H2) as (_ & R1 & R2).
    destruct (_ <=? _) eqn:E; [apply R1; lia|apply R2; lia].
  Qed.

  Lemma sat_outcome_says e ss ids n t sat t' : 4 <= ss -> 0 <= n -> n * (ss / 4) < 2147483648 ->
    sat_outcome rd e ss ids (table_sectors ss n) t sat t' -> allocation_table e f ss ids n sat.
  Proof.
    intros H1 H2 H3 (k & secs & K1 & K2 & K3 & K4 & K5). rewrite (room_spec ss n) in * by auto.
    exists k. cbn zeta. destruct (delivered_sectors rd f ss _ _ HS ltac:(lia) K3) as [Hs Hin]. rewrite Hs, sector_words_file in K4.
    split; auto. split; auto. split; auto. split; auto.
    destruct K5 as [[[K5|K5] _]|(id & _ & K5 & K6 & _)]; auto. right; right. exists id. split; auto.
    eapply refused_outside; eauto. lia.
  Qed.

  Lemma ssat_outcome_says e ss sat first n t ssat t' : 4 <= ss -> 0 <= n -> n * (ss / 4) < 2147483648 ->
    ssat_outcome rd e ss sat first n (table_sectors ss n) t ssat t' -> short_table e f ss sat first n ssat.
  Proof.
    intros H1 H2 H3 (ids & secs & extra & K1 & _ & K3 & K4 & K5 & K6 & K7 & K8 & K9).
    pose proof (room_spec ss n H1 H2 H3) as Hroom. rewrite Hroom in *.
    exists ids. cbn zeta. destruct (delivered_sectors rd f ss _ _ HS ltac:(lia) K3) as [Hs Hin].
    rewrite Hs, sector_words_file in K1.
    split; auto. split; [rewrite zlen_app in K8; pose proof (zlen_nonneg extra); lia|].
    split; auto. split; auto. split; auto. split; [|exact K1].
    destruct K9 as [K9|[K9|[K9|[(x & K9 & K10)|K9]]]]; auto.
    - left. destruct (_ <=? _) in *; lia.
    - right; right; right. exists x. split; auto. destruct K10 as [?|[?|K10]]; auto. right; right.
      eapply refused_outside; eauto. lia.
  Qed.

  Lemma open_says o t : open_read u rd [] = (Ok o, t) -> moderate (o_header o) ->
    file_says f (o_header o) (o_msat o) (o_sat o) (o_ssat o) (o_entries o) /\
    links_ok u (fh_byte_order (o_header o)) (o_entries o) /\
    create_tree u (fh_byte_order (o_header o)) (o_entries o) = Ok (o_tree o).
  Proof.
    intros HO (M1 & M2 & M3).
    pose proof (opened_tree u rd Hu HB o t HO) as Htree.
    pose proof (opened_entries u rd Hu HB o t HO) as (El & _).
    destruct (opened_header u rd Hu HB o t HO) as (HF & Hss & Hss128).
    split; [|split; [apply links_ok_exact; eauto|auto]].
    pose proof (opened_msat u rd Hu HB o t HO f HS) as HM.
    destruct (opened_outcome u rd Hu HB o t HO) as (data & e & Hd & Hl & Hby & Hacc & Hh & Hout).
    destruct (HS [] 0 512 data ltac:(lia) ltac:(lia) Hd Hl) as [_ Hdata].
    assert (He : fh_byte_order (o_header o) = e) by now rewrite Hh.
    destruct Hout as (_ & _ & _ & t1 & t2 & t3 & Om & Osat & Ossat & Odir & _). rewrite <- Hh in *.
    cbn zeta in HM. unfold file_says. rewrite He in *. fold (header_values_of e f) in HM. rewrite <- Hdata.
    split; auto. split; [now rewrite Hh at 1|]. split; [lia|].
    split; [|split; [|split]].
    - destruct HM as [HM|(Hid & HM)]; [left; exact HM|]. right. split; auto. cbn zeta.
      set (m := if fh_number_of_msat_sectors (o_header o) =? 0 then 1 else fh_number_of_msat_sectors (o_header o)) in *.
      assert (Hm : m <= Z.max 1 (fh_number_of_msat_sectors (o_header o))) by (unfold m; destruct (_ =? 0); lia).
      assert (HE : 32 <= fh_sector_size (o_header o) / 4) by (apply Z.div_le_lower_bound; lia).
      destruct HM as (HM1 & ids & last & C1 & C2 & C3 & C4 & C5); [nia|].
      split; auto. exists ids, last. split; auto.
      split; [|split; [auto|split; [destruct C5 as [C5|C5]; [left; auto|right; auto]|exact C4]]].
      (* the sectors are inside *)
      destruct Om as [(X & _)|(_ & _ & _ & ids' & secs & last' & D1 & D2 & D3 & D4 & D5 & D6 & D7)]; [congruence|].
      destruct (delivered_sectors rd f (fh_sector_size (o_header o)) _ _ HS ltac:(lia) D2) as [Hsecs Hin]. subst secs.
      apply master_chain_file in D1.
      assert (Hpre : forall a la b lb first, master_chain e f (fh_sector_size (o_header o)) first a la ->
                master_chain e f (fh_sector_size (o_header o)) first b lb -> (length a <= length b)%nat -> a = firstn (length a) b).
      { clear. induction a as [|x a IH]; intros la b lb first H1 H2 Hle; [reflexivity|].
        inversion H1; subst. destruct b as [|y b]; [cbn in Hle; lia|]. inversion H2; subst.
        cbn [length firstn]. f_equal. eapply IH; eauto. cbn in Hle. lia. }
      destruct (Nat.le_gt_cases (length ids) (length ids')) as [Hle|Hgt].
      + rewrite (Hpre _ _ _ _ _ C1 D1 Hle). apply Forall_forall. intros x Hx.
        apply (proj1 (Forall_forall _ _) Hin). rewrite <- (firstn_skipn (length ids) ids'). apply in_or_app. now left.
      + (* ids' is a proper prefix: then it ended at EOC or at the count *)
        exfalso. set (E := fh_sector_size (o_header o) / 4 - 1) in *.
        assert (Hm1 : 1 <= m).
        { unfold m. pose proof (hf_nmsat _ HF) as X. unfold is_u32 in X. destruct (_ =? 0) eqn:Y; lia. }
        assert (HmE : 0 <= m * E) by (unfold E; nia).
        assert (Htot : msat_total (fh_sector_size (o_header o)) (fh_number_of_msat_sectors (o_header o)) = 109 + m * E).
        { unfold msat_total. fold m E. unfold s32. rewrite Z.mod_small by (unfold TWO32; lia). cbn zeta.
          change INT_MAX with 2147483647. destruct (_ <=? _) eqn:X; lia. }
        assert (HE1 : 31 <= E) by (unfold E; lia). clearbody E.
        rewrite Htot in D6, D7. assert (Hmax : Z.max 0 (109 + m * E - 109) = m * E) by lia.
        rewrite Hmax in D6, D7.
        unfold zlen in *.
        destruct D7 as [D7|[D7 _]]; [|nia].
        assert (Hnext : forall a la b lb first, master_chain e f (fh_sector_size (o_header o)) first a la ->
                master_chain e f (fh_sector_size (o_header o)) first b lb -> (length a < length b)%nat -> la <> EOC).
        { clear. induction a as [|x a IH]; intros la b lb first H1 H2 Hlt.
          - inversion H1; subst. destruct b; [cbn in Hlt; lia|]. inversion H2; subst. auto.
          - inversion H1; subst. destruct b as [|y b]; [cbn in Hlt; lia|]. inversion H2; subst.
            eapply IH; eauto. cbn in Hlt. lia. }
        exact (Hnext _ _ _ _ _ D1 C1 Hgt D7).
    - pose proof (hf_nsat _ HF) as X. unfold is_u32 in X.
      eapply sat_outcome_says; eauto; lia.
    - pose proof (hf_nssat _ HF) as X. unfold is_u32 in X.
      eapply ssat_outcome_says; eauto; lia.
    - assert (Hne : fh_root_directory_sector_identifier (o_header o) <> EOC \/ fh_root_directory_sector_identifier (o_header o) = EOC) by lia.
      pose proof (opened_directory u rd Hu HB o t HO f HS) as HD. cbn zeta in HD. rewrite He in HD.
      destruct HD as (ids & last & D1 & D2 & D3 & D4 & D5 & D6 & D7 & D8).
      split.
      { (* open_read refuses the end of chain value *)
        destruct Hne as [Hne|Heq]; auto. exfalso.
        clear - HO Heq Hu HB Hh Hd Hl Hby Hacc.
        unfold open_read in HO. change (table_initialize 109) with (Ok (zeros 109)) in HO.
        rewrite (ilift_step _ _ _ (zeros 109)) in HO by reflexivity.
        assert (Hstep : header_read rd (zeros 109) [] = (Ok (decoded e data, msat_of e data), [] ++ [(0, 512)])).
        { unfold header_read, ibind. destruct (read_exact_cases rd 0 512 []) as [(d' & X1 & X2 & X3)|[_ X]].
          - assert (d' = data) by congruence. subst d'. rewrite X1.
            rewrite (header_read_data_ok e data (zeros 109) Hby eq_refl Hacc). reflexivity.
          - exfalso. exact (X _ Hd Hl). }
        rewrite (ibind_step _ _ _ _ _ Hstep) in HO. cbn beta iota in HO. rewrite <- Hh in HO.
        unfold open_tables in HO.
        repeat match type of HO with
        | ibind ?m ?k ?t = _ =>
            let r := fresh "r" in let tt := fresh "t" in
            unfold ibind at 1 in HO; destruct (m t) as [[r| | |] tt] eqn:?; try discriminate HO
        end.
        match goal with H : read_directory _ _ _ _ _ _ = (Ok _, _) |- _ => rename H into HD end.
        unfold read_directory in HD. rewrite Heq in HD. destruct (_ || _ || _) in HD; discriminate HD. }
      exists ids, last. split; auto. split; auto. split; auto. split; auto.
      split; [|split; [|split; auto]].
      + destruct Odir as (ids' & secs & last' & _ & E2 & E3 & E4 & _ & E6 & E7 & E8 & _ & E10).
        destruct (delivered_sectors rd f (fh_sector_size (o_header o)) _ _ HS ltac:(lia) E2) as [_ Hin].
        pose proof (chain_start_firstn _ _ ids ids' D1 ltac:(eassumption)) as Hidx.
        destruct (Nat.le_gt_cases (length ids) (length ids')) as [Hle|Hgt].
        * rewrite <- (firstn_all ids), Hidx by lia. apply Forall_forall. intros x Hx.
          apply (proj1 (Forall_forall _ _) Hin). rewrite <- (firstn_skipn (length ids) ids'). apply in_or_app. now left.
        * exfalso. destruct (nth_error ids (length ids')) as [x|] eqn:Ex; [|apply nth_error_None in Ex; lia].
          assert (x = last') by (eapply nth_sector_fun; eauto). subst x.
          pose proof (nth_error_In _ _ Ex) as Hix.
          pose proof (proj1 (Forall_forall _ _) D4 _ Hix) as [Y1 Y2].
          destruct E8 as [?|[?|[E8 _]]]; [congruence|congruence|].
          rewrite <- (firstn_all ids') in E8. rewrite <- Hidx in E8 by lia.
          apply In_nth_error in E8 as (j & Hj).
          assert (Hj2 : nth_error ids j = Some last').
          { rewrite <- (firstn_skipn (length ids') ids). rewrite nth_error_app1; auto.
            apply nth_error_Some. congruence. }
          assert (Hjl : (j < length (firstn (length ids') ids))%nat) by (apply nth_error_Some; congruence).
          rewrite firstn_length in Hjl.
          assert (j = length ids'); [|lia].
          apply (proj1 (NoDup_nth_error ids) D2); [lia|congruence].
      + destruct D6 as [->|[->|[D6 D6']]]; auto.
  Qed.

  Lemma says_open h msat sat ssat l : file_says f h msat sat ssat l -> moderate h ->
    links_ok u (fh_byte_order h) l ->
    exists o t, open_read u rd [] = (Ok o, t) /\
      o_header o = h /\ o_msat o = msat /\ o_sat o = sat /\ o_ssat o = ssat /\ o_entries o = l.
  Proof.
    intros (Hacc & Hh & H128 & HM & HA & HSS & HD) (M1 & M2 & M3) HL.
    assert (H512 : 512 <= zlen f).
    { destruct Hacc as (Hx & _). unfold zlen, slice in Hx |- *. rewrite firstn_length, skipn_length in Hx. lia. }
    set (e := fh_byte_order h) in *. set (ss := fh_sector_size h) in *.
    unfold open_read. change (table_initialize 109) with (Ok (zeros 109)).
    rewrite (ilift_step _ _ _ (zeros 109)) by reflexivity.
    destruct (HT [] 0 512 ltac:(lia) ltac:(lia) ltac:(lia)) as (data & Hd & Hl).
    destruct (HS [] 0 512 data ltac:(lia) ltac:(lia) Hd Hl) as [_ Hdata]. rewrite <- Hdata in Hacc, Hh.
    assert (Hby : Forall is_byte data) by (eapply HB; eauto).
    assert (Hstep : header_read rd (zeros 109) [] = (Ok (decoded e data, msat_of e data), [] ++ [(0, 512)])).
    { unfold header_read, ibind. destruct (read_exact_cases rd 0 512 []) as [(d' & X1 & X2 & X3)|[_ X]].
      - assert (d' = data) by congruence. subst d'. rewrite X1.
        rewrite (header_read_data_ok e data (zeros 109) Hby eq_refl Hacc). reflexivity.
      - exfalso. exact (X _ Hd Hl). }
    rewrite (ibind_step _ _ _ _ _ Hstep). cbn beta iota. rewrite <- Hh.
    pose proof (decoded_fine e data Hby Hacc) as HF. rewrite <- Hh in HF.
    pose proof (hf_ss _ HF) as Hp. fold ss in Hp. pose proof (power_range ss Hp) as Hr.
    assert (Hhv : msat_of e data = header_values_of e f) by (unfold header_values_of; rewrite <- Hdata; reflexivity).
    rewrite Hhv. unfold open_tables. fold e ss.
    assert (Hm128 : ss mod 128 = 0).
    { destruct Hp as (a & Ha & Hpa). rewrite Hpa in H128 |- *.
      assert (7 <= a).
      { destruct (Z_lt_ge_dec a 7) as [Hlt|]; [|lia]. assert (2 ^ a <= 2 ^ 6) by (apply Z.pow_le_mono_r; lia).
        change (2 ^ 6) with 64 in *. lia. }
      replace a with (a - 7 + 7) by lia. rewrite Z.pow_add_r by lia. change (2 ^ 7) with 128. apply Z_mod_mult. }
    assert (Hlen : zlen (header_values_of e f) = 109) by reflexivity.
    pose proof (hf_nmsat _ HF) as Xn. unfold is_u32 in Xn.
    destruct (read_msat_complete rd f HS HT e ss _ _ ([] ++ [(0, 512)]) msat Hp H128 ltac:(apply Xn) Hlen HM) as (t1 & R1).
    rewrite (ibind_step _ _ _ _ _ R1). rewrite (ilift_step _ _ _ []) by reflexivity.
    destruct (read_sat_outcome rd e ss msat (fh_number_of_sat_sectors h) t1 Hp ltac:(lia)) as (sat' & t2 & R2 & O2).
    destruct (sat_outcome_ok rd e ss _ _ _ _ _ ltac:(lia) HB O2) as (U1 & _ & U2).
    pose proof (hf_nsat _ HF) as Xs. unfold is_u32 in Xs.
    apply sat_outcome_says in O2; [|lia|lia|exact M2].
    assert (sat' = sat) by (eapply allocation_table_unique; eauto). subst sat'.
    rewrite (ibind_step _ _ _ _ _ R2). rewrite (ilift_step _ _ _ []) by reflexivity.
    pose proof (hf_ssat _ HF) as Xi. pose proof (hf_nssat _ HF) as Xk. unfold is_u32 in Xk.
    destruct (read_ssat_outcome rd e ss sat (fh_ssat_sector_identifier h) (fh_number_of_ssat_sectors h) t2)
        as (ssat' & t3 & R3 & O3); auto; try lia.
    apply ssat_outcome_says in O3; [|lia|lia|exact M3].
    assert (ssat' = ssat) by (eapply short_table_unique; eauto). subst ssat'.
    rewrite (ibind_step _ _ _ _ _ R3).
    destruct (read_directory_complete rd f HS HT e ss sat _ t3 l Hp H128 Hm128 U1 U2 (hf_root _ HF) HD) as (l' & t4 & R4 & Hf).
    apply map_fields_inj in Hf. subst l'.
    rewrite (ibind_step _ _ _ _ _ R4).
    assert (El : entries_ok l).
    { destruct (read_directory_cases rd e ss sat (fh_root_directory_sector_identifier h) t3 Hp U1 U2 (hf_root _ HF))
        as [(x & Hx & _)|(_ & _ & _ & l2 & t5 & Hx & Ox)]; [congruence|].
      assert (l2 = l) by congruence. subst l2. destruct (power_128 ss Hp Hm128) as (_ & Hss & _).
      eapply directory_ok; eauto. lia. }
    apply (links_ok_exact u e l Hu El) in HL as (tr & HL).
    rewrite (ilift_step _ _ _ tr) by exact HL.
    eexists. eexists. split; [reflexivity|]. cbn. auto 6.
  Qed.
End Exact.
