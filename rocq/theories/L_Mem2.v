(** Lemmas on opening a file when requests for memory can fail: the tables. *)
From Coq Require Import ZArith List Bool Lia Permutation.
From Verif Require Import Base Spec_IO Spec_Stream Spec_Load Spec_Tree Spec_Open L_Base M_Table M_Header M_Load M_Stream M_Tree
  M_Open M_Mem L_Tree L_Tree2 L_Tree3 L_Header L_Load L_Open L_Open2 L_Free L_Mem.
Import ListNotations.
Open Scope Z_scope.

Definition of_kind (k : kind) (q : list (kind * bool)) : Prop := forall k' b, In (k', b) q -> k' = k.

Lemma of_kind_nil k : of_kind k [].
Proof. intros k' b []. Qed.
Lemma of_kind_one k b : of_kind k [(k, b)].
Proof. intros k' b' [[= <- _]|[]]. reflexivity. Qed.
Lemma of_kind_app k q q' : of_kind k q -> of_kind k q' -> of_kind k (q ++ q').
Proof. intros A B k' b H. apply in_app_or in H as [H|H]; eauto. Qed.

Lemma mt_initialize_spec mem n s : 0 <= n <= TABLE_MAX -> fit s ->
  exists r s' q, mt_initialize mem n s = (Ok r, s') /\ m_trace s' = m_trace s /\ of_kind RTable q /\
    match r with
    | Some t => moved s q [] (mt_blocks t) s' /\ mt_vals t = zeros n /\ granted q
    | None => moved s q [] [] s' /\ refused q
    end.
Proof.
  intros Hn F. unfold mt_initialize, table_initialize.
  destruct (n <? 0) eqn:E1; [lia|]. destruct (TABLE_MAX <? n) eqn:E2; [lia|]. cbn [orb].
  destruct (alloc_spec mem RTable s F) as (r & s1 & A1 & T1 & M1). rewrite (mbind_ok _ _ _ _ _ A1).
  destruct r as [p|].
  2: { exists None, s1, [(RTable, false)]. split; [reflexivity|]. split; [exact T1|]. split; [apply of_kind_one|]. split; [exact M1|apply refused_one]. }
  destruct (0 <? n).
  - destruct (alloc_spec mem RTable s1 (proj1 M1)) as (r & s2 & A2 & T2 & M2). rewrite (mbind_ok _ _ _ _ _ A2). destruct r as [b|].
    + eexists. exists s2, ([(RTable, true)] ++ [(RTable, true)]). split; [reflexivity|]. split; [congruence|].
      split; [apply of_kind_app; apply of_kind_one|].
      split; [|split; [reflexivity|apply granted_app; apply granted_one]].
      eapply (moved_trans _ _ _ _ _ _ _ _ _ _ _ M1 M2). intros x. unfold mt_blocks. cbn [mt_ids mt_struct opt_list]. cnts. lia.
    + destruct (release_spec p s2 (proj1 M2)) as (s3 & A3 & T3 & M3).
      { eapply moved_keeps; [exact M2|]. intros x. destruct M1 as (_ & _ & C1). specialize (C1 x). cnts. lia. }
      rewrite (mbind_ok _ _ _ _ _ A3). exists None, s3, (([(RTable, true)] ++ [(RTable, false)]) ++ []).
      split; [reflexivity|]. split; [congruence|]. split; [apply of_kind_app; [apply of_kind_app; apply of_kind_one|apply of_kind_nil]|].
      split; [|apply refused_l, refused_r, refused_one].
      eapply moved_trans; [eapply (moved_trans _ _ _ _ _ _ _ _ _ [] [p] M1 M2)|exact M3|].
      * intros x. cnts. lia.
      * intros x. cnts. lia.
  - eexists. exists s1, [(RTable, true)]. split; [reflexivity|]. split; [exact T1|]. split; [apply of_kind_one|].
    split; [|split; [reflexivity|apply granted_one]].
    unfold mt_blocks. cbn [mt_ids mt_struct opt_list app]. exact M1.
Qed.

Lemma mt_free_spec t s : fit s -> owns s (mt_blocks t) ->
  exists s', mt_free t s = (Ok tt, s') /\ m_trace s' = m_trace s /\ moved s [] (mt_blocks t) [] s'.
Proof. apply release_all_spec. Qed.

Lemma mt_resize_spec mem k t n s : fit s -> owns s (mt_blocks t) ->
  exists ok t1 s' q, mt_resize mem k t n s = (Ok (ok, t1), s') /\ m_trace s' = m_trace s /\ of_kind k q /\
    moved s q (mt_blocks t) (mt_blocks t1) s' /\
    if ok then table_resize (mt_vals t) n = Ok (mt_vals t1) /\ granted q
    else mt_vals t1 = mt_vals t /\ ((granted q /\ table_resize (mt_vals t) n = Err) \/ refused q).
Proof.
  intros F O. unfold mt_resize.
  assert (Same : moved s [] (mt_blocks t) (mt_blocks t) s).
  { split; [exact F|]. split; [now rewrite app_nil_r|]. intros x. lia. }
  assert (HR : table_resize (mt_vals t) n = Err \/ table_resize (mt_vals t) n =
               if zlen (mt_vals t) <? n then Ok (mt_vals t ++ zeros (n - zlen (mt_vals t))) else Ok (mt_vals t)).
  { unfold table_resize. destruct (_ || _); [left; reflexivity|]. right. reflexivity. }
  destruct HR as [E|E].
  { exists false, t, s, []. rewrite E. split; [reflexivity|]. split; [reflexivity|]. split; [apply of_kind_nil|]. split; [exact Same|].
    split; [reflexivity|]. left. split; [apply granted_nil|reflexivity]. }
  rewrite E. destruct (zlen (mt_vals t) <? n).
  2: { exists true, t, s, []. split; [reflexivity|]. split; [reflexivity|]. split; [apply of_kind_nil|]. split; [exact Same|].
       split; [reflexivity|apply granted_nil]. }
  destruct (alloc_spec mem k s F) as (r & s1 & A1 & T1 & M1). rewrite (mbind_ok _ _ _ _ _ A1). destruct r as [b|].
  - destruct (release_all_spec (opt_list (mt_ids t)) s1 (proj1 M1)) as (s2 & A2 & T2 & M2).
    { eapply moved_keeps; [exact M1|]. intros x. specialize (O x). unfold mt_blocks in O. cnts. lia. }
    rewrite (mbind_ok _ _ _ _ _ A2). eexists true, _, s2, ([(k, true)] ++ []). split; [reflexivity|]. split; [congruence|].
    split; [apply of_kind_app; [apply of_kind_one|apply of_kind_nil]|].
    split; [|split; [reflexivity|apply granted_app; [apply granted_one|apply granted_nil]]].
    eapply (moved_trans _ _ _ _ _ _ _ _ _ _ _ M1 M2). intros x. unfold mt_blocks. cbn [mt_ids mt_struct opt_list]. cnts. lia.
  - exists false, t, s1, [(k, false)]. split; [reflexivity|]. split; [exact T1|]. split; [apply of_kind_one|].
    split; [|split; [reflexivity|right; apply refused_one]].
    destruct M1 as (F1 & R1 & C1). split; [exact F1|]. split; [exact R1|]. intros x. specialize (C1 x). cnts. lia.
Qed.

Definition grown (vals : list Z) (n : Z) : res (list Z) :=
  if zlen vals <? n then table_resize vals n else Ok vals.

Lemma grown_cases vals n : grown vals n = Err \/ exists k, grown vals n = Ok (vals ++ zeros k) /\ (zlen vals <= TABLE_MAX -> zlen (vals ++ zeros k) <= TABLE_MAX).
Proof.
  unfold grown, table_resize. destruct (zlen vals <? n) eqn:E.
  - destruct ((n <? 0) || (TABLE_MAX <? n)) eqn:E2; [left; reflexivity|]. right. exists (n - zlen vals). split; [reflexivity|].
    intros _. rewrite zlen_app, zlen_zeros by lia. lia.
  - right. exists 0. change (zeros 0) with (@nil Z). rewrite app_nil_r. auto.
Qed.

Lemma with_table_spec mem k t n load s : fit s -> owns s (mt_blocks t) ->
  (forall vals, grown (mt_vals t) n = Ok vals -> defined (fst (load vals (m_trace s)))) ->
  exists ok t1 s' q, with_table mem k t n load s = (Ok (ok, t1), s') /\ of_kind k q /\
    moved s q (mt_blocks t) (mt_blocks t1) s' /\
    if ok then exists vals, grown (mt_vals t) n = Ok vals /\ load vals (m_trace s) = (Ok (mt_vals t1), m_trace s') /\ granted q
    else (granted q /\ grown (mt_vals t) n = Err /\ m_trace s' = m_trace s /\ mt_vals t1 = mt_vals t) \/
         (granted q /\ exists vals, grown (mt_vals t) n = Ok vals /\ load vals (m_trace s) = (Err, m_trace s')) \/
         (refused q /\ m_trace s' = m_trace s /\ (mt_vals t1 = mt_vals t \/ grown (mt_vals t) n = Ok (mt_vals t1))).
Proof.
  intros F O HL. unfold with_table.
  assert (HG : exists ok t1 s1 q, (if zlen (mt_vals t) <? n then mt_resize mem k t n else mret (true, t)) s = (Ok (ok, t1), s1) /\
     m_trace s1 = m_trace s /\ of_kind k q /\ moved s q (mt_blocks t) (mt_blocks t1) s1 /\
     if ok then grown (mt_vals t) n = Ok (mt_vals t1) /\ granted q
     else mt_vals t1 = mt_vals t /\ ((granted q /\ grown (mt_vals t) n = Err) \/ refused q)).
  { unfold grown. destruct (zlen (mt_vals t) <? n); [apply mt_resize_spec; auto|].
    exists true, t, s, []. split; [reflexivity|]. split; [reflexivity|]. split; [apply of_kind_nil|].
    split; [|split; [reflexivity|apply granted_nil]]. split; [exact F|]. split; [now rewrite app_nil_r|]. intros x. lia. }
  destruct HG as (ok & t1 & s1 & q1 & E1 & T1 & K1 & M1 & H1). rewrite (mbind_ok _ _ _ _ _ E1). cbn beta iota.
  destruct ok; cbn [negb].
  2: { exists false, t1, s1, q1. split; [reflexivity|]. split; [exact K1|]. split; [exact M1|].
       destruct H1 as (V & [(G & E)|R]); [left; auto|]. right. right. auto. }
  destruct H1 as (V1 & G1).
  destruct (alloc_spec mem k s1 (proj1 M1)) as (r & s2 & E2 & T2 & M2). rewrite (mbind_ok _ _ _ _ _ E2). destruct r as [b|].
  2: { exists false, t1, s2, (q1 ++ [(k, false)]). split; [reflexivity|]. split; [apply of_kind_app; [exact K1|apply of_kind_one]|].
       split; [eapply (moved_trans _ _ _ _ _ _ _ _ _ _ _ M1 M2); intros x; cnts; lia|].
       right. right. split; [apply refused_r, refused_one|]. split; [congruence|]. right. exact V1. }
  specialize (HL _ V1). rewrite <- T1, <- T2 in HL. destruct (load (mt_vals t1) (m_trace s2)) as [r t3] eqn:EL. cbn [fst] in HL.
  destruct (mio_spec _ s2 r t3 (proj1 M2) EL HL) as (o & s3 & E3 & T3 & M3 & H3). rewrite (mbind_ok _ _ _ _ _ E3).
  destruct (release_spec b s3 (proj1 M3)) as (s4 & E4 & T4 & M4).
  { eapply moved_keeps; [exact M3|]. intros x. destruct M2 as (_ & _ & C2). specialize (C2 x). cnts. lia. }
  rewrite (mbind_ok _ _ _ _ _ E4). rewrite T2, T1 in EL.
  assert (M : moved s (((q1 ++ [(k, true)]) ++ []) ++ []) (mt_blocks t) (mt_blocks t1) s4).
  { weigh. }
  assert (K : of_kind k (((q1 ++ [(k, true)]) ++ []) ++ [])).
  { apply of_kind_app; [apply of_kind_app; [apply of_kind_app; [exact K1|apply of_kind_one]|]|]; apply of_kind_nil. }
  assert (G : granted (((q1 ++ [(k, true)]) ++ []) ++ [])).
  { apply granted_app; [apply granted_app; [apply granted_app; [exact G1|apply granted_one]|]|]; apply granted_nil. }
  destruct o as [vals|]; subst r.
  - eexists true, _, s4, _. split; [reflexivity|]. split; [exact K|]. split; [exact M|]. exists (mt_vals t1).
    split; [exact V1|]. split; [|exact G]. cbn [set_vals mt_vals]. rewrite T4, T3. exact EL.
  - eexists false, _, s4, _. split; [reflexivity|]. split; [exact K|]. split; [exact M|]. right. left. split; [exact G|].
    exists (mt_vals t1). split; [exact V1|]. rewrite T4, T3. exact EL.
Qed.

Lemma read_msat_mm mem rd e ss t id n s : fit s -> owns s (mt_blocks t) ->
  defined (fst (read_msat rd e ss (mt_vals t) id n (m_trace s))) ->
  exists ok t1 s' q, mm_read_msat mem rd e ss t id n s = (Ok (ok, t1), s') /\ of_kind RMsat q /\
    moved s q (mt_blocks t) (mt_blocks t1) s' /\
    if ok then read_msat rd e ss (mt_vals t) id n (m_trace s) = (Ok (mt_vals t1), m_trace s') /\ granted q
    else (granted q /\ read_msat rd e ss (mt_vals t) id n (m_trace s) = (Err, m_trace s')) \/ refused q.
Proof.
  intros F O HD. unfold mm_read_msat, read_msat in *.
  assert (Same : moved s [] (mt_blocks t) (mt_blocks t) s).
  { split; [exact F|]. split; [now rewrite app_nil_r|]. intros x. lia. }
  assert (Fail : exists ok t1 s' q, @mret (bool * mtable) (false, t) s = (Ok (ok, t1), s') /\ of_kind RMsat q /\
    moved s q (mt_blocks t) (mt_blocks t1) s' /\
    if ok then (@Err (list Z), m_trace s) = (Ok (mt_vals t1), m_trace s') /\ granted q
    else (granted q /\ (@Err (list Z), m_trace s) = (Err, m_trace s')) \/ refused q).
  { exists false, t, s, []. split; [reflexivity|]. split; [apply of_kind_nil|]. split; [exact Same|]. left. split; [apply granted_nil|reflexivity]. }
  destruct ((ss =? 0) || (MEMORY_MAXIMUM_ALLOCATION_SIZE <? ss)); [exact Fail|].
  destruct (zlen (mt_vals t) <? 109); [exact Fail|].
  destruct ((id =? END_OF_CHAIN) && (n =? 0)).
  { exists true, t, s, []. split; [reflexivity|]. split; [apply of_kind_nil|]. split; [exact Same|]. split; [reflexivity|apply granted_nil]. }
  destruct (id =? END_OF_CHAIN); [exact Fail|].
  cbv zeta in *. destruct (ss / 4 =? 0); [exact Fail|].
  set (N := s32 (109 + (if n =? 0 then 1 else n) * (ss / 4 - 1))) in *.
  change (if zlen (mt_vals t) <? N then table_resize (mt_vals t) N else Ok (mt_vals t)) with (grown (mt_vals t) N) in *.
  destruct (with_table_spec mem RMsat t N (fun vals => msat_loop 258 rd e ss (ss / 4 - 1) vals 109 id 0) s F O) as (ok & t1 & s' & q & E & K & M & H).
  - intros vals G. rewrite G in HD. exact HD.
  - exists ok, t1, s', q. split; [exact E|]. split; [exact K|]. split; [exact M|]. destruct ok.
    + destruct H as (vals & G & L & Q). split; [|exact Q]. rewrite G. exact L.
    + destruct H as [(Q & G & T & _)|[(Q & vals & G & L)|(R & _)]]; [left|left|right; exact R]; (split; [exact Q|]); rewrite G.
      * unfold ibind, ilift. now rewrite T.
      * exact L.
Qed.

Lemma read_sat_mm mem rd e ss msat t n s : fit s -> owns s (mt_blocks t) ->
  (exists v t', read_sat rd e ss msat (mt_vals t) n (m_trace s) = (Ok v, t')) ->
  exists t1 s' q, mm_read_sat mem rd e ss msat t n s = (Ok (true, t1), s') /\ of_kind RSat q /\
    moved s q (mt_blocks t) (mt_blocks t1) s' /\
    ((granted q /\ read_sat rd e ss msat (mt_vals t) n (m_trace s) = (Ok (mt_vals t1), m_trace s')) \/
     (refused q /\ m_trace s' = m_trace s /\ exists k, mt_vals t1 = mt_vals t ++ zeros k /\ (zlen (mt_vals t) <= TABLE_MAX -> zlen (mt_vals t1) <= TABLE_MAX))).
Proof.
  intros F O HD. unfold mm_read_sat, read_sat in *.
  destruct ((ss =? 0) || (MEMORY_MAXIMUM_ALLOCATION_SIZE <? ss)); [destruct HD as (v & t' & [=])|].
  cbv zeta in *. set (N := s32 (n * (ss / 4))) in *.
  change (if zlen (mt_vals t) <? N then table_resize (mt_vals t) N else Ok (mt_vals t)) with (grown (mt_vals t) N) in *.
  destruct (with_table_spec mem RSat t N (fun vals => sat_loop rd e ss (ss / 4) msat vals 0) s F O) as (ok & t1 & s' & q & E & K & M & H).
  - intros vals G. rewrite G in HD. destruct HD as (v & t' & ->). exact I.
  - rewrite (mbind_ok _ _ _ _ _ E). exists t1, s', q. split; [reflexivity|]. split; [exact K|]. split; [exact M|]. destruct ok.
    + destruct H as (vals & G & L & Q). left. split; [exact Q|]. rewrite G. exact L.
    + destruct H as [(Q & G & T & V)|[(Q & vals & G & L)|(R & T & V)]].
      * left. split; [exact Q|]. rewrite G, V, T. reflexivity.
      * rewrite G in HD. destruct HD as (v & t' & HD). rewrite L in HD. discriminate.
      * right. split; [exact R|]. split; [exact T|]. destruct V as [V|V].
        -- exists 0. change (zeros 0) with (@nil Z). rewrite app_nil_r. rewrite V. auto.
        -- destruct (grown_cases (mt_vals t) N) as [G|(k & G & L)]; rewrite G in V; [discriminate|]. exists k. injection V as <-. auto.
Qed.

Lemma read_ssat_mm mem rd e ss sat t id n s : fit s -> owns s (mt_blocks t) ->
  (exists v t', read_ssat rd e ss sat (mt_vals t) id n (m_trace s) = (Ok v, t')) ->
  exists t1 s' q, mm_read_ssat mem rd e ss sat t id n s = (Ok (true, t1), s') /\ of_kind RSsat q /\
    moved s q (mt_blocks t) (mt_blocks t1) s' /\
    ((granted q /\ read_ssat rd e ss sat (mt_vals t) id n (m_trace s) = (Ok (mt_vals t1), m_trace s')) \/
     (refused q /\ m_trace s' = m_trace s /\ exists k, mt_vals t1 = mt_vals t ++ zeros k /\ (zlen (mt_vals t) <= TABLE_MAX -> zlen (mt_vals t1) <= TABLE_MAX))).
Proof.
  intros F O HD. unfold mm_read_ssat, read_ssat in *.
  destruct ((ss =? 0) || (MEMORY_MAXIMUM_ALLOCATION_SIZE <? ss)); [destruct HD as (v & t' & [=])|].
  cbv zeta in *. set (N := s32 (n * (ss / 4))) in *.
  change (if zlen (mt_vals t) <? N then table_resize (mt_vals t) N else Ok (mt_vals t)) with (grown (mt_vals t) N) in *.
  destruct (with_table_spec mem RSsat t N (fun vals => ssat_loop 258 rd e ss (ss / 4) sat vals 0 id n 0 0) s F O) as (ok & t1 & s' & q & E & K & M & H).
  - intros vals G. rewrite G in HD. destruct HD as (v & t' & HD). rewrite HD. exact I.
  - rewrite (mbind_ok _ _ _ _ _ E). exists t1, s', q. split; [reflexivity|]. split; [exact K|]. split; [exact M|]. destruct ok.
    + destruct H as (vals & G & L & Q). left. split; [exact Q|]. rewrite G. exact L.
    + destruct H as [(Q & G & T & V)|[(Q & vals & G & L)|(R & T & V)]].
      * left. split; [exact Q|]. rewrite G, V, T. reflexivity.
      * rewrite G in HD. destruct HD as (v & t' & HD). rewrite L in HD. discriminate.
      * right. split; [exact R|]. split; [exact T|]. destruct V as [V|V].
        -- exists 0. change (zeros 0) with (@nil Z). rewrite app_nil_r. rewrite V. auto.
        -- destruct (grown_cases (mt_vals t) N) as [G|(k & G & L)]; rewrite G in V; [discriminate|]. exists k. injection V as <-. auto.
Qed.
