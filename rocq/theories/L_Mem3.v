(** Lemmas on opening a file when requests for memory can fail: the directory
    and the tree. *)
From Coq Require Import ZArith List Bool Lia Permutation.
From Verif Require Import Base Spec_IO Spec_Stream Spec_Load Spec_Tree Spec_Open L_Base M_Table M_Header M_Load M_Stream M_Tree
  M_Open M_Mem L_Tree L_Tree2 L_Tree3 L_Header L_Load L_Open L_Open2 L_Free L_Mem L_Mem2.
Import ListNotations.
Open Scope Z_scope.

Definition els_blocks (l : list melement) : list Z := flat_map el_blocks l.

Lemma els_blocks_app a b : els_blocks (a ++ b) = els_blocks a ++ els_blocks b.
Proof. apply flat_map_app. Qed.

Lemma el_free_spec x s : fit s -> owns s (el_blocks x) ->
  exists s', el_free x s = (Ok tt, s') /\ m_trace s' = m_trace s /\ moved s [] (el_blocks x) [] s'.
Proof. apply release_all_spec. Qed.

Lemma els_free_spec l : forall s, fit s -> owns s (els_blocks l) ->
  exists s', els_free l s = (Ok tt, s') /\ m_trace s' = m_trace s /\ moved s [] (els_blocks l) [] s'.
Proof.
  induction l as [|x l IH]; intros s F O; cbn [els_free].
  - exists s. split; [reflexivity|]. split; [reflexivity|]. now apply moved_refl.
  - cbn [els_blocks flat_map] in *. fold (els_blocks l) in *.
    destruct (el_free_spec x s F) as (s1 & E1 & T1 & M1); [own|]. rewrite (mbind_ok _ _ _ _ _ E1).
    destruct (IH s1 (proj1 M1)) as (s2 & E2 & T2 & M2); [own|]. exists s2. split; [exact E2|]. split; [congruence|]. weigh.
Qed.

Lemma of_kind_two k b q : of_kind k q -> of_kind k ((k, b) :: q).
Proof. intros H k' b' [[= <- _]|Hin]; [reflexivity|eauto]. Qed.
Lemma granted_two k q : granted q -> granted ((k, true) :: q).
Proof. intros H k' b' [[= _ <-]|Hin]; [reflexivity|eauto]. Qed.
Lemma refused_two k b q : refused q -> refused ((k, b) :: q).
Proof. intros [k' H]. exists k'. now right. Qed.
Lemma refused_here k q : refused ((k, false) :: q).
Proof. exists k. now left. Qed.

Ltac kinds := repeat first [apply of_kind_nil | apply of_kind_two | apply of_kind_app | assumption].
Ltac grants := repeat first [apply granted_nil | apply granted_two | apply granted_app | assumption].

Lemma sector_loop_mm mem e sector n : forall pos acc index s, fit s ->
  defined (dir_sector_loop n e sector pos (map el_entry acc) index) ->
  exists ok new index' s' q, mm_sector_loop n mem e sector pos acc index s = (Ok (ok, acc ++ new, index'), s') /\
    m_trace s' = m_trace s /\ of_kind RDirectory q /\ moved s q [] (els_blocks new) s' /\
    if ok then dir_sector_loop n e sector pos (map el_entry acc) index = Ok (map el_entry (acc ++ new), index') /\ granted q
    else (granted q /\ dir_sector_loop n e sector pos (map el_entry acc) index = Err) \/ refused q.
Proof.
  induction n as [|n IH]; intros pos acc index s F D; cbn [mm_sector_loop dir_sector_loop] in *.
  { exists true, [], index, s, []. rewrite app_nil_r. split; [reflexivity|]. split; [reflexivity|]. split; [kinds|].
    split; [now apply moved_refl|]. split; [reflexivity|grants]. }
  destruct (alloc_spec mem RDirectory s F) as (r & s1 & E1 & T1 & M1). rewrite (mbind_ok _ _ _ _ _ E1). destruct r as [p|].
  2: { exists false, [], index, s1, [(RDirectory, false)]. rewrite app_nil_r. split; [reflexivity|]. split; [exact T1|]. split; [kinds|].
       split; [exact M1|]. right. apply refused_here. }
  destruct (dirent_read e index (slice sector pos 128)) as [[d|]| | |]; cbn [rbind] in *; try contradiction.
  - (* an entry *)
    assert (HN : exists ok nm s2 q, (match de_name d with
                              | [] => mret (true, None)
                              | _ => dm b <- alloc mem RDirectory;
                                     mret (match b with Some b => (true, Some b) | None => (false, None) end)
                              end) s1 = (Ok (ok, nm), s2) /\ m_trace s2 = m_trace s1 /\ of_kind RDirectory q /\
                             moved s1 q [] (opt_list nm) s2 /\ if ok then granted q else nm = None /\ refused q).
    { destruct (de_name d).
      - exists true, None, s1, []. split; [reflexivity|]. split; [reflexivity|]. split; [kinds|]. split; [apply moved_refl, M1|grants].
      - destruct (alloc_spec mem RDirectory s1 (proj1 M1)) as (r & s2 & E2 & T2 & M2). rewrite (mbind_ok _ _ _ _ _ E2).
        destruct r as [b|].
        + exists true, (Some b), s2, [(RDirectory, true)]. split; [reflexivity|]. split; [exact T2|]. split; [kinds|]. split; [exact M2|grants].
        + exists false, None, s2, [(RDirectory, false)]. split; [reflexivity|]. split; [exact T2|]. split; [kinds|]. split; [exact M2|].
          split; [reflexivity|apply refused_here]. }
    destruct HN as (ok & nm & s2 & q2 & E2 & T2 & K2 & M2 & H2). rewrite (mbind_ok _ _ _ _ _ E2). cbn beta iota. destruct ok; cbn [negb].
    2: { destruct H2 as [-> R2]. cbn [opt_list] in M2. destruct (release_spec p s2 (proj1 M2)) as (s3 & E3 & T3 & M3); [own|]. rewrite (mbind_ok _ _ _ _ _ E3).
         exists false, [], index, s3, ((RDirectory, true) :: q2). rewrite app_nil_r. split; [reflexivity|]. split; [congruence|]. split; [kinds|].
         split; [cbn [els_blocks flat_map]; weigh|]. right. apply refused_two, R2. }
    destruct (grant_spec mem RDirectory s2 (proj1 M2)) as (ok & s3 & E3 & T3 & M3). rewrite (mbind_ok _ _ _ _ _ E3).
    set (x := {| el_struct := p; el_name := nm; el_entry := d |}).
    assert (M : moved s ((RDirectory, true) :: q2 ++ [(RDirectory, ok)]) [] (el_blocks x) s3).
    { unfold el_blocks. cbn [x el_name el_struct]. weigh. }
    clear M1 M2 M3. destruct ok; cbn [negb].
    2: { destruct (el_free_spec x s3 (proj1 M)) as (s4 & E4 & T4 & M4); [own|]. rewrite (mbind_ok _ _ _ _ _ E4).
         exists false, [], index, s4, ((RDirectory, true) :: q2 ++ [(RDirectory, false)]). rewrite app_nil_r. split; [reflexivity|].
         split; [congruence|]. split; [kinds|]. split; [cbn [els_blocks flat_map]; weigh|]. right. apply refused_two, refused_r, refused_one. }
    assert (Em : map el_entry acc ++ [d] = map el_entry (acc ++ [x])) by (rewrite map_app; reflexivity).
    rewrite Em in *.
    destruct (IH (pos + 128) (acc ++ [x]) (index + 1) s3 (proj1 M) D) as (ok & new & index' & s4 & q4 & E4 & T4 & K4 & M4 & H4).
    rewrite <- app_assoc in E4. cbn [app] in E4.
    exists ok, (x :: new), index', s4, ((RDirectory, true) :: (q2 ++ [(RDirectory, true)]) ++ q4). split; [exact E4|]. split; [congruence|].
    split; [kinds|]. split; [cbn [els_blocks flat_map]; fold (els_blocks new); weigh|].
    replace ((acc ++ [x]) ++ new) with (acc ++ x :: new) in H4 by (rewrite <- app_assoc; reflexivity).
    destruct ok.
    + destruct H4 as [H4 G4]. split; [exact H4|grants].
    + destruct H4 as [[G4 H4]|R4]; [left; split; [grants|exact H4]|]. right. apply refused_two, refused_r, R4.
  - (* an empty slot *)
    destruct (release_spec p s1 (proj1 M1)) as (s2 & E2 & T2 & M2); [own|]. rewrite (mbind_ok _ _ _ _ _ E2).
    destruct (IH (pos + 128) acc (index + 1) s2 (proj1 M2) D) as (ok & new & index' & s4 & q4 & E4 & T4 & K4 & M4 & H4).
    exists ok, new, index', s4, ((RDirectory, true) :: q4). split; [exact E4|]. split; [congruence|]. split; [kinds|]. split; [weigh|].
    destruct ok.
    + destruct H4 as [H4 G4]. split; [exact H4|grants].
    + destruct H4 as [[G4 H4]|R4]; [left; split; [grants|exact H4]|]. right. apply refused_two, R4.
  - destruct (release_spec p s1 (proj1 M1)) as (s2 & E2 & T2 & M2); [own|]. rewrite (mbind_ok _ _ _ _ _ E2).
    exists false, [], index, s2, [(RDirectory, true)]. rewrite app_nil_r. split; [reflexivity|]. split; [congruence|]. split; [kinds|].
    split; [cbn [els_blocks flat_map]; weigh|]. left. split; [grants|reflexivity].
Qed.

Lemma dir_loop_mm mem rd e ss entries sat fuel : forall acc index id visited depth s, fit s ->
  defined (fst (dir_loop fuel rd e ss entries sat (map el_entry acc) index id visited depth (m_trace s))) ->
  exists ok new s' q, mm_dir_loop fuel mem rd e ss entries sat acc index id visited depth s = (Ok (ok, acc ++ new), s') /\
    of_kind RDirectory q /\ moved s q [] (els_blocks new) s' /\
    if ok then dir_loop fuel rd e ss entries sat (map el_entry acc) index id visited depth (m_trace s)
               = (Ok (map el_entry (acc ++ new)), m_trace s') /\ granted q
    else (granted q /\ dir_loop fuel rd e ss entries sat (map el_entry acc) index id visited depth (m_trace s) = (Err, m_trace s')) \/ refused q.
Proof.
  induction fuel as [|fuel IH]; intros acc index id visited depth s F D; cbn [mm_dir_loop dir_loop] in *; [contradiction|].
  destruct ((id =? END_OF_CHAIN) || (id =? UNUSED)).
  { exists true, [], s, []. rewrite app_nil_r. split; [reflexivity|]. split; [kinds|]. split; [now apply moved_refl|]. split; [reflexivity|grants]. }
  destruct (MAX_DIRECTORY_DEPTH <? depth).
  { exists false, [], s, []. rewrite app_nil_r. split; [reflexivity|]. split; [kinds|]. split; [now apply moved_refl|]. left. split; [grants|reflexivity]. }
  destruct (existsb (Z.eqb id) visited).
  { exists true, [], s, []. rewrite app_nil_r. split; [reflexivity|]. split; [kinds|]. split; [now apply moved_refl|]. split; [reflexivity|grants]. }
  unfold ibind at 1 in D. unfold ibind at 1. unfold ibind at 3.
  destruct (read_exact rd (sector_offset id ss) ss (m_trace s)) as [r t1] eqn:E1.
  assert (D1 : defined r) by (destruct r; first [exact I|exact D]).
  destruct (mio_spec _ s r t1 F E1 D1) as (o & s1 & X1 & T1 & M1 & H1). rewrite (mbind_ok _ _ _ _ _ X1).
  destruct o as [sector|]; subst r.
  2: { exists false, [], s1, []. rewrite app_nil_r. split; [reflexivity|]. split; [kinds|]. split; [exact M1|]. left. split; [grants|]. now rewrite T1. }
  unfold ibind at 1 in D. unfold ibind at 1. unfold ibind at 2. unfold ilift at 1 in D. unfold ilift at 1. unfold ilift at 2.
  assert (D2 : defined (dir_sector_loop (Z.to_nat entries) e sector 0 (map el_entry acc) index)).
  { destruct (dir_sector_loop (Z.to_nat entries) e sector 0 (map el_entry acc) index); first [exact I|exact D]. }
  destruct (sector_loop_mm mem e sector (Z.to_nat entries) 0 acc index s1 (proj1 M1) D2)
    as (ok & new & index' & s2 & q2 & X2 & T2 & K2 & M2 & H2). rewrite (mbind_ok _ _ _ _ _ X2). cbn beta iota.
  destruct ok; cbn [negb].
  2: { exists false, new, s2, q2. split; [reflexivity|]. split; [kinds|]. split; [weigh|].
       destruct H2 as [[G2 H2]|R2]; [|right; exact R2]. left. split; [exact G2|]. rewrite H2. congruence. }
  destruct H2 as [H2 G2]. rewrite H2 in *.
  destruct (grant_spec mem RDirectory s2 (proj1 M2)) as (ok & s3 & X3 & T3 & M3). rewrite (mbind_ok _ _ _ _ _ X3).
  destruct ok; cbn [negb].
  2: { exists false, new, s3, (q2 ++ [(RDirectory, false)]). split; [reflexivity|]. split; [kinds|]. split; [weigh|]. right. apply refused_r, refused_one. }
  unfold ibind at 1 in D. unfold ibind at 1. unfold ibind at 1. unfold ilift at 1 in D. unfold ilift at 1. unfold ilift at 1.
  destruct (table_next sat id) as [id'| | |] eqn:E4; try contradiction.
  - replace t1 with (m_trace s3) in D by congruence.
    destruct (IH (acc ++ new) index' id' (id :: visited) (depth + 1) s3 (proj1 M3) D) as (ok & new' & s4 & q4 & X4 & K4 & M4 & H4).
    rewrite <- app_assoc in X4. exists ok, (new ++ new'), s4, ((q2 ++ [(RDirectory, true)]) ++ q4). split; [exact X4|]. split; [kinds|].
    split; [rewrite els_blocks_app; weigh|]. replace t1 with (m_trace s3) by congruence.
    rewrite <- app_assoc in H4.
    destruct ok.
    + destruct H4 as [H4 G4]. split; [exact H4|grants].
    + destruct H4 as [[G4 H4]|R4]; [left; split; [grants|exact H4]|]. right. apply refused_r, R4.
  - exists false, new, s3, (q2 ++ [(RDirectory, true)]). split; [reflexivity|]. split; [kinds|]. split; [weigh|]. left. split; [grants|]. congruence.
Qed.

Lemma read_directory_mm mem rd e ss sat root s : fit s ->
  defined (fst (read_directory rd e ss sat root (m_trace s))) ->
  exists o s' q, mm_read_directory mem rd e ss sat root s = (Ok o, s') /\ of_kind RDirectory q /\
    match o with
    | Some l => moved s q [] (els_blocks l) s' /\ granted q /\
                read_directory rd e ss sat root (m_trace s) = (Ok (map el_entry l), m_trace s')
    | None => moved s q [] [] s' /\
              ((granted q /\ read_directory rd e ss sat root (m_trace s) = (Err, m_trace s')) \/ refused q)
    end.
Proof.
  intros F D. unfold mm_read_directory, read_directory in *.
  destruct ((ss =? 0) || (MEMORY_MAXIMUM_ALLOCATION_SIZE <? ss) || negb (ss mod 128 =? 0)).
  { exists None, s, []. split; [reflexivity|]. split; [kinds|]. split; [now apply moved_refl|]. left. split; [grants|reflexivity]. }
  destruct (root =? END_OF_CHAIN).
  { exists None, s, []. split; [reflexivity|]. split; [kinds|]. split; [now apply moved_refl|]. left. split; [grants|reflexivity]. }
  destruct (alloc_spec mem RDirectory s F) as (r & s1 & X1 & T1 & M1). rewrite (mbind_ok _ _ _ _ _ X1). destruct r as [b|].
  2: { exists None, s1, [(RDirectory, false)]. split; [reflexivity|]. split; [kinds|]. split; [exact M1|]. right. apply refused_one. }
  destruct (alloc_spec mem RDirectory s1 (proj1 M1)) as (r & s2 & X2 & T2 & M2). rewrite (mbind_ok _ _ _ _ _ X2). destruct r as [rl|].
  2: { destruct (release_spec b s2 (proj1 M2)) as (s3 & X3 & T3 & M3); [own|]. rewrite (mbind_ok _ _ _ _ _ X3).
       exists None, s3, [(RDirectory, true); (RDirectory, false)]. split; [reflexivity|]. split; [kinds|]. split; [weigh|].
       right. apply refused_two, refused_one. }
  replace (m_trace s) with (m_trace s2) in * by congruence.
  change ([]) with (map el_entry []) in D at 1.
  destruct (dir_loop_mm mem rd e ss (ss / 128) sat 1026 [] 0 root [] 0 s2 (proj1 M2) D) as (ok & l & s3 & q3 & X3 & K3 & M3 & H3).
  cbn [app] in X3. rewrite (mbind_ok _ _ _ _ _ X3). cbn beta iota.
  destruct (release_spec rl s3 (proj1 M3)) as (s4 & X4 & T4 & M4); [own|]. rewrite (mbind_ok _ _ _ _ _ X4).
  destruct (release_spec b s4 (proj1 M4)) as (s5 & X5 & T5 & M5); [own|]. rewrite (mbind_ok _ _ _ _ _ X5).
  cbn [app map] in H3. destruct ok.
  - exists (Some l), s5, ((RDirectory, true) :: (RDirectory, true) :: q3). split; [reflexivity|]. split; [kinds|]. split; [weigh|].
    destruct H3 as [H3 G3]. split; [grants|]. rewrite H3. congruence.
  - destruct (els_free_spec l s5 (proj1 M5)) as (s6 & X6 & T6 & M6); [own|]. rewrite (mbind_ok _ _ _ _ _ X6).
    exists None, s6, ((RDirectory, true) :: (RDirectory, true) :: q3). split; [reflexivity|]. split; [kinds|]. split; [weigh|].
    destruct H3 as [[G3 H3]|R3]; [left; split; [grants|]; rewrite H3; congruence|]. right. apply refused_two, refused_two, R3.
Qed.
