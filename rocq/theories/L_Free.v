(** Lemmas on the lifetime of directory entries. *)
From Coq Require Import ZArith List Bool Lia Permutation Sorted.
From Verif Require Import Base Spec_IO Spec_Stream Spec_Load Spec_Tree Spec_Open L_Base M_Table M_Header M_Load M_Stream M_Tree
  M_Open M_Free Spec_Free L_Tree L_Tree2 L_Tree3 L_Header L_Load L_Open L_Open2.
Import ListNotations.
Open Scope Z_scope.

(** * Logs with the pointers that are in use and those that were *)
Inductive hist : list event -> list Z -> list Z -> Prop :=
| hi_nil : hist [] [] []
| hi_alloc m live dead p : hist m live dead -> ~ In p live -> ~ In p dead ->
    hist (m ++ [Alloc p]) (live ++ [p]) dead
| hi_release m a p b dead : hist m (a ++ p :: b) dead -> hist (m ++ [Release p]) (a ++ b) (p :: dead).

Lemma hist_sound m live dead : hist m live dead ->
  NoDup live /\ (forall p, In p live -> ~ In p dead) /\
  (forall p, In p live -> held m p) /\ (forall p, In p dead -> once m p) /\
  (forall p, In (Alloc p) m \/ In (Release p) m -> In p live \/ In p dead).
Proof.
  induction 1 as [|m live dead p H (N & D & L & O & I) Hl Hd|m a p b dead H (N & D & L & O & I)].
  - split; [constructor|]. split; [intros p []|]. split; [intros p []|]. split; [intros p []|]. intros p [[]|[]].
  - split. { apply (Permutation_NoDup (Permutation_cons_append live p)). constructor; auto. }
    split. { intros x Hx. apply in_app_or in Hx as [Hx|[<-|[]]]; auto. }
    split.
    { intros x Hx. apply in_app_or in Hx as [Hx|[<-|[]]].
      - destruct (L x Hx) as (a & b & -> & Hq). exists a, (b ++ [Alloc p]). split; [rewrite <- app_assoc; reflexivity|].
        intros q Hq' Hin. rewrite app_assoc in Hin. apply in_app_or in Hin as [Hin|[<-|[]]]; [exact (Hq q Hq' Hin)|].
        destruct Hq' as [E|E]; [|discriminate]. injection E as <-. contradiction.
      - exists m, []. split; [reflexivity|]. rewrite app_nil_r. intros q Hq Hin.
        destruct (I p) as [?|?]; [destruct Hq as [-> | ->]; auto|contradiction..]. }
    split.
    { intros x Hx. destruct (O x Hx) as (a & b & c & -> & Hq). exists a, b, (c ++ [Alloc p]).
      split; [rewrite <- !app_assoc; cbn [app]; rewrite <- !app_assoc; reflexivity|].
      intros q Hq' Hin. rewrite !app_assoc in Hin. apply in_app_or in Hin as [Hin|[<-|[]]];
        [rewrite <- app_assoc in Hin; exact (Hq q Hq' Hin)|].
      destruct Hq' as [E|E]; [|discriminate]. injection E as <-. contradiction. }
    intros x [Hx|Hx]; apply in_app_or in Hx as [Hx|[Hx|[]]]; try discriminate.
    + destruct (I x (or_introl Hx)); [left; apply in_or_app; auto|auto].
    + injection Hx as <-. left. apply in_or_app. right. now left.
    + destruct (I x (or_intror Hx)); [left; apply in_or_app; auto|auto].
  - assert (Hp : In p (a ++ p :: b)) by (apply in_or_app; right; now left).
    assert (Hsub : forall x, In x (a ++ b) -> In x (a ++ p :: b)).
    { intros x Hx. apply in_app_or in Hx as [Hx|Hx]; apply in_or_app; [auto|right; now right]. }
    assert (Hnp : ~ In p (a ++ b)) by (now apply NoDup_remove_2).
    split; [now apply NoDup_remove_1 in N|].
    split. { intros x Hx [<-|Hd]; [contradiction|]. exact (D x (Hsub x Hx) Hd). }
    split.
    { intros x Hx. destruct (L x (Hsub x Hx)) as (a' & b' & -> & Hq). exists a', (b' ++ [Release p]).
      split; [rewrite <- app_assoc; reflexivity|].
      intros q Hq' Hin. rewrite app_assoc in Hin. apply in_app_or in Hin as [Hin|[<-|[]]]; [exact (Hq q Hq' Hin)|].
      destruct Hq' as [E|E]; [discriminate|]. injection E as <-. contradiction. }
    split.
    { intros x [<-|Hx].
      - destruct (L p Hp) as (a' & b' & -> & Hq). exists a', b', []. split; [rewrite <- app_assoc; reflexivity|].
        rewrite app_nil_r. exact Hq.
      - destruct (O x Hx) as (a' & b' & c' & -> & Hq). exists a', b', (c' ++ [Release p]).
        split; [rewrite <- !app_assoc; cbn [app]; rewrite <- !app_assoc; reflexivity|].
        intros q Hq' Hin. rewrite !app_assoc in Hin. apply in_app_or in Hin as [Hin|[<-|[]]];
          [rewrite <- app_assoc in Hin; exact (Hq q Hq' Hin)|].
        destruct Hq' as [E|E]; [discriminate|]. injection E as <-. exact (D p Hp Hx). }
    intros x Hx. assert (Hx' : In x (a ++ p :: b) \/ In x dead \/ x = p).
    { destruct Hx as [Hx|Hx]; apply in_app_or in Hx as [Hx|[Hx|[]]]; try discriminate.
      - destruct (I x (or_introl Hx)); auto.
      - destruct (I x (or_intror Hx)); auto.
      - injection Hx as <-. auto. }
    destruct Hx' as [Hx'|[Hx'| ->]]; [|right; now right|right; now left].
    apply in_app_or in Hx' as [Hx'|[<-|Hx']]; [left; apply in_or_app; auto|right; now left|left; apply in_or_app; auto].
Qed.

Lemma hist_balanced m dead : hist m [] dead -> balanced m.
Proof.
  intros H p Hp. destruct (hist_sound _ _ _ H) as (_ & _ & _ & O & I). apply O. destruct (I p Hp) as [[]|Hd]. exact Hd.
Qed.

Lemma hist_releases ps : forall m live dead rest, hist m live dead -> Permutation live (ps ++ rest) ->
  exists live' dead', hist (m ++ map Release ps) live' dead' /\ Permutation live' rest.
Proof.
  induction ps as [|p ps IH]; intros m live dead rest H P; cbn [map app] in *.
  - rewrite app_nil_r. eauto.
  - assert (Hin : In p live) by (apply (Permutation_in p (Permutation_sym P)); now left).
    apply in_split in Hin as (a & b & ->). pose proof (hi_release _ _ _ _ _ H) as H'.
    replace (m ++ Release p :: map Release ps) with ((m ++ [Release p]) ++ map Release ps) by (rewrite <- app_assoc; reflexivity).
    apply (IH _ _ _ rest H'). symmetry. apply (Permutation_app_inv [] (ps ++ rest) a b p). cbn [app]. now symmetry.
Qed.

Lemma hist_release_all ps m live dead : hist m live dead -> Permutation live ps ->
  exists dead', hist (m ++ map Release ps) [] dead'.
Proof.
  intros H P. destruct (hist_releases ps m live dead [] H) as (live' & dead' & H' & P'); [rewrite app_nil_r; exact P|].
  apply Permutation_sym, Permutation_nil in P'. subst. eauto.
Qed.

(** * Reading the directory *)
Lemma release_list_map l : release_list l = map Release (map fst l).
Proof. unfold release_list. rewrite map_map. reflexivity. Qed.

(** The log after the slots below [index] with the list [acc]. *)
Definition reading (m : list event) (acc : list element) (index : Z) : Prop :=
  (exists dead, hist m (map fst acc) dead /\ Forall (fun p => 0 <= p < index) dead) /\
  Forall (fun x => 0 <= fst x < index /\ de_id (snd x) = fst x) acc.

Lemma dirent_read_id e index data d : 0 <= index < 4294967296 -> dirent_read e index data = Ok (Some d) -> de_id d = index.
Proof.
  intros Hi. unfold dirent_read. destruct (zlen data <? 128); [discriminate|]. intros H.
  apply rbind_ok in H as (type & _ & H). destruct (type =? TYPE_EMPTY); [discriminate|].
  apply rbind_ok in H as (nds & _ & H). destruct (128 <? nds); [discriminate|].
  repeat (apply rbind_ok in H as (? & _ & H)). injection H as <-. cbn [de_id]. apply u32_id. unfold TWO32. lia.
Qed.

Lemma reading_alloc m acc index : reading m acc index -> 0 <= index ->
  exists dead, hist (m ++ [Alloc index]) (map fst acc ++ [index]) dead /\ Forall (fun p => 0 <= p < index) dead.
Proof.
  intros ((dead & H & Hd) & Ha) Hi. exists dead. split; [|exact Hd]. constructor; [exact H| |].
  - intros Hin. apply in_map_iff in Hin as (x & E & Hin). pose proof (proj1 (Forall_forall _ _) Ha x Hin). cbn in *. lia.
  - intros Hin. pose proof (proj1 (Forall_forall _ _) Hd _ Hin). cbn in *. lia.
Qed.

Lemma m_sector_loop_ok e sector n : forall pos acc index m,
  reading m acc index -> 0 <= index -> index + Z.of_nat n <= 4294967296 ->
  match m_sector_loop n e sector pos acc index m with
  | (Ok (acc', index'), m') =>
      dir_sector_loop n e sector pos (map snd acc) index = Ok (map snd acc', index') /\
      index' = index + Z.of_nat n /\ reading m' acc' index'
  | (Err, m') => dir_sector_loop n e sector pos (map snd acc) index = Err /\ exists dead, hist m' [] dead
  | (Undef, _) => dir_sector_loop n e sector pos (map snd acc) index = Undef
  | (NoFuel, _) => dir_sector_loop n e sector pos (map snd acc) index = NoFuel
  end.
Proof.
  induction n as [|n IH]; intros pos acc index m HR Hi Hb; cbn [m_sector_loop dir_sector_loop].
  - split; [reflexivity|]. split; [lia|exact HR].
  - destruct (reading_alloc m acc index HR Hi) as (dead & H & Hd). destruct HR as (_ & Ha).
    assert (Ha' : Forall (fun x : element => 0 <= fst x < index + 1 /\ de_id (snd x) = fst x) acc)
      by (eapply Forall_impl; [|exact Ha]; cbn; intros; lia).
    assert (Hd' : Forall (fun p => 0 <= p < index + 1) dead) by (eapply Forall_impl; [|exact Hd]; cbn; intros; lia).
    destruct (dirent_read e index (slice sector pos 128)) as [[d|]| | |] eqn:E; cbn [rbind].
    + specialize (IH (pos + 128) (acc ++ [(index, d)]) (index + 1) (m ++ [Alloc index])).
      rewrite map_app in IH. cbn [map snd] in IH.
      assert (HR' : reading (m ++ [Alloc index]) (acc ++ [(index, d)]) (index + 1)).
      { split.
        - exists dead. rewrite map_app. auto.
        - apply Forall_app. split; [exact Ha'|]. constructor; [|constructor]. cbn [fst snd].
          split; [lia|]. eapply dirent_read_id; [|exact E]. lia. }
      specialize (IH HR' ltac:(lia) ltac:(lia)).
      destruct (m_sector_loop n e sector (pos + 128) (acc ++ [(index, d)]) (index + 1) (m ++ [Alloc index])) as [[[acc' index']| | |] m']; auto.
      destruct IH as (A & B & C). split; [exact A|]. split; [lia|exact C].
    + specialize (IH (pos + 128) acc (index + 1) ((m ++ [Alloc index]) ++ [Release index])).
      assert (HR' : reading ((m ++ [Alloc index]) ++ [Release index]) acc (index + 1)).
      { split; [|exact Ha']. exists (index :: dead). split; [|constructor; [lia|exact Hd']].
        rewrite <- (app_nil_r (map fst acc)). apply hi_release. exact H. }
      specialize (IH HR' ltac:(lia) ltac:(lia)).
      destruct (m_sector_loop n e sector (pos + 128) acc (index + 1) ((m ++ [Alloc index]) ++ [Release index])) as [[[acc' index']| | |] m']; auto.
      destruct IH as (A & B & C). split; [exact A|]. split; [lia|exact C].
    + split; [reflexivity|]. apply hi_release in H. rewrite app_nil_r in H. rewrite release_list_map.
      eapply hist_release_all; [exact H|apply Permutation_refl].
    + reflexivity.
    + reflexivity.
Qed.

Lemma reading_release m acc index : reading m acc index -> exists dead, hist (m ++ release_list acc) [] dead.
Proof.
  intros ((dead & H & _) & _). rewrite release_list_map. eapply hist_release_all; [exact H|apply Permutation_refl].
Qed.

Lemma m_dir_loop_ok rd e ss entries sat : 0 <= entries <= 1048576 -> forall fuel acc index id visited depth m t,
  reading m acc index -> 0 <= depth <= 1025 -> index = depth * entries ->
  match m_dir_loop fuel rd e ss entries sat acc index id visited depth m t with
  | ((Ok l, m'), t') =>
      dir_loop fuel rd e ss entries sat (map snd acc) index id visited depth t = (Ok (map snd l), t') /\
      exists index', reading m' l index'
  | ((Err, m'), t') =>
      dir_loop fuel rd e ss entries sat (map snd acc) index id visited depth t = (Err, t') /\ exists dead, hist m' [] dead
  | ((Undef, _), t') => dir_loop fuel rd e ss entries sat (map snd acc) index id visited depth t = (Undef, t')
  | ((NoFuel, _), t') => dir_loop fuel rd e ss entries sat (map snd acc) index id visited depth t = (NoFuel, t')
  end.
Proof.
  intros He. induction fuel as [|fuel IH]; intros acc index id visited depth m t HR Hd Hi; cbn [m_dir_loop dir_loop].
  { reflexivity. }
  destruct ((id =? END_OF_CHAIN) || (id =? UNUSED)); [split; [reflexivity|eauto]|].
  destruct (MAX_DIRECTORY_DEPTH <? depth) eqn:Ed; [split; [reflexivity|eapply reading_release; exact HR]|].
  apply Z.ltb_ge in Ed. unfold MAX_DIRECTORY_DEPTH in Ed.
  destruct (existsb (Z.eqb id) visited); [split; [reflexivity|eauto]|].
  unfold ibind, ilift. destruct (read_exact rd (sector_offset id ss) ss t) as [[sector| | |] t1].
  2: { split; [reflexivity|eapply reading_release; exact HR]. }
  2: reflexivity. 2: reflexivity.
  pose proof (m_sector_loop_ok e sector (Z.to_nat entries) 0 acc index m HR) as HS.
  assert (0 <= index) by (subst; nia).
  assert (index + Z.of_nat (Z.to_nat entries) <= 4294967296) by (rewrite Z2Nat.id by lia; subst; nia).
  specialize (HS ltac:(assumption) ltac:(assumption)).
  destruct (m_sector_loop (Z.to_nat entries) e sector 0 acc index m) as [[[acc' index']| | |] m1].
  - destruct HS as (A & B & C). rewrite A.
    destruct (table_next sat id) as [id'| | |].
    + apply IH; [exact C|lia|]. rewrite B, Z2Nat.id by lia. subst. lia.
    + split; [reflexivity|]. eapply reading_release. exact C.
    + reflexivity.
    + reflexivity.
  - destruct HS as (A & B). rewrite A. split; [reflexivity|exact B].
  - rewrite HS. reflexivity.
  - rewrite HS. reflexivity.
Qed.

Lemma m_read_directory_ok rd e ss sat root t : 0 <= ss ->
  match m_read_directory rd e ss sat root t with
  | ((Ok l, m'), t') => read_directory rd e ss sat root t = (Ok (map snd l), t') /\ exists index', reading m' l index'
  | ((Err, m'), t') => read_directory rd e ss sat root t = (Err, t') /\ exists dead, hist m' [] dead
  | ((Undef, _), t') => read_directory rd e ss sat root t = (Undef, t')
  | ((NoFuel, _), t') => read_directory rd e ss sat root t = (NoFuel, t')
  end.
Proof.
  intros Hss. unfold m_read_directory, read_directory.
  destruct ((ss =? 0) || (MEMORY_MAXIMUM_ALLOCATION_SIZE <? ss) || negb (ss mod 128 =? 0)) eqn:E;
    [split; [reflexivity|exists []; constructor]|].
  destruct (root =? END_OF_CHAIN); [split; [reflexivity|exists []; constructor]|].
  apply orb_false_elim in E as [E _]. apply orb_false_elim in E as [_ E]. apply Z.ltb_ge in E.
  unfold MEMORY_MAXIMUM_ALLOCATION_SIZE in E.
  apply (m_dir_loop_ok rd e ss (ss / 128) sat).
  - split; [apply Z.div_pos; lia|]. apply Z.div_le_upper_bound; lia.
  - split; [exists []; split; constructor|constructor].
  - lia.
  - lia.
Qed.

Lemma NoDup_app_intro {A} (a b : list A) : NoDup a -> NoDup b -> (forall x, In x a -> ~ In x b) -> NoDup (a ++ b).
Proof.
  intros Ha Hb Hd. induction Ha as [|x a Hx _ IH]; cbn [app]; [exact Hb|]. constructor.
  - intros Hin. apply in_app_or in Hin as [Hin|Hin]; [contradiction|]. apply (Hd x); [now left|exact Hin].
  - apply IH. intros y Hy. apply Hd. now right.
Qed.

(** * The nodes of the tree *)
Section Nodes.
  Variable nodes : list node.
  Definition parent (j : nat) : option nat := match nth_error nodes j with Some n => n_parent n | None => None end.
  Hypothesis Hpar : forall j p, parent j = Some p -> (p < j)%nat /\ (j < length nodes)%nat.
  Hypothesis Hhas : forall j, (0 < j < length nodes)%nat -> exists p, parent j = Some p.
  Hypothesis Hsub : forall p n, nth_error nodes p = Some n -> NoDup (n_subs n) /\ forall j, In j (n_subs n) <-> parent j = Some p.

  Inductive under (k : nat) : nat -> Prop :=
  | ud_self : under k k
  | ud_step j p : parent j = Some p -> under k p -> under k j.

  Lemma under_ge k j : under k j -> (k <= j)%nat.
  Proof. induction 1 as [|j p Hp _ IH]; [lia|]. destruct (Hpar _ _ Hp). lia. Qed.

  Lemma under_two a b j : under a j -> under b j -> under a b \/ under b a.
  Proof.
    induction 1 as [|j p Hp Hu IH]; intros Hb; [now right|].
    inversion Hb as [|j' p' Hp' Hu']; subst; [left; eapply ud_step; eassumption|].
    rewrite Hp in Hp'. injection Hp' as <-. auto.
  Qed.

  Lemma under_trans a b j : under a b -> under b j -> under a j.
  Proof. intros H. induction 1 as [|j p Hp _ IH]; [exact H|]. now apply (ud_step a j p). Qed.

  Lemma rseq_free f : forall subs, NoDup subs -> (forall k, In k subs -> exists l, f k = Ok l /\ NoDup l /\ forall j, In j l <-> under k j) ->
    (forall a b j, In a subs -> In b subs -> under a j -> under b j -> a = b) ->
    exists l, rseq f subs = Ok l /\ NoDup l /\ forall j, In j l <-> exists k, In k subs /\ under k j.
  Proof.
    induction subs as [|k subs IH]; intros HN Hf Hd; cbn [rseq].
    - exists []. split; [reflexivity|]. split; [constructor|]. intros j. split; [intros []|intros (k & [] & _)].
    - inversion HN as [|? ? Hk HN']; subst. destruct (Hf k (or_introl eq_refl)) as (l & -> & Hl & Hin).
      destruct IH as (ls & -> & Hls & Hin'); [exact HN'|intros; apply Hf; now right|intros a b j Ha Hb; apply Hd; now right|].
      cbn [rbind]. eexists. split; [reflexivity|]. split.
      + apply NoDup_app_intro; auto. intros j Hj Hj'. apply Hin in Hj. apply Hin' in Hj' as (k' & Hk' & Hj').
        assert (k = k') by (apply (Hd k k' j); auto; [now left|now right]). subst. contradiction.
      + intros j. rewrite in_app_iff, Hin, Hin'. split.
        * intros [H|(k' & H & H')]; [exists k; split; [now left|exact H]|exists k'; split; [now right|exact H']].
        * intros (k' & [<-|H] & H'); eauto.
  Qed.

  Lemma node_free_ok fuel : forall k, (k < length nodes)%nat -> (length nodes <= fuel + k)%nat ->
    exists l, node_free fuel nodes k = Ok l /\ NoDup l /\ forall j, In j l <-> under k j.
  Proof.
    induction fuel as [|fuel IH]; intros k Hk Hf; [lia|]. cbn [node_free].
    destruct (nth_error nodes k) as [n|] eqn:En; [|apply nth_error_None in En; lia].
    destruct (Hsub k n En) as [HN HS].
    destruct (rseq_free (node_free fuel nodes) (n_subs n)) as (l & -> & Hl & Hin).
    - exact HN.
    - intros j Hj. apply HS in Hj. destruct (Hpar _ _ Hj). apply IH; lia.
    - intros a b j Ha Hb Hua Hub. apply HS in Ha, Hb.
      assert (forall x y, parent x = Some k -> parent y = Some k -> under x y -> x = y) as Hxy.
      { intros x y Hx Hy Hu. inversion Hu as [|j' p' Hp' Hu']; subst; [reflexivity|].
        rewrite Hy in Hp'. injection Hp' as <-. apply under_ge in Hu'. destruct (Hpar _ _ Hx). lia. }
      destruct (under_two a b j Hua Hub); [apply Hxy|symmetry; apply Hxy]; auto.
    - cbn [rbind]. eexists. split; [reflexivity|]. split.
      + apply NoDup_app_intro; [exact Hl|constructor; [intros []|constructor]|].
        intros j Hj [<-|[]]. apply Hin in Hj as (c & Hc & Hu). apply HS in Hc. destruct (Hpar _ _ Hc). apply under_ge in Hu. lia.
      + intros j. rewrite in_app_iff, Hin. split.
        * intros [(c & Hc & Hu)|[<-|[]]]; [|constructor]. apply HS in Hc.
          eapply under_trans; [|exact Hu]. eapply ud_step; [exact Hc|constructor].
        * intros Hu. induction Hu as [|j p Hp Hu IHu]; [right; now left|]. left.
          destruct IHu as [(c & Hc & Hu')|[<-|[]]].
          -- exists c. split; [exact Hc|]. eapply ud_step; eauto.
          -- exists j. split; [now apply HS|constructor].
  Qed.

  Lemma under_root j : (j < length nodes)%nat -> under 0 j.
  Proof.
    induction j as [j IH] using lt_wf_ind. intros Hj. destruct j as [|j]; [constructor|].
    destruct (Hhas (S j)) as [p Hp]; [lia|]. destruct (Hpar _ _ Hp). eapply ud_step; [exact Hp|]. apply IH; lia.
  Qed.

  Lemma node_free_all : nodes <> [] ->
    exists l, node_free (length nodes) nodes 0 = Ok l /\ Permutation l (seq 0 (length nodes)).
  Proof.
    intros Hne. assert (0 < length nodes)%nat by (destruct nodes; [congruence|cbn; lia]).
    destruct (node_free_ok (length nodes) 0) as (l & -> & HN & Hin); [lia|lia|]. exists l. split; [reflexivity|].
    apply NoDup_Permutation; [exact HN|apply seq_NoDup|]. intros j. rewrite Hin, in_seq. split.
    - intros Hu. inversion Hu as [|j' p Hp Hu']; subst; [lia|]. destruct (Hpar _ _ Hp). lia.
    - intros Hj. apply under_root. lia.
  Qed.
End Nodes.

Lemma sorted_subs_NoDup nodes subs : sorted_subs nodes subs -> NoDup subs.
Proof.
  intros (ids & E & HS). assert (HN : NoDup (map (id_of nodes) subs)).
  { rewrite E. clear - HS. induction HS as [|x ids _ IH H]; cbn [map]; constructor; [|exact IH].
    intros Hin. apply in_map_iff in Hin as (y & [= ->] & Hin). pose proof (proj1 (Forall_forall _ _) H _ Hin). cbn in *. lia. }
  now apply NoDup_map_inv in HN.
Qed.

Lemma wf_nodes l st : wf l st ->
  exists order, node_free (length (t_nodes st)) (t_nodes st) 0 = Ok order /\ Permutation order (seq 0 (length (t_nodes st))).
Proof.
  intros W. assert (Hv : forall j, parent (t_nodes st) j = match nth_error (vw st) j with Some (_, q) => q | None => None end).
  { intros j. unfold parent. rewrite vw_nth. destruct (nth_error (t_nodes st) j); reflexivity. }
  assert (Hlen : length (vw st) = length (t_nodes st)) by (unfold vw; apply map_length).
  apply node_free_all.
  - intros j p H. rewrite Hv in H. destruct (nth_error (vw st) j) as [[d q]|] eqn:E; [|discriminate]. subst q.
    assert (j < length (vw st))%nat by (apply nth_error_Some; congruence).
    destruct j as [|j].
    + destruct (wf_root _ _ W) as (d' & vs & Ev). rewrite Ev in E. discriminate.
    + destruct (wf_parent _ _ W (S j) d (Some p) ltac:(lia) E) as (p' & [= <-] & Hp). lia.
  - intros j Hj. rewrite Hv. destruct (nth_error (vw st) j) as [[d q]|] eqn:E.
    + destruct (wf_parent _ _ W j d q ltac:(lia) E) as (p & -> & _). eauto.
    + apply nth_error_None in E. lia.
  - intros p n En. destruct (wf_subs _ _ W p n En) as [HS HI]. split; [eapply sorted_subs_NoDup; exact HS|].
    intros j. rewrite HI, Hv. split.
    + intros (d & ->). reflexivity.
    + destruct (nth_error (vw st) j) as [[d q]|]; [intros ->; eauto|discriminate].
  - apply (wf_nonempty _ _ W).
Qed.

Lemma pointer_of_ok l d : Forall (fun x : element => de_id (snd x) = fst x) l -> In d (map snd l) -> pointer_of l (de_id d) = Ok (de_id d).
Proof.
  induction l as [|[p d'] l IH]; intros HF Hin; [destruct Hin|]. inversion HF as [|? ? H1 H2]; subst. cbn [fst snd] in H1.
  cbn [pointer_of]. destruct (de_id d' =? de_id d) eqn:E.
  - apply Z.eqb_eq in E. congruence.
  - destruct Hin as [Hin|Hin]; [cbn [snd] in Hin; subst; rewrite Z.eqb_refl in E; discriminate|]. auto.
Qed.

Lemma rseq_release l nodes order : Forall (fun x : element => de_id (snd x) = fst x) l ->
  (forall n, In n nodes -> In (n_entry n) (map snd l)) -> (forall k, In k order -> (k < length nodes)%nat) ->
  rseq (fun k => match nth_error nodes k with
                 | None => Undef
                 | Some n => do p <- pointer_of l (de_id (n_entry n)); Ok [Release p]
                 end) order
  = Ok (map Release (map (fun k => nth k (map (fun n => de_id (n_entry n)) nodes) 0) order)).
Proof.
  intros HF Hn. induction order as [|k order IH]; intros Ho; cbn [rseq map]; [reflexivity|].
  assert (Hk : (k < length nodes)%nat) by (apply Ho; now left).
  destruct (nth_error nodes k) as [n|] eqn:En; [|apply nth_error_None in En; lia].
  rewrite (pointer_of_ok l (n_entry n)); [|exact HF|apply Hn; eapply nth_error_In; exact En].
  rewrite IH by (intros; apply Ho; now right). cbn [rbind app]. repeat f_equal.
  symmetry. apply nth_error_nth. rewrite nth_error_map, En. reflexivity.
Qed.

Lemma map_nth_seq (l : list Z) : map (fun k => nth k l 0) (seq 0 (length l)) = l.
Proof.
  induction l as [|x l IH]; cbn [length seq map nth]; [reflexivity|]. f_equal. rewrite <- seq_shift, map_map. exact IH.
Qed.

Lemma filter_partition {A} (f : A -> bool) l : Permutation l (filter (fun x => negb (f x)) l ++ filter f l).
Proof.
  induction l as [|x l IH]; cbn [filter]; [constructor|]. destruct (f x); cbn [negb].
  - apply Permutation_cons_app. exact IH.
  - cbn [app]. now constructor.
Qed.

Lemma existsb_In ids x : existsb (Z.eqb x) ids = true <-> In x ids.
Proof.
  rewrite existsb_exists. split; [intros (y & Hy & E); apply Z.eqb_eq in E; now subst|intros H; exists x; split; [exact H|apply Z.eqb_refl]].
Qed.

Lemma made_flags l tr : forall u e root, tree_made u e l root tr -> Permutation (tr_flags tr) (map de_id (tree_entries tr)).
Proof.
  intros u e root HM. pose proof (made_wf u e l root tr HM) as W. rewrite (made_entries tr).
  destruct HM as (_ & _ & _ & _ & _ & -> & HC). rewrite (wf_flags _ _ W). rewrite map_map.
  destruct (wf_root _ _ W) as (d & vs & Ev). rewrite Ev. cbn [tl map fst].
  assert (d = root) as ->.
  { destruct HC as [[_ E]|(_ & newv & a & b & c & G & _)]; [rewrite E in Ev|].
    - unfold vw, start_state in Ev. cbn in Ev. congruence.
    - pose proof (gr_vw _ _ _ _ _ _ _ G) as Hv. rewrite Ev in Hv. unfold vw at 1, start_state in Hv. cbn in Hv. congruence. }
  constructor. apply Permutation_sym, Permutation_rev.
Qed.

Lemma close_tree u e l tr m idx : reading m l idx -> una_ok u -> entries_ok (map snd l) ->
  create_tree u e (map snd l) = Ok (Some tr) ->
  exists live dead ids, hist (m ++ release_not_in_tree (tr_flags tr) l) live dead /\
    Permutation live (map de_id (tree_entries tr)) /\
    m_close l (Some tr) = Ok (map Release ids) /\ Permutation live ids.
Proof.
  intros ((dead & H & _) & Ha) Hu He HT. destruct (create_tree_made _ _ _ _ Hu He HT) as (root & HM).
  pose proof (made_wf u e _ root tr HM) as W. pose proof (made_flags _ tr u e root HM) as HF.
  pose proof (made_nodup u e _ He root tr HM) as HN.
  assert (Hid : Forall (fun x : element => de_id (snd x) = fst x) l) by (eapply Forall_impl; [|exact Ha]; cbn; intros; tauto).
  assert (Hin : forall n, In n (tr_nodes tr) -> In (n_entry n) (map snd l)).
  { intros n Hn. pose proof (wf_in _ _ W) as WI. apply (proj1 (Forall_forall _ _) WI (n_entry n, n_parent n)).
    unfold vw. cbn [final t_nodes]. apply (in_map (fun n => (n_entry n, n_parent n))). exact Hn. }
  set (f := fun x : element => existsb (Z.eqb (de_id (snd x))) (tr_flags tr)).
  assert (HP : Permutation (map fst l) (map fst (filter (fun x => negb (f x)) l) ++ map fst (filter f l)))
    by (rewrite <- map_app; apply Permutation_map, filter_partition).
  assert (HL : Permutation (map fst (filter f l)) (map de_id (tree_entries tr))).
  { destruct (hist_sound _ _ _ H) as (ND & _).
    apply NoDup_Permutation; [|exact HN|].
    - apply (Permutation_NoDup HP) in ND. now apply NoDup_app_r in ND.
    - intros p. split.
      + intros Hp. apply in_map_iff in Hp as (x & <- & Hx). apply filter_In in Hx as [Hx Hf]. unfold f in Hf. apply existsb_In in Hf.
        rewrite <- (proj1 (Forall_forall _ _) Hid x Hx). apply (Permutation_in _ HF Hf).
      + intros Hp. pose proof (Permutation_in _ (Permutation_sym HF) Hp) as Hpf. apply in_map_iff in Hp as (d & <- & Hd).
        unfold tree_entries in Hd. apply in_map_iff in Hd as (n & <- & Hn). pose proof (Hin n Hn) as Hi.
        apply in_map_iff in Hi as ([q d] & E & Hi). cbn [snd] in E. subst d. apply in_map_iff. exists (q, n_entry n).
        pose proof (proj1 (Forall_forall _ _) Hid _ Hi) as E. cbn [fst snd] in E. split; [cbn [fst]; congruence|].
        apply filter_In. split; [exact Hi|]. unfold f. apply existsb_In. exact Hpf. }
  destruct (hist_releases _ _ _ _ _ H HP) as (live & dead' & H' & P').
  exists live, dead'. destruct (wf_nodes _ _ W) as (order & EO & PO). cbn [final t_nodes] in EO, PO.
  exists (map (fun k => nth k (map (fun n => de_id (n_entry n)) (tr_nodes tr)) 0) order).
  split; [unfold release_not_in_tree; rewrite release_list_map; exact H'|].
  split; [now rewrite P'|]. split.
  - unfold m_close. rewrite EO. cbn [rbind]. apply rseq_release; [exact Hid|exact Hin|].
    intros k Hk. pose proof (Permutation_in _ PO Hk) as Hs. apply in_seq in Hs. lia.
  - rewrite P', HL. rewrite (Permutation_map _ PO). unfold tree_entries. rewrite map_map.
    rewrite <- (map_length (fun n => de_id (n_entry n)) (tr_nodes tr)). rewrite map_nth_seq. reflexivity.
Qed.

(** * Opening *)
Definition erase {A B} (r : res (A * B)) : res A :=
  match r with Ok (a, _) => Ok a | Err => Err | Undef => Undef | NoFuel => NoFuel end.

Lemma header_read_size rd t msat h m t' : io_bytes rd -> zlen msat = 109 ->
  header_read rd msat t = (Ok (h, m), t') -> 0 <= fh_sector_size h.
Proof.
  intros HB Hm H. unfold header_read in H. unfold ibind at 1 in H.
  destruct (read_exact_cases rd 0 512 t) as [(data & Hd1 & Hd2 & Hd3)|[Hd _]]; [|rewrite Hd in H; discriminate].
  rewrite Hd1 in H. unfold ilift in H. assert (Hby : Forall is_byte data) by (eapply HB; eauto).
  injection H as H _. destruct (header_read_data_inv data msat h m Hby Hm H) as (e & _ & -> & _).
  cbn [decoded fh_sector_size]. apply Z.pow_nonneg. lia.
Qed.

Definition tree_step (u : una) (m : list event) (o : opened) (l : list element) : Prop :=
  exists idx m', reading m' l idx /\ o_entries o = map snd l /\
    create_tree u (fh_byte_order (o_header o)) (map snd l) = Ok (o_tree o) /\
    m = m' ++ release_not_in_tree (flags_of (o_tree o)) l.

Lemma m_open_cases u rd t : io_bytes rd ->
  let '((r, m), t') := m_open_read u rd t in
  open_read u rd t = (erase r, t') /\
  match r with
  | Ok (o, l) => tree_step u m o l
  | Err => exists dead, hist m [] dead
  | _ => True
  end.
Proof.
  intros HB. unfold m_open_read, open_read, open_tables, ibind, ilift, iret.
  destruct (table_initialize 109) as [msat0| | |] eqn:E0; try (split; [reflexivity|exact I || (exists []; constructor)]).
  assert (Hm0 : zlen msat0 = 109) by (cbv in E0; injection E0 as <-; reflexivity).
  destruct (header_read rd msat0 t) as [[[h msat1]| | |] t1] eqn:Eh; try (split; [reflexivity|exact I || (exists []; constructor)]).
  pose proof (header_read_size _ _ _ _ _ _ HB Hm0 Eh) as Hss.
  destruct (read_msat _ _ _ _ _ _ t1) as [[msat| | |] t2]; try (split; [reflexivity|exact I || (exists []; constructor)]).
  destruct (table_initialize 0) as [sat0| | |]; try (split; [reflexivity|exact I || (exists []; constructor)]).
  destruct (read_sat _ _ _ _ _ _ t2) as [[sat| | |] t3]; try (split; [reflexivity|exact I || (exists []; constructor)]).
  destruct (read_ssat _ _ _ _ _ _ _ t3) as [[ssat| | |] t4]; try (split; [reflexivity|exact I || (exists []; constructor)]).
  unfold m_entries.
  pose proof (m_read_directory_ok rd (fh_byte_order h) (fh_sector_size h) sat (fh_root_directory_sector_identifier h) t4 Hss) as HR.
  destruct (m_read_directory rd (fh_byte_order h) (fh_sector_size h) sat (fh_root_directory_sector_identifier h) t4)
    as [[[l| | |] m] t5].
  - destruct HR as (-> & idx & HR). destruct (create_tree u (fh_byte_order h) (map snd l)) as [o| | |] eqn:ET.
    + split; [reflexivity|]. exists idx, m. auto.
    + split; [reflexivity|]. eapply reading_release; exact HR.
    + split; [reflexivity|exact I].
    + split; [reflexivity|exact I].
  - destruct HR as (-> & HR). split; [reflexivity|exact HR].
  - rewrite HR. split; [reflexivity|exact I].
  - rewrite HR. split; [reflexivity|exact I].
Qed.

Lemma reading_alloced m l idx x : reading m l idx -> In x l -> In (Alloc (fst x)) m.
Proof.
  intros ((dead & H & _) & _) Hx. destruct (hist_sound _ _ _ H) as (_ & _ & L & _).
  destruct (L (fst x)) as (a & b & -> & _); [now apply in_map|]. apply in_or_app. right. now left.
Qed.

Lemma hist_held m live dead p : hist m live dead -> held m p <-> In p live.
Proof.
  intros H. destruct (hist_sound _ _ _ H) as (_ & _ & L & O & I). split; [|apply L].
  intros (a & b & E & Hq). assert (Hin : In (Alloc p) m) by (rewrite E; apply in_or_app; right; now left).
  destruct (I p (or_introl Hin)) as [?|Hd]; [assumption|]. exfalso.
  destruct (O p Hd) as (a' & b' & c' & E' & _).
  assert (Hr : In (Release p) (a ++ Alloc p :: b)).
  { rewrite <- E, E'. apply in_or_app. right. right. apply in_or_app. right. now left. }
  apply (Hq (Release p)); [now right|]. apply in_app_or in Hr as [Hr|[Hr|Hr]]; [apply in_or_app; auto|discriminate|apply in_or_app; auto].
Qed.

Lemma release_none l : release_not_in_tree [] l = release_list l.
Proof.
  unfold release_not_in_tree. f_equal. induction l as [|x l IH]; [reflexivity|]. cbn [filter existsb negb]. now rewrite IH at 1.
Qed.

Lemma released_once u rd : una_ok u -> io_bytes rd ->
  let '((r, m), t) := m_open_read u rd [] in
  open_read u rd [] = (erase r, t) /\
  match r with
  | Ok (o, l) =>
      (forall d, In d (o_entries o) -> In (Alloc (de_id d)) m) /\
      (forall p, held m p <-> exists tr d, o_tree o = Some tr /\ In d (tree_entries tr) /\ p = de_id d) /\
      (forall p, In (Alloc p) m \/ In (Release p) m -> once m p \/ held m p) /\
      exists c, m_close l (o_tree o) = Ok c /\ balanced (m ++ c)
  | Err => balanced m
  | _ => False
  end.
Proof.
  intros Hu HB. pose proof (m_open_cases u rd [] HB) as HC.
  destruct (m_open_read u rd []) as [[r m] t]. destruct HC as (HO & HC). split; [exact HO|].
  destruct (open_read_cases u rd Hu HB) as (r' & t' & HO' & Hdef & _). rewrite HO in HO'. injection HO' as <- <-.
  destruct r as [[o l]| | |]; cbn [erase defined] in *; try contradiction.
  2: { destruct HC as [dead H]. eapply hist_balanced; exact H. }
  destruct HC as (idx & m' & HR & He & HT & ->).
  pose proof (opened_entries u rd Hu HB o t HO) as (Hok & _ & _). rewrite He in Hok.
  assert (Hid : Forall (fun x : element => de_id (snd x) = fst x) l).
  { destruct HR as (_ & Ha). eapply Forall_impl; [|exact Ha]. cbn. tauto. }
  split.
  { intros d Hd. rewrite He in Hd. apply in_map_iff in Hd as (x & <- & Hx). apply in_or_app. left.
    rewrite (proj1 (Forall_forall _ _) Hid x Hx). eapply reading_alloced; eauto. }
  assert (HL : exists live dead ids, hist (m' ++ release_not_in_tree (flags_of (o_tree o)) l) live dead /\
    (forall p, In p live <-> exists tr d, o_tree o = Some tr /\ In d (tree_entries tr) /\ p = de_id d) /\
    m_close l (o_tree o) = Ok (map Release ids) /\ Permutation live ids).
  { destruct (o_tree o) as [tr|] eqn:ET; cbn [flags_of].
    - destruct (close_tree u _ l tr m' idx HR Hu Hok HT) as (live & dead & ids & H & P1 & E & P2).
      exists live, dead, ids. split; [exact H|]. split; [|auto]. intros p. split.
      + intros Hp. apply (Permutation_in _ P1) in Hp. apply in_map_iff in Hp as (d & <- & Hd). eauto.
      + intros (tr' & d & [= <-] & Hd & ->). apply (Permutation_in _ (Permutation_sym P1)). now apply in_map.
    - destruct HR as ((dead & H & _) & _). rewrite release_none.
      destruct (hist_release_all (map fst l) m' _ dead H (Permutation_refl _)) as (dead' & H').
      exists [], dead', []. split; [rewrite release_list_map; exact H'|]. split; [|split; [reflexivity|constructor]].
      intros p. split; [intros []|intros (tr & d & E & _); discriminate]. }
  destruct HL as (live & dead & ids & H & HI & EC & P).
  split; [intros p; rewrite (hist_held _ _ _ p H); apply HI|].
  split.
  { intros p Hp. destruct (hist_sound _ _ _ H) as (_ & _ & L & O & I). destruct (I p Hp); auto. }
  exists (map Release ids). split; [exact EC|]. destruct (hist_release_all ids _ _ _ H P) as (dead' & H').
  eapply hist_balanced; exact H'.
Qed.
