(** Lemmas on the bytes that count. *)
From Coq Require Import ZArith List Bool Lia ZifyBool Relations.
From Verif Require Import Base Spec_IO M_Header M_Table M_Load M_Stream M_Tree M_Open M_Item
  Spec_Stream Spec_Load Spec_Tree Spec_Open Spec_Content L_Base L_Stream L_Load2 L_Open L_Open2 L_Exact L_Fuse Spec_Write L_Write L_Write7
  Spec_Fault L_Fault L_Fault2 Spec_Stores L_Stores L_Stores2 Spec_Foot.
Import ListNotations.
Open Scope Z_scope.

Lemma slice_alike (f f' : list Z) a m : 0 <= a -> 0 <= m -> a + m <= zlen f -> a + m <= zlen f' ->
  (forall p, a <= p < a + m -> keeps f f' p) -> slice f' a m = slice f a m.
Proof.
  intros H1 H2 H3 H4 H. apply znth_ext; [rewrite !zlen_slice by lia; reflexivity|].
  intros i Hi. rewrite zlen_slice in Hi by lia. rewrite !znth_slice by lia.
  destruct (znth_some f (a + i)) as (b & Hb); [lia|]. rewrite Hb. apply (H (a + i)); [lia|exact Hb].
Qed.

Lemma value_slice e (f : list Z) a n p m : 0 <= a -> 0 <= p -> 0 <= m -> p + m <= n ->
  value_at e (slice f a n) p m = value e (slice f (a + p) m).
Proof. intros. unfold value_at. now rewrite slice_slice. Qed.

Lemma value_alike e (f f' : list Z) a n p m : 0 <= a -> 0 <= p -> 0 <= m -> p + m <= n -> a + n <= zlen f -> a + n <= zlen f' ->
  (forall q, a + p <= q < a + p + m -> keeps f f' q) ->
  value_at e (slice f' a n) p m = value_at e (slice f a n) p m.
Proof. intros H1 H2 H3 H4 H5 H6 H. rewrite !value_slice by lia. f_equal. apply slice_alike; auto; lia. Qed.

(** * The header *)
Section Header.
Variables (f f' : list Z).
Hypothesis H512 : 512 <= zlen f.
Hypothesis H512' : 512 <= zlen f'.
Hypothesis HA : forall p, header_byte p -> keeps f f' p.

Lemma header_value e p m : 0 <= p -> 0 <= m -> p + m <= 512 -> (forall q, p <= q < p + m -> header_byte q) ->
  value_at e (slice f' 0 512) p m = value_at e (slice f 0 512) p m.
Proof. intros. apply value_alike; try lia. intros q Hq. apply HA. auto. Qed.

Lemma decoded_alike e : decoded e (slice f' 0 512) = decoded e (slice f 0 512).
Proof.
  unfold decoded. rewrite !(header_value e) by (try lia; intros q Hq; unfold header_byte; lia). reflexivity.
Qed.

Lemma acceptable_alike e : header_acceptable (slice f 0 512) e -> header_acceptable (slice f' 0 512) e.
Proof.
  intros (_ & H2 & H3 & H4 & H5). split; [rewrite zlen_slice; lia|]. unfold order_mark in *.
  rewrite !(header_value e) by (try lia; intros q Hq; unfold header_byte; lia).
  rewrite slice_slice in H2 by lia. rewrite slice_slice in H3 by lia. rewrite !slice_slice by lia.
  change (0 + 0) with 0 in *. change (0 + 28) with 28 in *.
  rewrite (slice_alike f f' 0 8), (slice_alike f f' 28 2); auto; try lia; intros q Hq; apply HA; unfold header_byte; lia.
Qed.

Lemma header_values_alike e : header_values_of e f' = header_values_of e f.
Proof.
  unfold header_values_of. apply map_ext_in. intros k Hk. apply in_seq in Hk. apply header_value; try lia.
  intros q Hq. unfold header_byte. lia.
Qed.
End Header.

(** * Sectors *)
Section Sectors.
Variables (f f' : list Z) (ss : Z).
Hypothesis Hss : 0 < ss.

Lemma request_pos id : 0 <= fst (request ss id).
Proof. pose proof (sector_offset_pos id ss Hss) as G. now rewrite sector_offset_request in G. Qed.

Definition like (id : Z) : Prop :=
  sector_inside f ss id /\ sector_inside f' ss id /\ forall p, in_sector ss id p -> keeps f f' p.

Lemma sector_alike id : like id -> sector_at f' ss id = sector_at f ss id.
Proof.
  intros (H1 & H2 & H3). unfold sector_at. apply slice_alike; auto; try lia; apply (request_pos id).
Qed.

Lemma master_alike e first ids last : (forall id, In id ids -> like id) ->
  master_chain e f ss first ids last -> master_chain e f' ss first ids last.
Proof.
  intros HI H. induction H as [id|id ids last H1 H2 IH]; [constructor|]. constructor; [exact H1|].
  rewrite sector_alike; [|apply HI; now left]. apply IH. intros x Hx. apply HI. now right.
Qed.

Lemma sectors_alike (g : list Z -> list Z) ids : (forall id, In id ids -> like id) ->
  flat_map (fun id => g (sector_at f' ss id)) ids = flat_map (fun id => g (sector_at f ss id)) ids.
Proof.
  intros HI. apply flat_map_ext_in. intros id Hid. now rewrite sector_alike by auto.
Qed.

(** * Directory slots *)
Definition slot_alike (e : endian) (s s' : list Z) : Prop :=
  value_at Little s' 66 1 = value_at Little s 66 1 /\
  (~ slot_empty s -> value_at e s' 64 2 = value_at e s 64 2 /\
     (value_at e s 64 2 <= 128 -> forall i, slot_fields e i s' = slot_fields e i s)).

Lemma slot_bytes_alike e q : 0 <= q -> q + 128 <= zlen f -> q + 128 <= zlen f' ->
  (forall p, slot_byte e (slice f q 128) (p - q) -> keeps f f' p) ->
  slot_alike e (slice f q 128) (slice f' q 128).
Proof.
  intros H1 H2 H3 H. unfold slot_byte in H. split.
  - apply value_alike; try lia. intros p Hp. apply H. left. lia.
  - intros HE.
    assert (HV : forall e' p m, 0 <= p -> 0 <= m -> p + m <= 128 -> (64 <= p /\ p + m <= 67) \/ (68 <= p /\ p + m <= 80) \/ (100 <= p /\ p + m <= 124) ->
      value_at e' (slice f' q 128) p m = value_at e' (slice f q 128) p m).
    { intros e' p m G1 G2 G3 G4. apply value_alike; try lia. intros x Hx. apply H. right. split; [exact HE|]. lia. }
    split; [apply HV; lia|]. intros HL i. unfold slot_fields. rewrite !HV by lia. f_equal.
    assert (Hn : 0 <= value_at e (slice f q 128) 64 2 \/ value_at e (slice f q 128) 64 2 < 0) by lia. destruct Hn as [Hn|Hn].
    + rewrite !slice_slice by lia. apply slice_alike; try lia. intros p Hp. apply H. right. split; [exact HE|]. lia.
    + set (m := value_at e (slice f q 128) 64 2) in *. unfold slice at 1. unfold slice at 2. now replace (Z.to_nat m) with 0%nat by lia.
Qed.

Variable N : nat.
Hypothesis HN : ss = 128 * Z.of_nat N.

Lemma slots_alike e ids : Forall (sector_inside f ss) ids -> Forall (sector_inside f' ss) ids ->
  (forall id j, In id ids -> (j < N)%nat -> slot_alike e (slot_of (sector_at f ss id) j) (slot_of (sector_at f' ss id) j)) ->
  forall k, (k < length ids * N)%nat ->
    slot_alike e (slot_of (bytes_of_sectors f ss ids) k) (slot_of (bytes_of_sectors f' ss ids) k).
Proof.
  intros HI HI' H. induction ids as [|id ids IH]; intros k Hk; [cbn in Hk; lia|].
  inversion HI as [|x y G1 G2]; subst x y. inversion HI' as [|x y G3 G4]; subst x y.
  assert (L : zlen (sector_at f ss id) = ss).
  { unfold sector_at. apply zlen_slice; [apply (request_pos id)|lia|exact G1]. }
  assert (L' : zlen (sector_at f' ss id) = ss).
  { unfold sector_at. apply zlen_slice; [apply (request_pos id)|lia|exact G3]. }
  cbn [bytes_of_sectors flat_map].
  destruct (Nat.lt_ge_cases k N) as [Hlt|Hge].
  - unfold slot_of. rewrite !slice_app_l by lia. apply H; [now left|exact Hlt].
  - replace k with (N + (k - N))%nat by lia. unfold slot_of.
    replace (128 * Z.of_nat (N + (k - N))) with (ss + 128 * Z.of_nat (k - N)) by lia.
    assert (G : forall a b : list Z, zlen a = ss -> slice (a ++ b) (ss + 128 * Z.of_nat (k - N)) 128 = slice b (128 * Z.of_nat (k - N)) 128)
      by (intros a b <-; apply slice_app_r; lia).
    rewrite !G by assumption.
    apply IH; auto; [|cbn [length] in Hk; lia]. intros x j Hx Hj. apply H; [now right|exact Hj].
Qed.
End Sectors.

Lemma slots_entries_alike e a b n : (forall k, (k < n)%nat -> slot_alike e (slot_of a k) (slot_of b k)) ->
  (forall k, (k < n)%nat -> ~ long_name e (slot_of a k)) ->
  slots_entries e b n = slots_entries e a n /\ forall k, (k < n)%nat -> ~ long_name e (slot_of b k).
Proof.
  intros H HL. split.
  - unfold slots_entries. apply flat_map_ext_in. intros k Hk. apply in_seq in Hk. destruct (H k ltac:(lia)) as [H1 H2]. rewrite H1.
    destruct (value_at Little (slot_of a k) 66 1 =? 0) eqn:E; [reflexivity|]. destruct (H2 ltac:(unfold slot_empty; lia)) as [_ H3].
    rewrite H3; [reflexivity|]. specialize (HL k ltac:(lia)). unfold long_name, slot_empty in HL. lia.
  - intros k Hk (HE & HG). destruct (H k Hk) as [H1 H2]. unfold slot_empty in *. rewrite H1 in HE. destruct (H2 HE) as [H3 _].
    rewrite H3 in HG. apply (HL k Hk). split; assumption.
Qed.

(** * What files say that are alike *)
Lemma says_alike f f' o : file_says f (o_header o) (o_msat o) (o_sat o) (o_ssat o) (o_entries o) -> opens_alike f f' o ->
  (exists N, fh_sector_size (o_header o) = 128 * Z.of_nat N) ->
  file_says f' (o_header o) (o_msat o) (o_sat o) (o_ssat o) (o_entries o).
Proof.
  intros (H1 & H2 & H3 & HM & HA & HSS & HD) (HB & H0 & HN) (N & EN). unfold file_says. cbn zeta in *.
  unfold looked_at in HB. cbn zeta in HB.
  set (h := o_header o) in *. set (e := fh_byte_order h) in *. set (ss := fh_sector_size h) in *.
  assert (Hss : 0 < ss) by lia.
  assert (H512 : 512 <= zlen f).
  { destruct H1 as (Hx & _). unfold zlen, slice in Hx |- *. rewrite firstn_length, skipn_length in Hx. lia. }
  specialize (H0 H512). assert (HH : forall p, header_byte p -> keeps f f' p) by (intros; apply HB; auto).
  pose proof (header_values_alike f f' H512 H0 HH e) as EH.
  assert (HT : forall id, table_sector o id -> sector_inside f ss id -> like f f' ss id).
  { intros id Hid HI. split; [exact HI|]. split; [apply (HN id); [now left|exact HI]|]. intros p Hp. apply HB. right. left. exists id. auto. }
  split; [now apply acceptable_alike with (f := f)|]. split; [rewrite (decoded_alike f f'); auto|]. split; [exact H3|]. split; [|split; [|split]].
  - destruct HM as [(A & B & C)|(A & B & ids & last & C1 & C2 & C3 & C4 & C5)]; [left|right].
    + rewrite EH. auto.
    + split; [exact A|]. split; [exact B|]. exists ids, last. rewrite Forall_forall in C2.
      assert (HI : forall id, In id ids -> like f f' ss id).
      { intros id Hid. split; [auto|]. split.
        - apply (HN id); [|now apply C2]. right. left. exists ids, last. auto.
        - intros p Hp. apply HB. right. left. exists id. split; [right; eauto|]. auto. }
      split; [now apply master_alike with (f := f)|]. split; [apply Forall_forall; intros id Hid; apply HI; exact Hid|].
      split; [exact C3|]. split; [exact C4|]. rewrite EH, C5. do 2 f_equal. unfold master_values.
      symmetry. apply (sectors_alike f f' ss Hss (fun s => removelast (words e s))); auto.
  - destruct HA as (k & A1 & A2 & A3 & A4 & A5). exists k. split; [exact A1|]. split; [exact A2|]. rewrite Forall_forall in A3.
    assert (HI : forall id, In id (firstn k (used_ids (o_msat o))) -> like f f' ss id).
    { intros id Hid. apply HT; [|auto]. left. rewrite <- (firstn_skipn k (used_ids _)). apply in_or_app. now left. }
    split; [apply Forall_forall; intros id Hid; apply HI; exact Hid|]. split.
    + destruct A4 as [A4|[A4|(id & A4 & A6)]]; [now left|right; now left|right; right]. exists id. split; [exact A4|].
      intros G. apply A6. apply (HN id); [|exact G]. left. left. eapply nth_error_In; eauto.
    + rewrite A5. f_equal. unfold words_of_sectors. symmetry. apply (sectors_alike f f' ss Hss (words e)); auto.
  - destruct HSS as (ids & A1 & A2 & A3 & A4 & A5 & A6 & A7). exists ids. split; [exact A1|]. split; [exact A2|].
    split; [exact A3|]. split; [exact A4|]. rewrite Forall_forall in A4, A5.
    assert (HI : forall id, In id ids -> like f f' ss id).
    { intros id Hid. apply HT; [|auto]. right. pose proof Hid as Hid'. apply In_nth_error in Hid' as (k & Hk). exists k. split; [now apply A3|auto]. }
    split; [apply Forall_forall; intros id Hid; apply HI; exact Hid|]. split.
    + destruct A6 as [A6|[A6|[A6|(x & A6 & A8)]]]; [now left|right; now left|right; right; now left|right; right; right].
      exists x. split; [exact A6|]. destruct A8 as [A8|[A8|A8]]; auto.
      destruct (Z.eq_dec x EOC) as [->|N1]; [now left|]. destruct (Z.eq_dec x FREE) as [->|N2]; [right; now left|].
      right; right. intros G. apply A8. apply (HN x); [|exact G]. left. right. eauto.
    + rewrite A7. f_equal. unfold words_of_sectors. symmetry. apply (sectors_alike f f' ss Hss (words e)); auto.
  - destruct HD as (D0 & ids & last & A1 & A2 & A3 & A4 & A5 & A6 & A7 & A8). split; [exact D0|]. exists ids, last.
    rewrite Forall_forall in A5.
    assert (HI : forall id, In id ids -> sector_inside f' ss id).
    { intros id Hid. apply (HN id); [|now apply A5]. right. right. apply In_nth_error in Hid as (k & Hk). exists k. now apply A1. }
    assert (EN' : Z.to_nat (ss / 128) = N) by (rewrite EN, (Z.mul_comm 128), Z.div_mul by lia; lia).
    rewrite EN' in *.
    destruct (slots_entries_alike e (bytes_of_sectors f ss ids) (bytes_of_sectors f' ss ids) (length ids * N)) as [E1 E2].
    { apply slots_alike; auto; [apply Forall_forall; exact A5|apply Forall_forall; exact HI|].
      intros id j Hid Hj. unfold slot_of, sector_at. rewrite !slice_slice; try lia; try apply (request_pos ss Hss id).
      pose proof (A5 id Hid) as B1. pose proof (HI id Hid) as B2. unfold sector_inside in B1, B2.
      pose proof (request_pos ss Hss id) as B3. unfold request in B1, B2, B3. cbn [fst] in B1, B2, B3.
      apply slot_bytes_alike; try lia. intros p Hp. apply HB. right. right.
      pose proof Hid as Hid'. apply In_nth_error in Hid' as (k & Hk). exists k, id, (Z.of_nat j).
      split; [now apply A1|]. split; [now apply A5|]. split; [lia|]. split; [lia|].
      unfold sector_at. rewrite slice_slice by lia. unfold request. cbn [fst].
      replace (p - (id + 1) mod 4294967296 * ss - 128 * Z.of_nat j) with (p - ((id + 1) mod 4294967296 * ss + 128 * Z.of_nat j)) by lia. exact Hp. }
    { exact A7. }
    rewrite E1. split; [exact A1|]. split; [exact A2|]. split; [exact A3|]. split; [exact A4|].
    split; [apply Forall_forall; exact HI|]. split; [exact A6|]. split; [exact E2|exact A8].
Qed.

Lemma contents_alike f f' v d s : (forall p, stream_byte v d p -> keeps f f' p) -> contents f v d s -> contents f' v d s.
Proof.
  intros HA (H1 & H2 & H3). split; [exact H1|]. split; [exact H2|]. intros i b Hb. destruct (H3 i b Hb) as (p & Hp & Hf).
  exists p. split; [exact Hp|]. apply (HA p); [|exact Hf]. exists i. split; [|exact Hp]. apply znth_range in Hb. lia.
Qed.

Lemma open_alike u rd f f' o t : una_ok u -> Forall is_byte f -> io_bytes rd -> io_sound rd f' -> io_total rd f' ->
  open_read u (file_reader f) [] = (Ok o, t) -> moderate (o_header o) -> opens_alike f f' o ->
  exists t', open_read u rd [] = (Ok o, t').
Proof.
  intros Hu Hf HB HS HT HO HM HN. pose proof (file_reader_bytes f Hf) as HB0.
  destruct (opened_header u _ Hu HB0 o t HO) as (_ & Hss & Hm).
  destruct (open_says u _ f Hu HB0 (file_reader_sound f) (file_reader_total f) o t HO HM) as (H1 & H2 & H3).
  apply says_alike with (f' := f') in H1; [|exact HN|].
  - destruct (says_open u rd _ Hu HB HS HT _ _ _ _ _ H1 HM H2) as (o' & t' & HO' & E1 & E2 & E3 & E4 & E5). exists t'.
    destruct (open_says u rd f' Hu HB HS HT o' t' HO') as (_ & _ & H3'); [now rewrite E1|]. rewrite E1, E5, H3 in H3'.
    rewrite HO'. repeat f_equal. destruct o, o'. cbn in *. congruence.
  - exists (Z.to_nat (fh_sector_size (o_header o) / 128)). lia.
Qed.

(** * Documents *)
Lemma targets_in l d s : In s (sub_targets l d) -> In s l.
Proof. unfold sub_targets, named. destruct (_ || _); [intros []|]. intros H. now apply filter_In in H. Qed.

Lemma sibling_in l d s : sibling_link l d s -> In s l.
Proof.
  unfold sibling_link, prev_targets, next_targets, named.
  intros [H|H]; [destruct (de_prev d =? FREE)|destruct (de_next d =? FREE)]; try destruct H; now apply filter_In in H.
Qed.

Lemma sub_item_in l d s : sub_item l d s -> In s l.
Proof.
  intros (c & Hc & H). apply targets_in in Hc. apply clos_rt_rtn1 in H. destruct H as [|y z H _]; [exact Hc|]. now apply sibling_in in H.
Qed.

Lemma children_in l d ds : children l d ds -> Forall (fun s => In s l) ds.
Proof. intros [_ H]. apply Forall_forall. intros s Hs. apply (sub_item_in l d). now apply H. Qed.

Lemma contains_alike f f' v l ds fo :
  (forall d p, In d l -> de_type d = 2 -> stream_byte v d p -> keeps f f' p) ->
  contains f v l ds fo -> Forall (fun s => In s l) ds -> contains f' v l ds fo.
Proof.
  intros HA H. induction H as [|d ds n c m s r H1 H2 H3 H4 H5 H6 H7 H8 H IH|d ds ds' n c m a r H1 H2 H3 H4 H5 H6 Ha IHa H IH];
    intros HI; [constructor|inversion HI; subst; constructor; auto|inversion HI; subst; econstructor; eauto].
  - apply contents_alike with (f := f); auto. intros p Hp. apply (HA d p); auto.
  - apply IHa. now apply children_in in H6.
Qed.

Lemma choose_bytes (P : Z -> Z -> Prop) (n : nat) : (forall i, 0 <= i < Z.of_nat n -> exists b, P i b) ->
  exists s, zlen s = Z.of_nat n /\ forall i b, znth s i = Some b -> P i b.
Proof.
  induction n as [|n IH]; intros H.
  - exists []. split; [reflexivity|]. intros i b Hb. apply znth_range in Hb. unfold zlen in Hb. cbn [length] in Hb. lia.
  - destruct IH as (s & Hs & HP); [intros i Hi; apply H; lia|]. destruct (H (Z.of_nat n) ltac:(lia)) as (b & Hb).
    exists (s ++ [b]). split; [rewrite zlen_app, Hs; unfold zlen; cbn [length]; lia|].
    intros i x Hx. pose proof (znth_range _ _ _ Hx) as Hr. rewrite zlen_app, Hs in Hr. unfold zlen in Hr. cbn [length] in Hr.
    destruct (Z.eq_dec i (Z.of_nat n)) as [->|Hi].
    + rewrite <- Hs in Hx. rewrite znth_app_r in Hx by lia. rewrite Z.sub_diag in Hx. cbn in Hx. congruence.
    + rewrite znth_app_l in Hx by lia. auto.
Qed.

Lemma contents_other f f' v d s : zlen f <= zlen f' -> contents f v d s -> exists s', zlen s = zlen s' /\ contents f' v d s'.
Proof.
  intros HL (H1 & H2 & H3).
  destruct (choose_bytes (fun i b => exists p, stream_position v d i p /\ znth f' p = Some b) (length s)) as (s' & Hs & HP).
  - intros i Hi. destruct (znth_some s i) as (b & Hb); [unfold zlen; lia|]. destruct (H3 i b Hb) as (p & Hp & Hf).
    apply znth_range in Hf. destruct (znth_some f' p) as (b' & Hb'); [lia|]. eauto.
  - exists s'. split; [unfold zlen in *; lia|]. split; [exact H1|]. split; [unfold zlen in *; lia|exact HP].
Qed.

Lemma contains_other f f' v l ds fo : zlen f <= zlen f' -> contains f v l ds fo ->
  exists fo', same_items fo fo' /\ contains f' v l ds fo'.
Proof.
  intros HL H. induction H as [|d ds n c m s r H1 H2 H3 H4 H5 H6 H7 H8 H IH|d ds ds' n c m a r H1 H2 H3 H4 H5 H6 Ha IHa H IH].
  - exists Empty. split; constructor.
  - destruct IH as (r' & E1 & E2). destruct (contents_other f f' v d s HL H6) as (s' & E3 & E4).
    exists (AddStream n c m s' r'). split; constructor; auto.
  - destruct IH as (r' & E1 & E2). destruct IHa as (a' & E3 & E4). exists (AddStorage n c m a' r').
    split; [constructor; auto|econstructor; eauto].
Qed.

Section Stored.
Variables (u : una) (f : list Z) (h : file_header) (root : dirent) (doc : document).
Hypothesis Hu : una_ok u.
Hypothesis HF : stores u f h root doc.
Variables (o : opened) (t : trace).
Hypothesis HO : open_read u (file_reader f) [] = (Ok o, t).

Lemma stored_parts : exists ds,
  Forall is_byte f /\ file_says f h (o_msat o) (o_sat o) (o_ssat o) (o_entries o) /\ moderate h /\ o_header o = h /\
  links_ok u (fh_byte_order h) (o_entries o) /\ first_root (o_entries o) root /\ de_id root = 0 /\
  de_name root = doc_name doc /\ de_ctime root = doc_ctime doc /\ de_mtime root = doc_mtime doc /\
  children (o_entries o) root ds /\
  contains f (volume_of h (o_sat o) (o_ssat o) root) (o_entries o) ds (doc_items doc) /\
  (contains f (opened_volume o) (o_entries o) ds (doc_items doc) \/ ds = []).
Proof.
  destruct HF as (msat & sat & ssat & l & ds & Hf & HSy & HM & HL & HR & H0 & N1 & N2 & N3 & HC & HD).
  pose proof (file_reader_bytes f Hf) as HB.
  destruct (says_open u _ f Hu HB (file_reader_sound f) (file_reader_total f) h msat sat ssat l HSy HM HL) as (o' & t' & HO' & E1 & E2 & E3 & E4 & E5).
  rewrite HO in HO'. apply pair_equal_spec in HO' as (HO' & _). apply Ok_inj in HO'. subst o' msat sat ssat l.
  exists ds. split; [exact Hf|]. split; [exact HSy|]. split; [exact HM|]. split; [exact E1|]. repeat (split; [assumption|]).
  destruct (o_tree o) as [tr|] eqn:Et.
  - left. now rewrite (volume_opened u (file_reader f) o t tr root Hu HB HO Et HR), E1.
  - right. destruct (stored_opens u (file_reader f) f Hu HB (file_reader_sound f) (file_reader_total f) h root doc HF)
      as (o2 & t2 & G1 & _ & _ & _ & G2 & _). rewrite HO in G1. apply pair_equal_spec in G1 as (G1 & _). apply Ok_inj in G1. subst o2.
    apply (contains_empty _ _ _ _ _ HD). auto.
Qed.

Lemma stored_N : exists N, fh_sector_size (o_header o) = 128 * Z.of_nat N.
Proof.
  destruct stored_parts as (ds & Hf & _). destruct (opened_header u _ Hu (file_reader_bytes f Hf) o t HO) as (_ & H1 & H2).
  exists (Z.to_nat (fh_sector_size (o_header o) / 128)). lia.
Qed.

Lemma stores_alike f' : Forall is_byte f' -> reads_alike f f' o -> stores u f' h root doc.
Proof.
  intros Hf' (HA & HD). destruct stored_parts as (ds & Hf & H1 & H2 & H3 & H4 & H5 & H6 & H7 & H8 & H9 & H10 & H11 & H12).
  exists (o_msat o), (o_sat o), (o_ssat o), (o_entries o), ds. split; [exact Hf'|]. split.
  { rewrite <- H3 in H1 |- *. apply says_alike with (f := f); auto. exact stored_N. }
  repeat (split; [assumption|]). destruct H12 as [H12|H12].
  - destruct (o_tree o) as [tr|] eqn:Et.
    + rewrite <- H3, <- (volume_opened u (file_reader f) o t tr root Hu (file_reader_bytes f Hf) HO Et H5).
      apply contains_alike with (f := f); auto. now apply children_in in H10.
    + destruct (stored_opens u (file_reader f) f Hu (file_reader_bytes f Hf) (file_reader_sound f) (file_reader_total f) h root doc HF)
        as (o2 & t2 & G1 & _ & _ & _ & G2 & _). rewrite HO in G1. apply pair_equal_spec in G1 as (G1 & _). apply Ok_inj in G1. subst o2.
      rewrite (G2 Et) in H11 |- *. inversion H11. constructor.
  - rewrite H12 in H11 |- *. inversion H11. constructor.
Qed.

Lemma stores_other f' : Forall is_byte f' -> zlen f <= zlen f' -> opens_alike f f' o ->
  exists doc', same_document doc doc' /\ stores u f' h root doc'.
Proof.
  intros Hf' HL HA. destruct stored_parts as (ds & Hf & H1 & H2 & H3 & H4 & H5 & H6 & H7 & H8 & H9 & H10 & H11 & H12).
  destruct (contains_other f f' _ _ _ _ HL H11) as (fo & G1 & G2).
  exists {| doc_name := doc_name doc; doc_ctime := doc_ctime doc; doc_mtime := doc_mtime doc; doc_items := fo |}.
  split; [unfold same_document; cbn; auto|]. exists (o_msat o), (o_sat o), (o_ssat o), (o_entries o), ds. split; [exact Hf'|]. split.
  { rewrite <- H3 in H1 |- *. apply says_alike with (f := f); auto. exact stored_N. }
  repeat (split; [assumption|]). exact G2.
Qed.
End Stored.
