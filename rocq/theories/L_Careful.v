(** Property sets read by two I/O layers, of which one delivers all of the file. *)
From Coq Require Import ZArith List Bool Lia.
From Verif Require Import Base Spec_IO M_Table M_Load M_Stream M_Prop Spec_Stream Spec_Content
  L_Base L_Stream L_Stream2 L_Stream3 L_Fuse Spec_Fault L_Fault L_Fault2 Spec_Requests L_Requests.
Import ListNotations.
Open Scope Z_scope.

(** [m] fails, or [m0] has the same result, whatever was asked for before. *)
Definition careful {A} (m m0 : io A) : Prop :=
  forall t t0, fst (m t) = Err \/ fst (m0 t0) = fst (m t).

Lemma careful_ok {A} (m m0 : io A) t a t' t0 : careful m m0 -> m t = (Ok a, t') -> exists t0', m0 t0 = (Ok a, t0').
Proof.
  intros H E. destruct (H t t0) as [G|G]; rewrite E in G; [discriminate|]. destruct (m0 t0) as [r t1]. cbn [fst] in G. subst r. eauto.
Qed.

Lemma careful_lift {A} (r : res A) : careful (ilift r) (ilift r).
Proof. intros t t0. now right. Qed.

Lemma careful_ret {A} (a : A) : careful (iret a) (iret a).
Proof. exact (careful_lift (Ok a)). Qed.

Lemma careful_err {A} : careful (@ierr A) ierr.
Proof. exact (careful_lift Err). Qed.

Lemma careful_bind {A B} (m m0 : io A) (k k0 : A -> io B) :
  careful m m0 -> (forall a, careful (k a) (k0 a)) -> careful (ibind m k) (ibind m0 k0).
Proof.
  intros Hm Hk t t0. unfold ibind. specialize (Hm t t0). destruct (m t) as [r t1], (m0 t0) as [r0 t2]. cbn [fst] in Hm.
  destruct Hm as [->| ->]; [now left|]. destruct r as [a| | |]; cbn [fst]; auto. apply Hk.
Qed.

Lemma careful_from {A B} (r : res A) (k k0 : A -> io B) :
  (forall a, r = Ok a -> careful (k a) (k0 a)) -> careful (ibind (ilift r) k) (ibind (ilift r) k0).
Proof. intros Hk t t0. unfold ibind, ilift. destruct r as [a| | |]; [|now right..]. exact (Hk a eq_refl t t0). Qed.

(** The same results for the same requests before. *)
Definition alike {A} (m m0 : io A) : Prop := forall t, m t = m0 t.

Lemma alike_bind {A B} (m m0 : io A) (k k0 : A -> io B) :
  alike m m0 -> (forall a, alike (k a) (k0 a)) -> alike (ibind m k) (ibind m0 k0).
Proof. intros Hm Hk t. unfold ibind. rewrite (Hm t). destruct (m0 t) as [[a| | |] t']; auto. apply Hk. Qed.

(** * Streams *)
Section Streams.
Variables (rd rd0 : reader) (f : list Z).
Hypothesis HS : io_sound rd f.
Hypothesis HS0 : io_sound rd0 f.
Hypothesis HT0 : io_total rd0 f.

Lemma exact_careful off n : 0 <= off -> 0 < n -> careful (read_exact rd off n) (read_exact rd0 off n).
Proof.
  intros Ho Hn t t0. rewrite !read_exact_got. cbn [fst]. destruct (got rd t off n) as [x|] eqn:E; [right|now left].
  apply got_full in E as [E1 E2]. destruct (HS _ _ _ _ Ho Hn E1 E2) as [E3 ->].
  destruct (HT0 t0 off n Ho Hn E3) as (l0 & G1 & G2). destruct (HS0 _ _ _ _ Ho Hn G1 G2) as [_ ->].
  replace (got rd0 t0 off n) with (Some (slice f off n)); [reflexivity|]. symmetry. apply got_full. auto.
Qed.

Lemma stream_loop_careful v d : volume_ok v -> dirent_ok d ->
  forall fuel id index so size cap acc,
    nth_sector (stream_table v d) (de_sector d) (Z.to_nat index) id -> 0 <= index ->
    (size <= 0 \/ index * stream_sector_size v d <= so < (index + 1) * stream_sector_size v d) ->
    careful (stream_loop fuel rd v d id index so size cap acc) (stream_loop fuel rd0 v d id index so size cap acc).
Proof.
  intros HV HD. pose proof (stream_ss_pos v d HV) as Hss. set (ss := stream_sector_size v d) in *.
  induction fuel as [|fuel IH]; intros id index so size cap acc Hns Hi Hb; cbn [stream_loop]; [apply careful_lift|].
  destruct (size <=? 0) eqn:E0; [apply careful_ret|]. destruct Hb as [Hb|Hb]; [lia|].
  destruct (id =? END_OF_CHAIN); [apply careful_err|]. fold ss. cbn zeta.
  assert (Hu : is_u32 id) by exact (nth_sector_u32 _ _ _ _ (stream_table_u32 v d HV) (do_sector d HD) Hns). unfold is_u32 in Hu.
  apply careful_from. intros base Hbase. pose proof (sector_read_offset_nonneg _ _ _ _ HV (proj1 Hu) Hbase) as Hb0.
  set (delta := if index * ss <? so then so - index * ss else 0) in *.
  assert (Hdelta : delta = so - index * ss) by (unfold delta; destruct (index * ss <? so) eqn:?; lia).
  set (rs := if size <? u64 (ss - delta) then size else u64 (ss - delta)) in *.
  assert (Hrs : 0 < rs /\ rs <= size /\ rs <= ss - delta /\ (rs < size -> rs = ss - delta))
    by (unfold rs; rewrite u64_id by lia; destruct (size <? ss - delta) eqn:?; lia).
  destruct (cap <? rs); [apply careful_lift|].
  apply careful_bind; [apply exact_careful; lia|]. intros l. apply careful_from. intros id' Hnext.
  destruct (index =? INT_MAX); [apply careful_lift|].
  apply table_next_ok in Hnext as [Hnext _]; [|lia]. apply IH; [|lia|lia].
  replace (Z.to_nat (index + 1)) with (S (Z.to_nat index)) by lia. econstructor; eauto.
Qed.

Lemma io_read_careful v d offset size cap : volume_ok v -> dirent_ok d -> offset < 4294967296 ->
  careful (io_read_stream rd v d offset size cap) (io_read_stream rd0 v d offset size cap).
Proof.
  intros HV HD Ho. unfold io_read_stream. destruct (offset <? 0) eqn:E1; [apply careful_err|].
  destruct (SSIZE_MAX <? size); [apply careful_err|]. cbn zeta. set (index := s32 (offset / stream_sector_size v d)).
  destruct ((index <? 0) || (zlen (stream_table v d) <=? index)) eqn:E2; [apply careful_err|].
  apply careful_from. intros id Hid.
  apply skip_sectors_ok in Hid; [|apply stream_table_u32; auto|apply (do_sector d HD)].
  pose proof (stream_ss_pos v d HV) as Hss.
  assert (Hix : index = offset / stream_sector_size v d) by (eapply index_small; eauto; lia).
  apply stream_loop_careful; auto; [lia|]. right. rewrite Hix. pose proof (Z.div_mod offset (stream_sector_size v d)).
  pose proof (Z.mod_pos_bound offset (stream_sector_size v d)). nia.
Qed.

Lemma read_buffer_careful v d c n cap : volume_ok v -> dirent_ok d ->
  careful (stream_read_buffer rd v d c n cap) (stream_read_buffer rd0 v d c n cap).
Proof.
  intros HV HD. pose proof (do_size d HD) as Hds. unfold is_u32 in Hds. unfold stream_read_buffer.
  destruct (negb _); [apply careful_err|]. destruct (c <? 0); [apply careful_err|]. destruct (SSIZE_MAX <? n); [apply careful_err|].
  destruct (de_size d <=? c) eqn:E; [apply careful_ret|]. cbn zeta.
  apply careful_bind; [apply io_read_careful; auto; lia|]. intros l. destruct (_ =? _); [apply careful_ret|apply careful_err].
Qed.
End Streams.

(** A stream of which all bytes are delivered is read alike. *)
Lemma read_buffer_alike rd rd0 f v d c n cap :
  io_sound rd f -> io_sound rd0 f -> io_total rd0 f -> volume_ok v -> dirent_ok d -> short_ok v d -> intact v d ->
  delivers rd v d 0 (de_size d) -> alike (stream_read_buffer rd v d c n cap) (stream_read_buffer rd0 v d c n cap).
Proof.
  intros HS HS0 HT0 HV HD HSh HI HA t.
  assert (G : forall c n, 0 <= n -> 0 <= c -> stream_read_buffer rd v d c n cap t = stream_read_buffer rd0 v d c n cap t).
  { intros c' n' Hn Hc. apply (read_delivered v d HV HD HSh HI rd rd0 f); auto using delivers_part. }
  destruct (Z_lt_ge_dec c 0) as [Hc|Hc].
  { unfold stream_read_buffer. replace (c <? 0) with true by (symmetry; apply Z.ltb_lt; lia). reflexivity. }
  destruct (Z_lt_ge_dec n 0) as [Hn|Hn]; [|apply G; lia].
  pose proof (do_size d HD) as Hds. unfold is_u32 in Hds.
  unfold stream_read_buffer. destruct (negb _) eqn:E1; [reflexivity|]. destruct (c <? 0) eqn:E2; [reflexivity|].
  destruct (SSIZE_MAX <? n); [reflexivity|]. destruct (de_size d <=? c) eqn:E; [reflexivity|]. cbn zeta.
  destruct ((de_size d <? n) || (u64 (de_size d - n) <? c)).
  - specialize (G c (de_size d - c) ltac:(lia) ltac:(lia)). unfold stream_read_buffer in G. rewrite E1, E2, E in G. cbn zeta in G.
    replace (SSIZE_MAX <? de_size d - c) with false in G by (symmetry; apply Z.ltb_ge; unfold SSIZE_MAX; lia).
    replace (if (de_size d <? de_size d - c) || (u64 (de_size d - (de_size d - c)) <? c) then de_size d - c else de_size d - c)
      with (de_size d - c) in G by now destruct (_ || _). exact G.
  - unfold ibind. f_equal. assert (GI : io_read_stream rd v d c n cap t = io_read_stream rd0 v d c n cap t); [|now rewrite GI].
    unfold io_read_stream. destruct (_ <? 0); [reflexivity|]. destruct (_ <? n); [reflexivity|]. cbn zeta. destruct (_ || _); [reflexivity|].
    unfold ibind, ilift. destruct (skip_sectors _ _ _); [|reflexivity..].
    replace (Z.to_nat n + 1)%nat with 1%nat by lia. cbn [stream_loop]. replace (n <=? 0) with true by (symmetry; apply Z.leb_le; lia). reflexivity.
Qed.

(** * Property sets *)
Section Sets.
Variable R : forall A, io A -> io A -> Prop.
Hypothesis Rlift : forall A (r : res A), R A (ilift r) (ilift r).
Hypothesis Rbind : forall A B (m m0 : io A) (k k0 : A -> io B), R A m m0 -> (forall a, R B (k a) (k0 a)) -> R B (ibind m k) (ibind m0 k0).
Variable lib : fvlib.
Variables rd rd0 : reader.
Variable v : volume.
Variable d : dirent.
Variable cp : Z.
Hypothesis Rread : forall c n cap, R _ (stream_read_buffer rd v d c n cap) (stream_read_buffer rd0 v d c n cap).

Lemma Rret A (a : A) : R A (iret a) (iret a).
Proof. exact (Rlift _ (Ok a)). Qed.
Lemma Rerr A : R A ierr ierr.
Proof. exact (Rlift _ Err). Qed.

Lemma pread_rel c n : R _ (pread rd v d c n) (pread rd0 v d c n).
Proof. apply Rbind; [apply Rread|]. intros [l c']. destruct (_ =? _); [apply Rret|apply Rerr]. Qed.

Ltac step := first
  [ apply Rlift | apply Rret | apply Rerr | apply pread_rel
  | apply Rbind; [|intros ?]
  | match goal with |- R _ (let '(_, _) := ?x in _) _ => destruct x end
  | match goal with |- R _ (if ?b then _ else _) _ => destruct b end ].

Lemma multi_loop_rel k e : forall c off, R _ (multi_loop rd v d k e c off) (multi_loop rd0 v d k e c off).
Proof. induction k as [|k IH]; intros c off; cbn [multi_loop]; repeat (apply IH || step). Qed.

Lemma read_value_rel t k enc c size : R _ (read_value lib rd v d t k enc c size) (read_value lib rd0 v d t k enc c size).
Proof. unfold read_value. cbn zeta. repeat step. Qed.

Lemma read_data_rel e c off : R _ (read_data lib rd v d cp e c off) (read_data lib rd0 v d cp e c off).
Proof.
  unfold read_data. cbn zeta. repeat step. destruct (shape_of cp e _); repeat (apply read_value_rel || apply multi_loop_rel || step).
Qed.

Lemma properties_loop_rel k e base : forall c pos acc,
  R _ (properties_loop lib rd v d cp k e base c pos acc) (properties_loop lib rd0 v d cp k e base c pos acc).
Proof.
  induction k as [|k IH]; intros c pos acc; cbn [properties_loop]; [step|].
  unfold read_list_entry. repeat (apply IH || apply read_data_rel || step).
Qed.

Lemma sections_loop_rel k e : forall c pos acc, R _ (sections_loop lib rd v d cp k e c pos acc) (sections_loop lib rd0 v d cp k e c pos acc).
Proof.
  induction k as [|k IH]; intros c pos acc; cbn [sections_loop]; [step|].
  unfold section_list_entry, section_read. repeat (apply IH || apply properties_loop_rel || step).
Qed.

Lemma get_set_rel c : R _ (get_set lib rd v d cp c) (get_set lib rd0 v d cp c).
Proof. unfold get_set. repeat (apply sections_loop_rel || step). Qed.
End Sets.

Lemma get_set_careful lib rd rd0 f v d cp c : io_sound rd f -> io_sound rd0 f -> io_total rd0 f -> volume_ok v -> dirent_ok d ->
  careful (get_set lib rd v d cp c) (get_set lib rd0 v d cp c).
Proof.
  intros HS HS0 HT0 HV HD. apply (get_set_rel (@careful)).
  - intros A r. apply careful_lift.
  - intros A B m m0 k k0. apply careful_bind.
  - intros c' n cap. now apply (read_buffer_careful rd rd0 f).
Qed.

Lemma get_set_alike lib rd rd0 f v d cp c : io_sound rd f -> io_sound rd0 f -> io_total rd0 f ->
  volume_ok v -> dirent_ok d -> short_ok v d -> intact v d -> delivers rd v d 0 (de_size d) ->
  alike (get_set lib rd v d cp c) (get_set lib rd0 v d cp c).
Proof.
  intros HS HS0 HT0 HV HD HSh HI HA. apply (get_set_rel (@alike)).
  - intros A r t. reflexivity.
  - intros A B m m0 k k0. apply alike_bind.
  - intros c' n cap. now apply (read_buffer_alike rd rd0 f).
Qed.
