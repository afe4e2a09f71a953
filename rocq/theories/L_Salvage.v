(** Lemmas on the export of damaged documents. *)
From Coq Require Import ZArith List Bool Lia Arith ZifyBool.
From Verif Require Import Base Spec_IO M_Header M_Table M_Load M_Stream M_Tree M_Open M_Item M_Export
  Spec_Stream Spec_Load Spec_Tree Spec_Open Spec_Content Spec_Item Spec_Export
  L_Base L_Stream L_Stream2 L_Prop L_Prop2 L_Export L_Export2 L_Export3
  L_Stream3 L_Write7 Spec_Write Spec_Doc L_Doc Spec_DocExport L_DocExport Spec_Requests Spec_Salvage.
Import ListNotations.
Open Scope Z_scope.

(** * Copying without failures of the host: whole buffers *)
Lemma copy_loop_buffers ho rd v d s p fuel : is_stream rd v d s -> (forall k, ho_fault ho k = None) -> forall c left w,
  0 <= c -> left = de_size d - c -> 0 <= left -> (left = 0 \/ exists k, c = 32768 * k) ->
  on_disk (x_disk w) p = Some (Data (slice s 0 c)) ->
  exists l, on_disk (x_disk (snd (copy_loop ho rd v fuel d p c left w))) p = Some (Data l) /\
    (l = s \/ exists k, zlen l = 32768 * k).
Proof.
  intros HS HF.
  assert (Hlen : zlen s = de_size d /\ de_size d < 4294967296).
  { destruct HS as (_ & HD & _ & _ & f & _ & _ & H & _). destruct HD as [_ HD].
    unfold is_u32 in HD. lia. }
  induction fuel as [|fuel IH]; intros c left w Hc Hl Hl0 Hk Hp; cbn [copy_loop].
  { exists (slice s 0 c). split; [exact Hp|]. destruct Hk as [Hk|(k & Hk)].
    - left. replace c with (zlen s) by lia. apply slice_full.
    - right. exists k. rewrite zlen_slice by lia. exact Hk. }
  destruct (0 <? left) eqn:E0.
  2:{ exists (slice s 0 c). split; [exact Hp|]. left. replace c with (zlen s) by lia. apply slice_full. }
  cbv zeta. set (size := if left <? BUFFER_SIZE then left else BUFFER_SIZE).
  assert (Hsz : 0 < size <= left /\ (size = left \/ size = 32768)).
  { unfold size, BUFFER_SIZE. destruct (left <? 32768) eqn:E; lia. }
  clearbody size. destruct Hsz as (Hsz & Hsz2). destruct Hk as [Hk|(k & Hk)]; [lia|].
  pose proof (read_item_disk rd v d c size w) as Hr. unfold xbind at 1.
  destruct (read_item rd v d c size w) as [[[l c']| | |] w1] eqn:Eri; cbn [snd fst] in *;
    try (exists (slice s 0 c); rewrite Hr; split; [exact Hp|]; right; exists k; rewrite zlen_slice by lia; exact Hk).
  destruct (read_item_ok _ _ _ _ _ _ _ _ _ _ HS (proj1 Hsz) Eri) as ((F1 & F2 & F3 & ->) & ->).
  destruct (no_fault_write ho p (slice s c size) w1 HF) as (w2 & Hw & Hd). rewrite (xbind_Ok _ _ _ _ _ Hw).
  rewrite Hr in Hd. rewrite (written_of _ _ _ Hp) in Hd.
  apply IH; try lia.
  - unfold u32, TWO32. rewrite Z.mod_small by lia. lia.
  - unfold u32, TWO32. rewrite Z.mod_small by lia. lia.
  - unfold u32, TWO32. rewrite Z.mod_small by lia. destruct Hsz2 as [->| ->]; [left; lia|right; exists (k + 1); lia].
  - rewrite Hd, on_disk_same. do 2 f_equal.
    destruct (slice_snoc s c size (length (slice s c size)) ltac:(lia) ltac:(lia)) as [H2|]; [|lia].
    rewrite firstn_all in H2.
    assert (Hz : Z.of_nat (length (slice s c size)) = size) by (apply (zlen_slice s c size); lia).
    rewrite Hz, Z.min_id in H2. exact H2.
Qed.

(** A stream that two I/O layers read alike is copied alike. *)
Lemma copy_loop_alike ho rd rd0 v d p fuel :
  (forall c n t, 0 <= n -> 0 <= c -> c + n <= de_size d -> stream_read_buffer rd v d c n BUFFER_SIZE t = stream_read_buffer rd0 v d c n BUFFER_SIZE t) ->
  (forall c n t l c' t', 0 <= c -> 0 <= n -> stream_read_buffer rd v d c n BUFFER_SIZE t = (Ok (l, c'), t') -> c' = c + zlen l) ->
  forall c left w, 0 <= c -> left = de_size d - c -> 0 <= left < 4294967296 ->
    copy_loop ho rd v fuel d p c left w = copy_loop ho rd0 v fuel d p c left w.
Proof.
  intros HA HC. induction fuel as [|fuel IH]; intros c left w Hc Hl Hr; [reflexivity|]. cbn [copy_loop].
  destruct (0 <? left) eqn:E0; [|reflexivity]. cbv zeta. set (size := if left <? BUFFER_SIZE then left else BUFFER_SIZE).
  assert (Hsz : 0 < size <= left) by (unfold size, BUFFER_SIZE; destruct (left <? 32768) eqn:E; lia). clearbody size.
  assert (E : read_item rd v d c size w = read_item rd0 v d c size w) by (unfold read_item; rewrite HA by lia; reflexivity).
  unfold xbind at 1 3. rewrite <- E. destruct (read_item rd v d c size w) as [[[l c']| | |] w1] eqn:Er; try reflexivity.
  assert (Hc' : c' = c + size).
  { unfold read_item in Er. destruct (stream_read_buffer rd v d c size BUFFER_SIZE (x_trace w)) as [r tr] eqn:Es.
    apply pair_equal_spec in Er as [Er _]. apply rbind_ok in Er as ([l0 c0] & -> & Er).
    destruct (zlen l0 =? size) eqn:Ez; [|discriminate]. apply Ok_inj in Er. apply pair_equal_spec in Er as [-> ->].
    assert (Hs0 : 0 <= size) by lia. rewrite (HC _ _ _ _ _ _ Hc Hs0 Es). lia. }
  unfold xbind. destruct (write_buffer ho p l w1) as [[x| | |] w2]; try reflexivity.
  unfold u32, TWO32. rewrite Z.mod_small by lia. apply IH; lia.
Qed.

Section Salvage.
Variables (ho : host) (rd rd0 : reader) (v : volume) (t : tree) (safe : list Z -> list Z).
Let e := v_byte_order v.
Hypothesis HT : tree_shape t.
Hypothesis HV : volume_ok v.
Hypothesis HD : forall k nd, nth_error (tr_nodes t) k = Some nd -> dirent_ok (n_entry nd).
Hypothesis no_data : forall k nd, nth_error (tr_nodes t) k = Some nd -> de_type (n_entry nd) = 1 -> de_size (n_entry nd) = 0.
Hypothesis HR : forall d s, is_readable_stream rd0 v d s -> is_stream rd v d s.
Hypothesis HA : forall d s c n cap t, is_readable_stream rd0 v d s -> can_read rd v d -> 0 <= n -> 0 <= c -> c + n <= de_size d ->
  stream_read_buffer rd v d c n cap t = stream_read_buffer rd0 v d c n cap t.
Let calm := forall k, ho_fault ho k = None.

(** What is made for a stream and for a storage. *)
Definition stream_made (d : dirent) (p s : list Z) (x : list (list Z * file_entry)) : Prop :=
  (~ calm /\ (x = [] \/ x = [(p, Directory)])) \/
  exists s', x = [(p, Directory); (data_path p, Data s')] /\ begins s' s /\
    (calm -> (s' = s \/ exists k, zlen s' = 32768 * k) /\ (can_read rd v d -> s' = s)).

Inductive made : list nat -> forest -> list Z -> list (list Z * file_entry) -> Prop :=
| md_empty dir : made [] Empty dir []
| md_stream j js nd n c m s r dir x l :
    nth_error (tr_nodes t) j = Some nd -> stream_made (n_entry nd) (dir ++ 47 :: safe n) s x -> made js r dir l ->
    made (j :: js) (AddStream n c m s r) dir (x ++ l)
| md_storage_part j js nd n c m a r dir x l :
    nth_error (tr_nodes t) j = Some nd -> ~ calm ->
    (x = [] \/ x = [(dir ++ 47 :: safe n, Directory)] \/
     x = [(dir ++ 47 :: safe n, Directory); (data_path (dir ++ 47 :: safe n), Data [])]) ->
    made js r dir l -> made (j :: js) (AddStorage n c m a r) dir (x ++ l)
| md_storage j js nd n c m a r dir x l :
    nth_error (tr_nodes t) j = Some nd -> made (n_subs nd) a (dir ++ 47 :: safe n) x -> made js r dir l ->
    made (j :: js) (AddStorage n c m a r) dir
      (((dir ++ 47 :: safe n, Directory) :: (data_path (dir ++ 47 :: safe n), Data []) :: x) ++ l).

Definition gains (s s' : disk) (x : list (list Z * file_entry)) : Prop := adds s s' (fun q y => In (q, y) x).

Lemma gains_none s : gains s s [].
Proof. intros q y. cbn [In]. tauto. Qed.

Lemma gains_app a b c x y : gains a b x -> gains b c y -> gains a c (x ++ y).
Proof. intros H1 H2 q z. rewrite (H2 q z), (H1 q z), in_app_iff. tauto. Qed.

Lemma gains_one s p y : on_disk s p = None -> gains s ((p, y) :: s) [(p, y)].
Proof.
  intros Hn q z. rewrite on_disk_cons. cbn [In]. destruct (list_eq_dec Z.eq_dec q p) as [->|Hq].
  - split; [intros [= <-]; auto|]. intros [H|[H|[]]]; [congruence|]. apply pair_equal_spec in H. destruct H as [_ ->]. reflexivity.
  - split; [auto|]. intros [H|[H|[]]]; [exact H|]. apply pair_equal_spec in H. destruct H. congruence.
Qed.

Lemma gains_below s s' x q : gains s s' x -> on_disk s q = None -> (forall y, ~ In (q, y) x) -> on_disk s' q = None.
Proof. intros H1 H2 H3. eapply adds_none; eauto. Qed.

(** Until the data file is open. *)
Definition item_rest (fuel : nat) (k : nat) (d : dirent) (path : list Z) : xio unit :=
  dx _ <- copy_item ho rd v d (path_join path stream_data_name);
  dx _ <- close_file ho;
  dx subs <- xlift (sub_nodes t k);
  sub_items_loop (export_item ho rd v t fuel) 0 subs path.

Lemma faulty k z : ho_fault ho k = Some z -> ~ calm.
Proof. intros H C. rewrite (C k) in H. discriminate. Qed.

Lemma exists_step p n w : dot_name n = false -> on_disk (x_disk w) (path_join p n) = None ->
  exists r w', file_exists ho p n w = (r, w') /\ x_disk w' = x_disk w /\ (r = Ok false \/ (r = Err /\ ~ calm)).
Proof.
  intros H1 H2. unfold file_exists, call. rewrite H1, H2. destruct (ho_fault ho (x_calls w)) as [z|] eqn:F; eexists; eexists;
    (split; [reflexivity|]; split; [reflexivity|]); [right; split; [reflexivity|eapply faulty; eauto]|left; reflexivity].
Qed.

Lemma mkdir_step p n w : dot_name n = false -> on_disk (x_disk w) (path_join p n) = None ->
  exists r w', make_directory ho p n w = (r, w') /\
    ((r = Ok tt /\ x_disk w' = (path_join p n, Directory) :: x_disk w) \/ (r = Err /\ ~ calm /\ x_disk w' = x_disk w)).
Proof.
  intros H1 H2. unfold make_directory, call. rewrite H1, H2. destruct (ho_fault ho (x_calls w)) as [z|] eqn:F; eexists; eexists;
    (split; [reflexivity|]); [right; split; [reflexivity|split; [eapply faulty; eauto|reflexivity]]|left; split; reflexivity].
Qed.

Lemma open_step p w :
  exists r w', open_write ho p w = (r, w') /\
    ((r = Ok tt /\ x_disk w' = (p, Data []) :: x_disk w) \/ (r = Err /\ ~ calm /\ x_disk w' = x_disk w)).
Proof.
  unfold open_write, call. destruct (ho_fault ho (x_calls w)) as [z|] eqn:F; eexists; eexists;
    (split; [reflexivity|]); [right; split; [reflexivity|split; [eapply faulty; eauto|reflexivity]]|left; split; reflexivity].
Qed.

Lemma xbind_Err {A B} (m : xio A) (k : A -> xio B) w w' : m w = (Err, w') -> xbind m k w = (Err, w').
Proof. intros H. unfold xbind. now rewrite H. Qed.

Lemma item_begins fuel k nd nm index dir w :
  nth_error (tr_nodes t) k = Some nd -> de_name (n_entry nd) = nm -> host_name ho e safe nm ->
  vacant (x_disk w) (path_join dir (safe nm)) ->
  let p := path_join dir (safe nm) in
  (~ calm /\ exists w' x, export_item ho rd v t (S fuel) k index dir w = (Err, w') /\
     gains (x_disk w) (x_disk w') x /\ (x = [] \/ x = [(p, Directory)])) \/
  exists w', export_item ho rd v t (S fuel) k index dir w = item_rest fuel k (n_entry nd) p w' /\
    x_disk w' = (data_path p, Data []) :: (p, Directory) :: x_disk w.
Proof.
  intros Hk Hnm ((raw & R1 & R2) & Hslash & Hres) (V1 & V2) p.
  assert (Hdot : dot_name (safe nm) = false).
  { apply not_dots. intros Hi. apply Hres. destruct Hi as [<-|[<-|[]]]; simpl; auto. }
  rewrite export_item_unfold.
  assert (Hv : xlift (node_value t k) w = (Ok (n_entry nd), w)) by (unfold xlift, node_value; now rewrite Hk).
  rewrite (xbind_Ok _ _ _ _ _ Hv).
  destruct (exists_step dir (safe nm) w Hdot V1) as (r1 & w1 & E1 & D1 & [->|(-> & NC)]).
  2:{ assert (Hch : choose_name ho v (n_entry nd) index dir w = (Err, w1)).
      { unfold choose_name. fold e. rewrite Hnm, R1, R2. exact (xbind_Err _ _ _ _ E1). }
      left. split; [exact NC|]. exists w1, []. split; [exact (xbind_Err _ _ _ _ Hch)|]. rewrite D1. split; [apply gains_none|auto]. }
  assert (Hch : choose_name ho v (n_entry nd) index dir w = (Ok (safe nm), w1)).
  { unfold choose_name. fold e. rewrite Hnm, R1, R2, (xbind_Ok _ _ _ _ _ E1). reflexivity. }
  rewrite (xbind_Ok _ _ _ _ _ Hch). rewrite <- D1 in V1, V2 |- *. clear Hch E1 D1 Hv w.
  destruct (mkdir_step dir (safe nm) w1 Hdot V1) as (r2 & w2 & E2 & [(-> & D2)|(-> & NC & D2)]).
  2:{ left. split; [exact NC|]. exists w2, []. split; [exact (xbind_Err _ _ _ _ E2)|]. rewrite D2. split; [apply gains_none|auto]. }
  rewrite (xbind_Ok _ _ _ _ _ E2). cbv zeta. fold p. fold p in D2, V1, V2.
  assert (G1 : gains (x_disk w1) (x_disk w2) [(p, Directory)]) by (rewrite D2; apply gains_one; exact V1).
  assert (Hnf : on_disk (x_disk w2) (path_join p stream_data_name) = None).
  { rewrite D2, on_disk_other; [apply V2|]. intros E. symmetry in E. exact (join_neq _ _ E). }
  destruct (exists_step p stream_data_name w2 eq_refl Hnf) as (r3 & w3 & E3 & D3 & [->|(-> & NC)]).
  2:{ left. split; [exact NC|]. exists w3, [(p, Directory)]. split; [exact (xbind_Err _ _ _ _ E3)|]. rewrite D3. auto. }
  rewrite (xbind_Ok _ _ _ _ _ E3). cbv iota.
  destruct (open_step (path_join p stream_data_name) w3) as (r4 & w4 & E4 & [(-> & D4)|(-> & NC & D4)]).
  2:{ left. split; [exact NC|]. exists w4, [(p, Directory)]. split; [exact (xbind_Err _ _ _ _ E4)|]. rewrite D4, D3. auto. }
  rewrite (xbind_Ok _ _ _ _ _ E4). right. exists w4. split; [reflexivity|]. rewrite D4, D3, D2. reflexivity.
Qed.

Lemma gains_data s s' p l : vacant s p ->
  on_disk s' (data_path p) = Some (Data l) ->
  (forall q, q <> data_path p -> on_disk s' q = on_disk ((p, Directory) :: s) q) ->
  gains s s' [(p, Directory); (data_path p, Data l)].
Proof.
  intros (V1 & V2) H1 H2 q y. destruct (list_eq_dec Z.eq_dec q (data_path p)) as [->|Hq].
  - rewrite H1. cbn [In]. split; [intros [= <-]; auto|]. intros [H|[H|[H|[]]]].
    + unfold data_path in H. rewrite V2 in H. discriminate.
    + apply pair_equal_spec in H. destruct H as [H _]. destruct (join_neq _ _ H).
    + apply pair_equal_spec in H. destruct H as [_ ->]. reflexivity.
  - rewrite (H2 q Hq). pose proof (gains_one s p Directory V1 q y) as G. rewrite G. cbn [In].
    split; [intros [H|[H|[]]]; auto|]. intros [H|[H|[H|[]]]]; auto. apply pair_equal_spec in H. destruct H. congruence.
Qed.

Lemma close_result w : exists r w', close_file ho w = (r, w') /\ x_disk w' = x_disk w /\
  (r = Ok tt \/ (r = Err /\ ~ calm)).
Proof.
  unfold close_file, call. destruct (ho_fault ho (x_calls w)) as [z|] eqn:F; eexists; eexists;
    (split; [reflexivity|]; split; [reflexivity|]); [right; split; [reflexivity|eapply faulty; eauto]|left; reflexivity].
Qed.

Definition done (r : res unit) : Prop := r = Ok tt \/ r = Err.

Lemma stream_item fuel k nd nm s index dir w :
  nth_error (tr_nodes t) k = Some nd -> n_subs nd = [] -> de_name (n_entry nd) = nm -> host_name ho e safe nm ->
  is_readable_stream rd0 v (n_entry nd) s -> vacant (x_disk w) (path_join dir (safe nm)) ->
  exists r w' x, export_item ho rd v t (S fuel) k index dir w = (r, w') /\ done r /\
    gains (x_disk w) (x_disk w') x /\ stream_made (n_entry nd) (path_join dir (safe nm)) s x.
Proof.
  intros Hk Hsubs Hnm Hhn Hs Hvac. pose proof (HR _ _ Hs) as HS.
  destruct (item_begins fuel k nd nm index dir w Hk Hnm Hhn Hvac) as [(NC & w' & x & H1 & H2 & H3)|(w' & H1 & H2)].
  { exists Err, w', x. split; [exact H1|]. split; [right; reflexivity|]. split; [exact H2|]. left. auto. }
  set (p := path_join dir (safe nm)) in *. set (target := path_join p stream_data_name) in *.
  assert (Hst : on_disk (x_disk w') target = Some (Data [])) by (rewrite H2; apply on_disk_same).
  assert (Hsz : zlen s = de_size (n_entry nd) /\ 0 <= de_size (n_entry nd) < 4294967296).
  { pose proof (HD _ _ Hk) as [_ HU]. unfold is_u32 in HU. destruct HS as (_ & _ & _ & _ & f & _ & _ & H & _). lia. }
  assert (HC : exists r w5 l, copy_item ho rd v (n_entry nd) target w' = (r, w5) /\ done r /\
            on_disk (x_disk w5) target = Some (Data l) /\
            (forall q, q <> target -> on_disk (x_disk w5) q = on_disk (x_disk w') q) /\
            begins l s /\ (calm -> (l = s \/ exists k, zlen l = 32768 * k) /\ (can_read rd v (n_entry nd) -> l = s))).
  { unfold copy_item. destruct (0 <? de_size (n_entry nd)) eqn:E0.
    2:{ exists (Ok tt), w', []. split; [reflexivity|]. split; [left; reflexivity|]. split; [exact Hst|]. split; [reflexivity|].
        assert (s = []) by (destruct s as [|b s]; [reflexivity|rewrite zlen_cons in Hsz; pose proof (zlen_nonneg s); lia]).
        subst s. split; [exists 0%nat; reflexivity|]. auto. }
    set (fl := (Z.to_nat (de_size (n_entry nd) / BUFFER_SIZE) + 2)%nat).
    assert (Hfl : de_size (n_entry nd) <= BUFFER_SIZE * (Z.of_nat fl - 1)).
    { unfold fl, BUFFER_SIZE. pose proof (Z.div_mod (de_size (n_entry nd)) 32768 ltac:(lia)).
      pose proof (Z.mod_pos_bound (de_size (n_entry nd)) 32768 ltac:(lia)).
      assert (0 <= de_size (n_entry nd) / 32768) by (apply Z.div_pos; lia). lia. }
    assert (Hst0 : on_disk (x_disk w') target = Some (Data (slice s 0 0))) by exact Hst.
    destruct (copy_loop_data ho rd v (n_entry nd) s target fl HS 0 (de_size (n_entry nd)) w' ltac:(lia) ltac:(lia) ltac:(lia) Hst0)
      as (l & L1 & L2 & L3).
    pose proof (copy_loop_other ho rd v (n_entry nd) target fl 0 (de_size (n_entry nd)) w') as L4.
    pose proof (copy_loop_defined ho rd v (n_entry nd) target fl HV (HD _ _ Hk) 0 (de_size (n_entry nd)) w' ltac:(lia) Hfl) as L5.
    assert (L6 : calm -> (l = s \/ exists k, zlen l = 32768 * k) /\ (can_read rd v (n_entry nd) -> l = s)).
    { intros C.
      destruct (copy_loop_buffers ho rd v (n_entry nd) s target fl HS C 0 (de_size (n_entry nd)) w' ltac:(lia) ltac:(lia) ltac:(lia)
        ltac:(right; exists 0; reflexivity) Hst0) as (l' & B1 & B2).
      assert (l' = l) by congruence. subst l'. split; [exact B2|].
      intros HC. apply L3.
      rewrite (copy_loop_alike ho rd rd0); [| |intros c n t0 l0 c' t' Hc N0 Hb|lia..].
      - destruct (copy_loop_complete ho rd0 v (n_entry nd) s target fl Hs C 0 (de_size (n_entry nd)) w' ltac:(lia) ltac:(lia) ltac:(lia) Hfl)
          as (w6 & ->). reflexivity.
      - intros c n t0 N1 N2 N3. apply (HA (n_entry nd) s); auto.
      - destruct Hs as (_ & Hd & _). exact (proj2 (proj2 (proj2 (proj2 (read_buffer_basic _ _ _ _ _ _ _ _ _ _ Hd N0 Hb))))). }
    destruct (copy_loop ho rd v fl (n_entry nd) target 0 (de_size (n_entry nd)) w') as [r w5] eqn:E. cbn [fst snd] in *.
    exists r, w5, l. split; [reflexivity|]. split; [destruct r as [[]| | |]; try destruct L5; unfold done; auto|]. auto. }
  destruct HC as (r & w5 & l & C1 & C2 & C3 & C4 & C5 & C6). rewrite H1. unfold item_rest. fold target. unfold xbind at 1. rewrite C1.
  assert (HG : gains (x_disk w) (x_disk w5) [(p, Directory); (data_path p, Data l)]).
  { apply gains_data; [exact Hvac|exact C3|]. intros q Hq. rewrite (C4 q Hq), H2, on_disk_other by exact Hq. reflexivity. }
  assert (HX : stream_made (n_entry nd) p s [(p, Directory); (data_path p, Data l)]).
  { right. exists l. split; [reflexivity|]. split; [exact C5|exact C6]. }
  destruct C2 as [->| ->].
  2:{ exists Err, w5, [(p, Directory); (data_path p, Data l)]. split; [reflexivity|]. split; [right; reflexivity|]. auto. }
  destruct (close_result w5) as (r6 & w6 & K1 & K2 & K3). unfold xbind at 1. rewrite K1. rewrite <- K2 in HG.
  exists r6, w6, [(p, Directory); (data_path p, Data l)]. split; [|split; [destruct K3 as [->|[-> _]]; unfold done; auto|auto]].
  destruct K3 as [->|[-> _]]; [|reflexivity]. unfold xbind, sub_nodes. rewrite Hk, Hsubs. reflexivity.
Qed.

Lemma made_below js fo dir x : made js fo dir x -> forall q y, In (q, y) x -> exists i, In i (members fo) /\
  (q = path_join dir (safe (name_of i)) \/ below_path (path_join dir (safe (name_of i))) q).
Proof.
  assert (HDp : forall p, below_path p (data_path p)) by (intros p; rewrite data_path_join; apply join_below).
  induction 1 as [|j js nd n c m s r dir x l H1 H2 H3 IH|j js nd n c m a r dir x l H1 H2 H3 H4 IH|j js nd n c m a r dir x l H1 H2 IHa H3 IH];
    intros q y Hq; [destruct Hq| | |]; cbn [members]; apply in_app_or in Hq as [Hq|Hq];
    try (destruct (IH q y Hq) as (i & Hi & HB); exists i; split; [right; exact Hi|exact HB]);
    (eexists; split; [left; reflexivity|]; cbn [name_of]; fold (path_join dir (safe n)) in *).
  - destruct H2 as [(_ & [->| ->])|(s' & -> & _)]; [destruct Hq|destruct Hq as [Hq|[]]|destruct Hq as [Hq|[Hq|[]]]];
      apply pair_equal_spec in Hq; destruct Hq as [<- _]; auto.
  - destruct H3 as [->|[->| ->]]; [destruct Hq|destruct Hq as [Hq|[]]|destruct Hq as [Hq|[Hq|[]]]];
      apply pair_equal_spec in Hq; destruct Hq as [<- _]; auto.
  - destruct Hq as [Hq|[Hq|Hq]]; try (apply pair_equal_spec in Hq; destruct Hq as [<- _]; auto; fail).
    destruct (IHa q y Hq) as (i & _ & [->|HB]); right; [apply join_below|eapply below_join; exact HB].
Qed.

Definition room (s : disk) (dir : list Z) (fo : forest) : Prop :=
  forall i, In i (members fo) -> vacant s (path_join dir (safe (name_of i))).

Lemma gains_room s s' x dir nm fo P :
  gains s s' x -> (forall q y, In (q, y) x -> q = path_join dir (safe nm) \/ below_path (path_join dir (safe nm)) q) ->
  host_name ho P safe nm -> names_ok (host_name ho P safe) fo -> ~ In (safe nm) (map (fun i => safe (name_of i)) (members fo)) ->
  room s dir fo -> room s' dir fo.
Proof.
  intros HG HB (_ & Hs1 & _) HN Hnot Hroom i Hi.
  pose proof (names_members _ _ HN) as HF. rewrite Forall_forall in HF. destruct (HF i Hi) as (_ & Hs2 & _).
  assert (Hne : safe nm <> safe (name_of i)).
  { intros E. apply Hnot. rewrite E. apply (in_map (fun i => safe (name_of i))). exact Hi. }
  destruct (Hroom i Hi) as (V1 & V2). split.
  - eapply gains_below; [exact HG|exact V1|]. intros y Hy.
    destruct (join_apart dir _ _ _ Hs1 Hs2 Hne (HB _ _ Hy)) as [F _]. apply F. reflexivity.
  - intros q. eapply gains_below; [exact HG|apply V2|]. intros y Hy.
    destruct (join_apart dir _ _ _ Hs1 Hs2 Hne (HB _ _ Hy)) as [_ F]. apply F. exists q. reflexivity.
Qed.

Lemma stream_made_below d p s x q y : stream_made d p s x -> In (q, y) x -> q = p \/ below_path p q.
Proof.
  intros [(_ & [->| ->])|(s' & -> & _)] Hq; [destruct Hq|destruct Hq as [Hq|[]]|destruct Hq as [Hq|[Hq|[]]]];
    apply pair_equal_spec in Hq; destruct Hq as [<- _]; auto. right. rewrite data_path_join. apply join_below.
Qed.

Lemma loop_made js fo : shows rd0 v t js fo -> forall k0 nd0,
  nth_error (tr_nodes t) k0 = Some nd0 -> (forall j, In j js -> In j (n_subs nd0)) ->
  names_ok (host_name ho e safe) fo -> own_names safe fo ->
  forall fuel index dir w, (length (tr_nodes t) - k0 <= S fuel)%nat -> room (x_disk w) dir fo ->
  exists w' x, sub_items_loop (export_item ho rd v t fuel) index js dir w = (Ok tt, w') /\
    gains (x_disk w) (x_disk w') x /\ made js fo dir x.
Proof.
  induction 1 as [|j js nd n c m s r H1 H2 H3 H4 H5 H6 H7 H8 IH|j js nd n c m a r H1 H2 IHa H3 H4 H5 H6 H7 IH];
    intros k0 nd0 Hk0 Hsub HN HO fuel index dir w Hf Hroom.
  - exists w, []. split; [reflexivity|]. split; [apply gains_none|constructor].
  - destruct HN as (Hn & HN). destruct HO as (HO1 & HO2). cbn [sub_items_loop].
    assert (Hs : item_sub t k0 j) by (exists nd0; split; [exact Hk0|apply Hsub; left; reflexivity]).
    pose proof (ts_later _ HT _ _ Hs) as Hlt. destruct fuel as [|fuel]; [lia|].
    destruct (stream_item fuel j nd n s index dir w H1 H2 H4 Hn H7 (Hroom (Stream n c m s) (or_introl eq_refl)))
      as (r1 & w1 & x & X1 & X2 & X3 & X4).
    rewrite X1.
    destruct (IH k0 nd0 Hk0 ltac:(intros i Hi; apply Hsub; right; exact Hi) HN HO2 (S fuel) (index + 1) dir w1 Hf)
      as (w2 & y & Y1 & Y2 & Y3).
    { eapply gains_room; [exact X3| |exact Hn|exact HN|exact HO1|].
      - intros q z Hq. eapply stream_made_below; eauto.
      - intros i Hi. apply Hroom. right. exact Hi. }
    exists w2, (x ++ y). split; [destruct X2 as [->| ->]; exact Y1|]. split; [eapply gains_app; eauto|].
    eapply md_stream; eauto.
  - destruct HN as (Hn & HNa & HN). destruct HO as (HO1 & HOa & HO2). cbn [sub_items_loop].
    assert (Hs : item_sub t k0 j) by (exists nd0; split; [exact Hk0|apply Hsub; left; reflexivity]).
    pose proof (ts_later _ HT _ _ Hs) as Hlt. destruct fuel as [|fuel]; [lia|].
    pose proof (Hroom (Storage n c m a) (or_introl eq_refl)) as Hvac. cbn [name_of] in Hvac.
    set (p := path_join dir (safe n)) in *.
    assert (HI : exists r1 w1 x, export_item ho rd v t (S fuel) j index dir w = (r1, w1) /\ done r1 /\
              gains (x_disk w) (x_disk w1) x /\ (forall q z, In (q, z) x -> q = p \/ below_path p q) /\
              forall l, made js r dir l -> made (j :: js) (AddStorage n c m a r) dir (x ++ l)).
    { assert (Hpart : forall x, ~ calm -> x = [] \/ x = [(p, Directory)] \/ x = [(p, Directory); (data_path p, Data [])] ->
                (forall q z, In (q, z) x -> q = p \/ below_path p q) /\
                forall l, made js r dir l -> made (j :: js) (AddStorage n c m a r) dir (x ++ l)).
      { intros x NC Hx. split; [|intros l Hl; eapply md_storage_part; eauto].
        intros q z Hq. destruct Hx as [->|[->| ->]]; [destruct Hq|destruct Hq as [Hq|[]]|destruct Hq as [Hq|[Hq|[]]]];
          apply pair_equal_spec in Hq; destruct Hq as [<- _]; auto. right. rewrite data_path_join. apply join_below. }
      destruct (item_begins fuel j nd n index dir w H1 H4 Hn Hvac) as [(NC & w' & x & X1 & X2 & X3)|(w' & X1 & X2)].
      { exists Err, w', x. split; [exact X1|]. split; [right; reflexivity|]. split; [exact X2|].
        apply Hpart; [exact NC|]. destruct X3 as [->| ->]; auto. }
      fold p in X1, X2. rewrite X1. unfold item_rest, copy_item. rewrite (no_data _ _ H1 H3). change (0 <? 0) with false.
      unfold xbind at 1. cbn [xret].
      destruct (close_result w') as (r6 & w6 & K1 & K2 & K3). unfold xbind at 1. rewrite K1.
      assert (HG : gains (x_disk w) (x_disk w6) [(p, Directory); (data_path p, Data [])]).
      { rewrite K2, X2. apply gains_data; [exact Hvac|apply on_disk_same|]. intros q Hq. now rewrite on_disk_other. }
      destruct K3 as [->|[-> NC]].
      2:{ exists Err, w6, [(p, Directory); (data_path p, Data [])]. split; [reflexivity|]. split; [right; reflexivity|].
          split; [exact HG|]. apply Hpart; auto. }
      unfold xbind. unfold sub_nodes. rewrite H1. cbn [xlift].
      destruct (IHa j nd H1 ltac:(auto) HNa HOa fuel 0 p w6 ltac:(lia)) as (w7 & y & Y1 & Y2 & Y3).
      { intros i Hi. pose proof (names_members _ _ HNa) as HF. rewrite Forall_forall in HF.
        destruct (HF i Hi) as (_ & Hslash & Hres).
        assert (Hne : stream_data_name <> safe (name_of i)) by (intros E; apply Hres; rewrite <- E; simpl; auto).
        assert (Hx : forall q, (q = path_join p (safe (name_of i)) \/ below_path (path_join p (safe (name_of i))) q) ->
                   on_disk (x_disk w6) q = None).
        { intros q Hq. eapply gains_below; [exact HG| |].
          - assert (Hb : below_path p q) by (destruct Hq as [->|Hq]; [apply join_below|eapply below_join; eauto]).
            destruct Hb as (z & ->). apply (proj2 Hvac).
          - intros z [E|[E|[]]]; apply pair_equal_spec in E; destruct E as [<- _].
            + destruct Hq as [Hq|Hq]; [exact (join_neq _ _ Hq)|]. apply below_join in Hq. destruct Hq as (z' & Hq). exact (join_neq _ _ Hq).
            + rewrite data_path_join in Hq.
              destruct (join_apart p stream_data_name (safe (name_of i)) _ stream_data_plain Hslash Hne (or_introl eq_refl)) as (F1 & F2).
              destruct Hq; auto. }
        split; [apply Hx; auto|]. intros q. apply Hx. right. exists q. reflexivity. }
      exists (Ok tt), w7, ([(p, Directory); (data_path p, Data [])] ++ y). split; [exact Y1|]. split; [left; reflexivity|].
      split; [eapply gains_app; eauto|]. split.
      - intros q z Hq. apply in_app_or in Hq as [[Hq|[Hq|[]]]|Hq]; try (apply pair_equal_spec in Hq; destruct Hq as [<- _]; auto).
        + right. rewrite data_path_join. apply join_below.
        + destruct (made_below _ _ _ _ Y3 q z Hq) as (i & _ & [->|HB]); right; [apply join_below|eapply below_join; exact HB].
      - intros l Hl. cbn [app]. exact (md_storage j js nd n c m a r dir y l H1 Y3 Hl). }
    destruct HI as (r1 & w1 & x & X1 & X2 & X3 & X4 & X5). rewrite X1.
    destruct (IH k0 nd0 Hk0 ltac:(intros i Hi; apply Hsub; right; exact Hi) HN HO2 (S fuel) (index + 1) dir w1 Hf)
      as (w2 & y & Y1 & Y2 & Y3).
    { eapply gains_room; [exact X3|exact X4|exact Hn|exact HN|exact HO1|].
      intros i Hi. apply Hroom. right. exact Hi. }
    exists w2, (x ++ y). split; [destruct X2 as [->| ->]; exact Y1|]. split; [eapply gains_app; eauto|]. apply X5. exact Y3.
Qed.

Lemma made_left js fo dir x : made js fo dir x -> left_of safe fo dir x.
Proof.
  induction 1 as [|j js nd n c m s r dir x l H1 H2 H3 IH|j js nd n c m a r dir x l H1 H2 H3 H4 IH|j js nd n c m a r dir x l H1 H2 IHa H3 IH].
  - constructor.
  - constructor; [|exact IH]. cbv zeta. destruct H2 as [(_ & [->| ->])|(s' & -> & (k & ->) & _)]; auto.
    right. right. exists (firstn k s), (skipn k s). split; [symmetry; apply firstn_skipn|reflexivity].
  - apply lo_storage_part; [cbv zeta; tauto|exact IH].
  - cbn [app]. apply lo_storage; [exact IHa|exact IH].
Qed.

Lemma made_altered js fo dir x : made js fo dir x -> calm ->
  exists fo', altered t (rescued (can_read rd v)) js fo fo' /\ x = exported safe fo' dir.
Proof.
  intros HM C. induction HM as [|j js nd n c m s r dir x l H1 H2 H3 IH|j js nd n c m a r dir x l H1 H2 H3 H4 IH|j js nd n c m a r dir x l H1 H2 IHa H3 IH].
  - exists Empty. split; [constructor|reflexivity].
  - destruct IH as (r' & R1 & ->). destruct H2 as [(NC & _)|(s' & -> & (k & ->) & HC)]; [contradiction|].
    destruct (HC C) as (C1 & C2). exists (AddStream n c m (firstn k s) r'). split; [|reflexivity].
    econstructor; [exact H1| |exact R1]. split; [exists (skipn k s); symmetry; apply firstn_skipn|]. auto.
  - contradiction.
  - destruct IHa as (a' & A1 & ->). destruct IH as (r' & R1 & ->). exists (AddStorage n c m a' r').
    split; [econstructor; eauto|reflexivity].
Qed.

(** The whole tool. *)
Lemma file_made nd fo p n w : nth_error (tr_nodes t) 0 = Some nd -> shows rd0 v t (n_subs nd) fo ->
  names_ok (host_name ho e safe) fo -> own_names safe fo -> dot_name n = false -> vacant (x_disk w) (path_join p n) ->
  (~ calm /\ exists w', export_file ho rd v (Some t) p n w = (Err, w') /\ x_disk w' = x_disk w) \/
  exists w' x, export_file ho rd v (Some t) p n w = (Ok tt, w') /\
    gains (x_disk w) (x_disk w') ((path_join p n, Directory) :: x) /\ made (n_subs nd) fo (path_join p n) x.
Proof.
  intros Hnd HS HN HO Hdot (V1 & V2). unfold export_file.
  destruct (mkdir_step p n w Hdot V1) as (r1 & w1 & E1 & [(-> & D1)|(-> & NC & D1)]).
  2:{ left. split; [exact NC|]. exists w1. split; [exact (xbind_Err _ _ _ _ E1)|exact D1]. }
  rewrite (xbind_Ok _ _ _ _ _ E1). right. set (dir := path_join p n) in *.
  unfold export_sub_items, xbind, sub_nodes. rewrite Hnd. cbn [xlift].
  assert (G1 : gains (x_disk w) (x_disk w1) [(dir, Directory)]) by (rewrite D1; apply gains_one; exact V1).
  assert (HB : forall q, below_path dir q -> on_disk (x_disk w1) q = None).
  { intros q (y & ->). rewrite D1, on_disk_other; [apply V2|]. intros E. symmetry in E. exact (join_neq _ _ E). }
  destruct (loop_made _ _ HS 0%nat nd Hnd ltac:(auto) HN HO (length (tr_nodes t)) 0 dir w1 ltac:(lia)) as (w2 & x & X1 & X2 & X3).
  { intros i Hi. split; [apply HB, join_below|]. intros q. apply HB. eapply below_join. exists q. reflexivity. }
  exists w2, x. split; [exact X1|]. split; [|exact X3]. change ((dir, Directory) :: x) with ([(dir, Directory)] ++ x).
  eapply gains_app; eauto.
Qed.
End Salvage.
