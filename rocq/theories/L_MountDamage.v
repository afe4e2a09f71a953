(** Mounts of files that cannot all be read. *)
From Coq Require Import ZArith List Bool Lia.
From Verif Require Import Base Spec_IO M_Table M_Load M_Stream M_Tree M_Item M_Mount M_WMount M_Fuse M_Dokan Spec_Stream Spec_Content
  L_Base L_Stream L_Stream2 L_Stream3 L_Fuse Spec_Fault L_Fault L_Fault2 Spec_Requests L_Requests L_Careful Spec_MountDamage.
Import ListNotations.
Open Scope Z_scope.

Lemma entry_at_value m k d : entry_at m k d <-> entry_value m k = Ok d.
Proof.
  unfold entry_at, entry_value. split.
  - intros (t & n & -> & H & <-). unfold node_value. now rewrite H.
  - destruct (mt_tree m) as [t|]; [|discriminate]. unfold node_value. destruct (nth_error (tr_nodes t) k) as [n|] eqn:E; [|discriminate].
    intros H. apply Ok_inj in H. exists t, n. auto.
Qed.

(** Values in range, which C54 and C79 prove of opened files. *)
Definition sane (m : mounted) : Prop :=
  volume_ok (mt_volume m) /\ forall k d, entry_at m k d -> dirent_ok d.

(** The same entry, but for the offset. *)
Definition same_entry (a b : file_entry) : Prop :=
  fe_node a = fe_node b /\ fe_name a = fe_name b /\ 0 <= fe_cursor a /\ 0 <= fe_cursor b.

Lemma same_entry_refl a : 0 <= fe_cursor a -> same_entry a a.
Proof. unfold same_entry. auto. Qed.

Lemma read_buffer_cursor rd v d c n cap t l c' t' : stream_read_buffer rd v d c n cap t = (Ok (l, c'), t') -> 0 <= c'.
Proof.
  unfold stream_read_buffer. destruct (negb _); [discriminate|]. destruct (c <? 0) eqn:E; [discriminate|].
  destruct (_ <? n); [discriminate|]. destruct (_ <=? c).
  - intros H. unfold iret, ilift in H. apply pair_equal_spec in H as [H _]. apply Ok_inj in H. apply pair_equal_spec in H as [_ <-]. lia.
  - cbn zeta. unfold ibind. destruct (io_read_stream _ _ _ _ _ _ _) as [[x| | |] t1]; [|discriminate..]. destruct (_ =? _); [|discriminate].
    intros H. unfold iret, ilift in H. apply pair_equal_spec in H as [H _]. apply Ok_inj in H. apply pair_equal_spec in H as [_ <-].
    pose proof (zlen_nonneg x). lia.
Qed.

Lemma read_at_cursor rd v d c off n cap t r c' t' : stream_read_at rd v d c off n cap t = (r, c', t') -> 0 <= c -> 0 <= c'.
Proof.
  unfold stream_read_at. destruct (stream_seek_offset d c off SEEK_SET) as [c1| | |] eqn:E.
  - assert (0 <= c1).
    { unfold stream_seek_offset in E. destruct (negb (de_type d =? TYPE_STREAM)); [discriminate|]. destruct (c <? 0); [discriminate|].
      cbn in E. destruct (off <? 0) eqn:E1; [discriminate|]. apply Ok_inj in E. lia. }
    destruct (stream_read_buffer rd v d c1 n cap t) as [[[l c2]| | |] t1] eqn:E2; intros G _;
      apply pair_equal_spec in G as [G _]; apply pair_equal_spec in G as [_ <-]; auto.
    exact (read_buffer_cursor _ _ _ _ _ _ _ _ _ _ E2).
  - intros G. apply pair_equal_spec in G as [G _]. apply pair_equal_spec in G as [_ <-]. auto.
  - intros G. apply pair_equal_spec in G as [G _]. apply pair_equal_spec in G as [_ <-]. auto.
  - intros G. apply pair_equal_spec in G as [G _]. apply pair_equal_spec in G as [_ <-]. auto.
Qed.

Lemma seek_set d c c' off : 0 <= c -> 0 <= c' -> stream_seek_offset d c off SEEK_SET = stream_seek_offset d c' off SEEK_SET.
Proof.
  intros H1 H2. unfold stream_seek_offset. replace (c <? 0) with false by (symmetry; apply Z.ltb_ge; lia).
  replace (c' <? 0) with false by (symmetry; apply Z.ltb_ge; lia). reflexivity.
Qed.

Lemma seek_set_ok d c off c1 : stream_seek_offset d c off SEEK_SET = Ok c1 -> c1 = off.
Proof.
  unfold stream_seek_offset. destruct (negb _); [discriminate|]. destruct (c <? 0); [discriminate|]. cbn. destruct (off <? 0); [discriminate|].
  intros H. now apply Ok_inj in H.
Qed.

Section Read.
Variables (m : mounted) (f : list Z) (rd rd0 : reader).
Hypothesis HM : sane m.
Hypothesis HS : io_sound rd f.
Hypothesis HS0 : io_sound rd0 f.
Hypothesis HT0 : io_total rd0 f.

Lemma entry_read_two a b n off r a' r0 b' : same_entry a b ->
  entry_read rd m a n off = (r, a') -> entry_read rd0 m b n off = (r0, b') ->
  (r = Err \/ r = r0) /\ same_entry a' b' /\
  (forall d, entry_at m (fe_node a) d -> short_ok (mt_volume m) d -> intact (mt_volume m) d -> 0 <= n ->
     delivers rd (mt_volume m) d off n -> r = r0).
Proof.
  intros (E1 & E2 & C1 & C2). unfold entry_read. rewrite <- E1, <- E2. destruct (entry_value m (fe_node a)) as [d| | |] eqn:Ev.
  2-4: intros G G'; apply pair_equal_spec in G as [<- <-], G' as [<- <-]; unfold same_entry; auto 10.
  apply entry_at_value in Ev. pose proof (proj2 HM _ _ Ev) as Hd.
  destruct (negb _); [intros G G'; apply pair_equal_spec in G as [<- <-], G' as [<- <-]; unfold same_entry; auto 10|].
  destruct (stream_read_at rd (mt_volume m) d (fe_cursor a) off n n []) as [[x c] t] eqn:Ea.
  destruct (stream_read_at rd0 (mt_volume m) d (fe_cursor b) off n n []) as [[y c'] t'] eqn:Eb.
  intros G G'. apply pair_equal_spec in G as [<- <-], G' as [<- <-].
  pose proof (read_at_cursor _ _ _ _ _ _ _ _ _ _ _ Ea C1) as C3. pose proof (read_at_cursor _ _ _ _ _ _ _ _ _ _ _ Eb C2) as C4.
  unfold stream_read_at in Ea, Eb. rewrite (seek_set d (fe_cursor b) (fe_cursor a) off C2 C1) in Eb.
  split; [|split; [unfold same_entry; cbn; auto|]].
  - destruct (stream_seek_offset d (fe_cursor a) off SEEK_SET) as [c1| | |].
    2-4: right; congruence.
    destruct (read_buffer_careful rd rd0 f HS HS0 HT0 (mt_volume m) d c1 n n (proj1 HM) Hd [] []) as [G|G];
      destruct (stream_read_buffer rd (mt_volume m) d c1 n n []) as [[[l c2]| | |] t1]; cbn [fst] in G; try discriminate G;
      destruct (stream_read_buffer rd0 (mt_volume m) d c1 n n []) as [[[l' c2']| | |] t1']; cbn [fst] in G; try discriminate G;
      try (left; congruence); try (right; congruence).
  - intros d' Hd' Hsh Hi Hn HA. apply entry_at_value in Hd', Ev. assert (d' = d) by congruence. subst d'.
    destruct (stream_seek_offset d (fe_cursor a) off SEEK_SET) as [c1| | |] eqn:Es; [|congruence..].
    apply seek_set_ok in Es. subst c1.
    rewrite (read_delivered (mt_volume m) d (proj1 HM) Hd Hsh Hi rd rd0 f off n n [] HS HS0 HT0 Hn HA) in Ea.
    destruct (stream_read_buffer rd0 _ _ _ _ _ _) as [[[l c2]| | |] t1]; congruence.
Qed.

(** * FUSE *)
Definition same_handle (a b : option file_entry) : Prop :=
  match a, b with
  | Some x, Some y => same_entry x y
  | None, None => True
  | _, _ => False
  end.

Definition same_state (s s0 : fuse_state) : Prop :=
  fu_live s = fu_live s0 /\ Forall2 same_handle (fu_handles s) (fu_handles s0).

Lemma same_nth l l0 k : Forall2 same_handle l l0 ->
  match nth_error l k, nth_error l0 k with
  | Some a, Some b => same_handle a b
  | None, None => True
  | _, _ => False
  end.
Proof. intros H. revert k. induction H as [|a b l l0 Hab _ IH]; intros [|k]; cbn [nth_error]; auto. apply IH. Qed.

Lemma same_set l l0 k a b : Forall2 same_handle l l0 -> same_handle a b -> Forall2 same_handle (set_handle l k a) (set_handle l0 k b).
Proof.
  intros H Hab. unfold set_handle. apply Forall2_app.
  - revert k. induction H as [|x y l l0 Hxy _ IH]; intros [|k]; cbn [firstn]; constructor; auto.
  - constructor; [exact Hab|]. generalize (S k). clear Hab. induction H as [|x y l l0 Hxy H IH]; intros [|j]; cbn [skipn]; auto.
Qed.

Lemma path_cursor path e : entry_by_path m path = Ok (Some e) -> fe_cursor e = 0.
Proof.
  unfold entry_by_path. intros H. destruct (_ =? 0); [discriminate|].
  destruct (arr_get _ _) as [x| | |]; cbn [rbind] in H; try discriminate H. cbv zeta in H.
  destruct (last_slash _ _) as [i| | |]; cbn [rbind] in H; try discriminate H.
  destruct (mount_item_by_path _ _ _ _ _) as [[k|]| | |]; cbn [rbind] in H; try discriminate H.
  destruct (_ <? _); [discriminate|]. destruct (_ <? _); [discriminate|]. apply Ok_inj in H.
  apply (f_equal (fun y => match y with Some z => fe_cursor z | None => 0 end)) in H. now symmetry.
Qed.

Lemma entry_cursor path e : fuse_entry m path = Done e -> fe_cursor e = 0.
Proof.
  unfold fuse_entry. destruct (entry_by_path m path) as [[x|]| | |] eqn:E; try discriminate. intros H.
  assert (x = e) by congruence. subst x. exact (path_cursor _ _ E).
Qed.

Lemma open_two path s s0 : same_state s s0 ->
  fst (open_handle m path s) = fst (open_handle m path s0) /\ same_state (snd (open_handle m path s)) (snd (open_handle m path s0)).
Proof.
  intros (H1 & H2). unfold open_handle. destruct (fuse_entry m path) as [e|n|] eqn:E; cbn [fst snd].
  - apply entry_cursor in E. assert (length (fu_handles s) = length (fu_handles s0)) by (clear -H2; induction H2; cbn; congruence).
    split; [congruence|]. split; cbn; [congruence|]. apply Forall2_app; [exact H2|]. constructor; [|constructor].
    apply same_entry_refl. lia.
  - split; [reflexivity|split; assumption].
  - split; [reflexivity|split; assumption].
Qed.

Lemma fuse_step_two op s s0 r s' r0 s0' : same_state s s0 ->
  fuse_step rd m op s = (r, s') -> fuse_step rd0 m op s0 = (r0, s0') ->
  as_read op r r0 /\ same_state s' s0' /\
  (forall k n off e d, op = FuRead k n off -> nth_error (fu_handles s) k = Some (Some e) ->
     entry_at m (fe_node e) d -> short_ok (mt_volume m) d -> intact (mt_volume m) d -> 0 <= n ->
     delivers rd (mt_volume m) d off n -> r = r0).
Proof.
  intros HSt. pose proof HSt as (L1 & L2).
  destruct op as [path|path flags|k n off|k|path|k accept|k]; cbn [fuse_step].
  - intros G G'. apply pair_equal_spec in G as [<- <-], G' as [<- <-]. split; [now left|]. split; [exact HSt|discriminate].
  - destruct (negb _).
    + intros G G'. apply pair_equal_spec in G as [<- <-], G' as [<- <-]. split; [now left|]. split; [exact HSt|discriminate].
    + intros G G'. destruct (open_two path s s0 HSt) as (O1 & O2). rewrite G, G' in *. cbn [fst snd] in *.
      split; [now left|]. split; [exact O2|discriminate].
  - destruct (INT_MAX <? n) eqn:En.
    { intros G G'. apply pair_equal_spec in G as [<- <-], G' as [<- <-]. split; [now left|]. split; [exact HSt|auto]. }
    pose proof (same_nth _ _ k L2) as Hk. destruct (nth_error (fu_handles s) k) as [[a|]|] eqn:Ea, (nth_error (fu_handles s0) k) as [[b|]|];
      try (exfalso; exact Hk);
      [|intros G G'; apply pair_equal_spec in G as [<- <-], G' as [<- <-]; split; [now left|]; split; [exact HSt|reflexivity]..].
    cbn [same_handle] in Hk. unfold fuse_read. rewrite En.
    destruct (entry_read rd m a n off) as [x a'] eqn:Era. destruct (entry_read rd0 m b n off) as [y b'] eqn:Erb.
    destruct (entry_read_two a b n off x a' y b' Hk Era Erb) as (X1 & X2 & X3).
    intros G G'. apply pair_equal_spec in G as [<- <-], G' as [<- <-].
    split; [|split].
    + destruct X1 as [->| ->]; [|now left]. right. exists k, n, off. split; reflexivity.
    + split; [exact L1|]. apply same_set; [exact L2|exact X2].
    + intros k' n' off' e d Ek He. injection Ek as <- <- <-. assert (a = e) by congruence. subst e. intros. now rewrite (X3 d).
  - pose proof (same_nth _ _ k L2) as Hk. destruct (nth_error (fu_handles s) k) as [[a|]|], (nth_error (fu_handles s0) k) as [[b|]|];
      try (exfalso; exact Hk);
      (intros G G'; apply pair_equal_spec in G as [<- <-], G' as [<- <-]; split; [now left|]; split; [|discriminate]); try exact HSt.
    split; [cbn; congruence|]. apply same_set; [exact L2|exact I].
  - intros G G'. destruct (open_two path s s0 HSt) as (O1 & O2). rewrite G, G' in *. cbn [fst snd] in *.
    split; [now left|]. split; [exact O2|discriminate].
  - pose proof (same_nth _ _ k L2) as Hk. destruct (nth_error (fu_handles s) k) as [[a|]|], (nth_error (fu_handles s0) k) as [[b|]|];
      try (exfalso; exact Hk);
      (intros G G'; apply pair_equal_spec in G as [<- <-], G' as [<- <-]; split; [left|]; [|split; [exact HSt|discriminate]]); try reflexivity.
    cbn [same_handle] in Hk. destruct Hk as (K1 & K2 & _).
    assert (EL : forall j i l, readdir_loop j m accept a i l = readdir_loop j m accept b i l).
    { induction j as [|j IH]; intros i l; cbn [readdir_loop]; [reflexivity|]. unfold sub_entry. rewrite K1.
      destruct (rbind _ _); auto. }
    assert (ED : fuse_readdir m accept a = fuse_readdir m accept b); [|now rewrite ED].
    unfold fuse_readdir, number_of_sub_entries. rewrite K1. destruct (filldir _ _ _ _) as [l1| | |]; try reflexivity.
    destruct (filldir _ _ _ _) as [l2| | |]; try reflexivity.
    match goal with |- match ?x with _ => _ end = _ => destruct x; try reflexivity end. now rewrite EL.
  - pose proof (same_nth _ _ k L2) as Hk. destruct (nth_error (fu_handles s) k) as [a|], (nth_error (fu_handles s0) k) as [b|];
      try (exfalso; exact Hk);
      (intros G G'; apply pair_equal_spec in G as [<- <-], G' as [<- <-]; split; [now left|]; split; [|discriminate]); try exact HSt.
    split; [exact L1|]. apply same_set; [exact L2|exact I].
Qed.

(** * Dokan *)
Definition wsame_state (s s0 : dokan_state) : Prop :=
  dk_live s = dk_live s0 /\ forall k, same_handle (dk_contexts s k) (dk_contexts s0 k).

Lemma wsame_set c c0 k a b : (forall k, same_handle (c k) (c0 k)) -> same_handle a b ->
  forall j, same_handle (set_context c k a j) (set_context c0 k b j).
Proof. intros H Hab j. unfold set_context. destruct (Nat.eqb j k); auto. Qed.

Lemma wpath_cursor path e : wentry_by_path m path = Ok (Some e) -> fe_cursor e = 0.
Proof.
  unfold wentry_by_path. intros H. destruct (_ =? 0); [discriminate|].
  destruct (arr_get _ _) as [x| | |]; cbn [rbind] in H; try discriminate H. cbv zeta in H.
  destruct (last_backslash _ _) as [i| | |]; cbn [rbind] in H; try discriminate H.
  destruct (wmount_item_by_path _ _ _ _ _) as [[k|]| | |]; cbn [rbind] in H; try discriminate H.
  destruct (_ <? _); [discriminate|]. destruct (_ <? _); [discriminate|]. apply Ok_inj in H.
  apply (f_equal (fun y => match y with Some z => fe_cursor z | None => 0 end)) in H. now symmetry.
Qed.

Lemma open_context_two path c c0 : same_handle c c0 ->
  open_context m path c = open_context m path c0 /\ forall e, open_context m path c = DDone e -> fe_cursor e = 0.
Proof.
  intros H. destruct c as [x|], c0 as [y|]; try (exfalso; exact H); cbn [open_context]; (split; [reflexivity|]); [discriminate|].
  intros e He. destruct (wentry_by_path m path) as [[z|]| | |] eqn:E; try discriminate He.
  assert (z = e) by congruence. subst z. exact (wpath_cursor _ _ E).
Qed.

Lemma create_two b path access disposition c c0 : same_handle c c0 ->
  dokan_create b m path access disposition c = dokan_create b m path access disposition c0 /\
  forall e, dokan_create b m path access disposition c = DDone e -> fe_cursor e = 0.
Proof.
  intros H. destruct (open_context_two path c c0 H) as (O1 & O2). unfold dokan_create.
  destruct (db_old b); unfold create_file, zw_create_file; rewrite <- O1;
    repeat (match goal with |- context [if ?x then _ else _] => destruct x end; try (split; [reflexivity|discriminate]));
    (split; [reflexivity|exact O2]).
Qed.

Lemma store_two x k s s0 : wsame_state s s0 -> (forall e, x = DDone e -> fe_cursor e = 0) ->
  fst (store_context x k s) = fst (store_context x k s0) /\ wsame_state (snd (store_context x k s)) (snd (store_context x k s0)).
Proof.
  intros (H1 & H2) HC. destruct x as [e|c|]; cbn [store_context fst snd]; (split; [reflexivity|]); [|split; assumption..].
  split; cbn; [congruence|]. apply wsame_set; [exact H2|]. apply same_entry_refl. rewrite (HC e eq_refl). lia.
Qed.

Lemma dokan_step_two b op s s0 r s' r0 s0' : wsame_state s s0 ->
  dokan_step rd b m op s = (r, s') -> dokan_step rd0 b m op s0 = (r0, s0') ->
  was_read op r r0 /\ wsame_state s' s0' /\
  (forall k n off e d, op = DkRead k n off -> dk_contexts s k = Some e ->
     entry_at m (fe_node e) d -> short_ok (mt_volume m) d -> intact (mt_volume m) d -> 0 <= n ->
     delivers rd (mt_volume m) d off n -> r = r0).
Proof.
  intros HSt. pose proof HSt as (L1 & L2).
  destruct op as [k path access disposition|k path|k|k n off|path accept|path i|nsize ssize]; cbn [dokan_step].
  - destruct (create_two b path access disposition _ _ (L2 k)) as (O1 & O2). rewrite <- O1. intros G G'.
    destruct (store_two _ k s s0 HSt O2) as (S1 & S2). rewrite G, G' in *. cbn [fst snd] in *. split; [now left|]. split; [exact S2|discriminate].
  - destruct (db_old b).
    + destruct (open_context_two path _ _ (L2 k)) as (O1 & O2). rewrite <- O1. intros G G'.
      destruct (store_two _ k s s0 HSt O2) as (S1 & S2). rewrite G, G' in *. cbn [fst snd] in *. split; [now left|]. split; [exact S2|discriminate].
    + intros G G'. apply pair_equal_spec in G as [<- <-], G' as [<- <-]. split; [now left|]. split; [exact HSt|discriminate].
  - pose proof (L2 k) as Hk. destruct (dk_contexts s k) as [a|] eqn:Ea, (dk_contexts s0 k) as [a0|] eqn:Eb; try (exfalso; exact Hk);
      (intros G G'; apply pair_equal_spec in G as [<- <-], G' as [<- <-]; split; [now left|]; split; [|discriminate]); [|exact HSt].
    split; [cbn; congruence|]. cbn [dk_contexts]. apply wsame_set; [exact L2|exact I].
  - unfold read_file. destruct (INT_MAX <? n).
    { intros G G'. apply pair_equal_spec in G as [<- <-], G' as [<- <-]. split; [now left|]. split; [|auto].
      split; [exact L1|]. cbn [dk_contexts]. apply wsame_set; [exact L2|apply L2]. }
    pose proof (L2 k) as Hk. destruct (dk_contexts s k) as [x|] eqn:Ea, (dk_contexts s0 k) as [x0|] eqn:Eb; try (exfalso; exact Hk).
    + cbn [same_handle] in Hk.
      destruct (entry_read rd m x n off) as [y a'] eqn:Era. destruct (entry_read rd0 m x0 n off) as [y0 b'] eqn:Erb.
      destruct (entry_read_two x x0 n off y a' y0 b' Hk Era Erb) as (X1 & X2 & X3).
      intros G G'. apply pair_equal_spec in G as [<- <-], G' as [<- <-].
      split; [|split].
      * destruct X1 as [->| ->]; [|now left]. right. exists k, n, off. split; reflexivity.
      * split; [exact L1|]. cbn [dk_contexts]. apply wsame_set; [exact L2|exact X2].
      * intros k' n' off' e d Ek He. injection Ek as <- <- <-. assert (x = e) by congruence. subst e. intros. now rewrite (X3 d).
    + intros G G'. apply pair_equal_spec in G as [<- <-], G' as [<- <-]. split; [now left|]. split; [|reflexivity].
      split; [exact L1|]. cbn [dk_contexts]. apply wsame_set; [exact L2|exact I].
  - rewrite <- L1. destruct (find_files b m accept path (dk_live s)) as [[x live] l].
    intros G G'. apply pair_equal_spec in G as [<- <-], G' as [<- <-]. split; [now left|]. split; [|discriminate]. split; [reflexivity|exact L2].
  - intros G G'. apply pair_equal_spec in G as [<- <-], G' as [<- <-]. split; [now left|]. split; [exact HSt|discriminate].
  - intros G G'. apply pair_equal_spec in G as [<- <-], G' as [<- <-]. split; [now left|]. split; [exact HSt|discriminate].
Qed.
End Read.

(** * Histories *)
Lemma fuse_run_two m f : sane m -> forall h h0 s s0 rs s' rs0 s0', two_media f h h0 -> same_state s s0 ->
  fuse_run m h s = (rs, s') -> fuse_run m h0 s0 = (rs0, s0') ->
  same_state s' s0' /\ Forall2 (fun x r0 => as_read (fst x) (snd x) r0) (combine (map snd h) rs) rs0 /\ length rs = length h.
Proof.
  intros HM. induction h as [|[rd op] h IH]; intros [|[rd0 op0] h0] s s0 rs s' rs0 s0' (E & F & F0) HSt; try discriminate E.
  - intros G G'. cbn in G, G'. apply pair_equal_spec in G as [<- <-], G' as [<- <-]. split; [exact HSt|]. split; [constructor|reflexivity].
  - cbn [map snd] in E. assert (op = op0) by congruence. subst op0. assert (Eh : map snd h = map snd h0) by congruence.
    inversion F as [|? ? F1 F2]; subst. inversion F0 as [|? ? F3 F4]; subst. cbn [fst] in F1, F3.
    cbn [fuse_run]. destruct (fuse_step rd m op s) as [r s1] eqn:G1. destruct (fuse_step rd0 m op s0) as [r0 s10] eqn:G2.
    destruct (fuse_run m h s1) as [q s2] eqn:G3. destruct (fuse_run m h0 s10) as [q0 s20] eqn:G4.
    intros G G'. apply pair_equal_spec in G as [<- <-], G' as [<- <-].
    destruct (fuse_step_two m f rd rd0 HM F1 (proj1 F3) (proj2 F3) op s s0 r s1 r0 s10 HSt G1 G2) as (T1 & T2 & _).
    destruct (IH h0 s1 s10 q s2 q0 s20 (conj Eh (conj F2 F4)) T2 G3 G4) as (I1 & I2 & I3).
    split; [exact I1|]. cbn [map snd combine length]. split; [constructor; [exact T1|exact I2]|congruence].
Qed.

Lemma dokan_run_two b m f : sane m -> forall h h0 s s0 rs s' rs0 s0', two_media f h h0 -> wsame_state s s0 ->
  dokan_run b m h s = (rs, s') -> dokan_run b m h0 s0 = (rs0, s0') ->
  wsame_state s' s0' /\ Forall2 (fun x r0 => was_read (fst x) (snd x) r0) (combine (map snd h) rs) rs0 /\ length rs = length h.
Proof.
  intros HM. induction h as [|[rd op] h IH]; intros [|[rd0 op0] h0] s s0 rs s' rs0 s0' (E & F & F0) HSt; try discriminate E.
  - intros G G'. cbn in G, G'. apply pair_equal_spec in G as [<- <-], G' as [<- <-]. split; [exact HSt|]. split; [constructor|reflexivity].
  - cbn [map snd] in E. assert (op = op0) by congruence. subst op0. assert (Eh : map snd h = map snd h0) by congruence.
    inversion F as [|? ? F1 F2]; subst. inversion F0 as [|? ? F3 F4]; subst. cbn [fst] in F1, F3.
    cbn [dokan_run]. destruct (dokan_step rd b m op s) as [r s1] eqn:G1. destruct (dokan_step rd0 b m op s0) as [r0 s10] eqn:G2.
    destruct (dokan_run b m h s1) as [q s2] eqn:G3. destruct (dokan_run b m h0 s10) as [q0 s20] eqn:G4.
    intros G G'. apply pair_equal_spec in G as [<- <-], G' as [<- <-].
    destruct (dokan_step_two m f rd rd0 HM F1 (proj1 F3) (proj2 F3) b op s s0 r s1 r0 s10 HSt G1 G2) as (T1 & T2 & _).
    destruct (IH h0 s1 s10 q s2 q0 s20 (conj Eh (conj F2 F4)) T2 G3 G4) as (I1 & I2 & I3).
    split; [exact I1|]. cbn [map snd combine length]. split; [constructor; [exact T1|exact I2]|congruence].
Qed.
