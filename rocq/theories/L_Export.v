(** Lemmas on the export of items. *)
From Coq Require Import ZArith List Bool Lia Arith.
From Verif Require Import Base Spec_IO M_Table M_Load M_Stream M_Tree M_Open M_Item M_Mount M_Export M_Prop
  Spec_Stream Spec_Content Spec_Tree Spec_Prop Spec_Export L_Base L_Stream L_Stream2 L_Stream3 L_Prop L_Prop2.
Import ListNotations.
Open Scope Z_scope.

(** * The disk *)
Lemma on_disk_cons s p x q :
  on_disk ((p, x) :: s) q = if list_eq_dec Z.eq_dec q p then Some x else on_disk s q.
Proof. reflexivity. Qed.

Lemma on_disk_same s p x : on_disk ((p, x) :: s) p = Some x.
Proof. rewrite on_disk_cons. destruct (list_eq_dec Z.eq_dec p p); congruence. Qed.

Lemma on_disk_other s p x q : q <> p -> on_disk ((p, x) :: s) q = on_disk s q.
Proof. intros H. rewrite on_disk_cons. destruct (list_eq_dec Z.eq_dec q p); congruence. Qed.

(** * Results *)
Lemma xbind_ok {A B} (m : xio A) (k : A -> xio B) w b w' :
  xbind m k w = (Ok b, w') -> exists a w1, m w = (Ok a, w1) /\ k a w1 = (Ok b, w').
Proof.
  unfold xbind. destruct (m w) as [[a| | |] w1]; try discriminate. eauto.
Qed.

Lemma xbind_Ok {A B} (m : xio A) (k : A -> xio B) w a w1 :
  m w = (Ok a, w1) -> xbind m k w = k a w1.
Proof. intros H. unfold xbind. now rewrite H. Qed.

(** Any property of the states that all steps keep. *)
Lemma xbind_rel {A B} (R : xstate -> xstate -> Prop) (m : xio A) (k : A -> xio B) w :
  (forall a b c, R a b -> R b c -> R a c) ->
  R w (snd (m w)) -> (forall a w1, m w = (Ok a, w1) -> R w1 (snd (k a w1))) ->
  R w (snd (xbind m k w)).
Proof.
  intros HT Hm Hk. unfold xbind. destruct (m w) as [[a| | |] w1] eqn:E; cbn [snd] in *; auto.
  eapply HT; [exact Hm|]. apply Hk. reflexivity.
Qed.

Lemma xbind_defined {A B} (m : xio A) (k : A -> xio B) w :
  defined (fst (m w)) -> (forall a w1, m w = (Ok a, w1) -> defined (fst (k a w1))) ->
  defined (fst (xbind m k w)).
Proof.
  intros Hm Hk. unfold xbind. destruct (m w) as [[a| | |] w1] eqn:E; cbn [fst] in *; auto.
Qed.

(** * Paths *)
Lemma path_join_inj p n m : path_join p n = path_join p m -> n = m.
Proof. unfold path_join. intros H. apply app_inv_head in H. congruence. Qed.

Lemma data_path_join p : data_path p = path_join p stream_data_name.
Proof. reflexivity. Qed.

Lemma join_neq p n : p <> path_join p n.
Proof.
  intros E. unfold path_join in E. apply (f_equal (@length Z)) in E. rewrite app_length in E.
  cbn [length] in E. lia.
Qed.

(** A path below [p]. *)
Definition below_path (p q : list Z) : Prop := exists r, q = p ++ 47 :: r.

Lemma below_join p n q : below_path (path_join p n) q -> below_path p q.
Proof.
  intros (r & ->). exists (n ++ 47 :: r). unfold path_join, SLASH.
  rewrite <- app_assoc. reflexivity.
Qed.

Lemma join_below p n : below_path p (path_join p n).
Proof. exists n. reflexivity. Qed.

(** Names without separators: the first part of a path is determined. *)
Lemma split_first a b x y : ~ In 47 a -> ~ In 47 b ->
  (x = [] \/ exists r, x = 47 :: r) -> (y = [] \/ exists r, y = 47 :: r) ->
  a ++ x = b ++ y -> a = b /\ x = y.
Proof.
  revert b. induction a as [|c a IH]; intros [|e b] Ha Hb Hx Hy H.
  - auto.
  - cbn [app] in H. exfalso. destruct Hx as [->|(r & ->)]; [discriminate|].
    apply Hb. left. congruence.
  - cbn [app] in H. exfalso. destruct Hy as [->|(r & ->)]; [discriminate|].
    apply Ha. left. congruence.
  - cbn [app] in H. destruct (IH b) as (-> & ->); auto.
    + intros Hi. apply Ha. right. exact Hi.
    + intros Hi. apply Hb. right. exact Hi.
    + congruence.
    + split; congruence.
Qed.

Lemma join_apart p n m q : ~ In 47 n -> ~ In 47 m -> n <> m ->
  (q = path_join p n \/ below_path (path_join p n) q) ->
  q <> path_join p m /\ ~ below_path (path_join p m) q.
Proof.
  intros Hn Hm Hne Hq.
  assert (Hq' : exists x, q = p ++ 47 :: n ++ x /\ (x = [] \/ exists r, x = 47 :: r)).
  { destruct Hq as [->|(r & ->)].
    - exists []. rewrite app_nil_r. auto.
    - exists (47 :: r). unfold path_join, SLASH. rewrite <- app_assoc. split; eauto. }
  destruct Hq' as (x & -> & Hx). split.
  - unfold path_join, SLASH. intros H. apply app_inv_head in H. injection H as H.
    rewrite <- (app_nil_r m) in H. destruct (split_first n m x [] Hn Hm Hx (or_introl eq_refl) H). auto.
  - intros (r & H). unfold path_join, SLASH in H. rewrite <- app_assoc in H.
    apply app_inv_head in H. cbn [app] in H. injection H as H.
    destruct (split_first n m x (47 :: r) Hn Hm Hx) as (E & _); eauto.
Qed.

Lemma stream_data_plain : ~ In 47 stream_data_name.
Proof. cbn. intuition congruence. Qed.

(** * Steps *)
Lemma call_snd {A} ho (f : disk -> option Z -> res A * disk) w :
  x_disk (snd (call ho f w)) = snd (f (x_disk w) (ho_fault ho (x_calls w))).
Proof. unfold call. destruct (f _ _). reflexivity. Qed.

Lemma call_fst {A} ho (f : disk -> option Z -> res A * disk) w :
  fst (call ho f w) = fst (f (x_disk w) (ho_fault ho (x_calls w))).
Proof. unfold call. destruct (f _ _). reflexivity. Qed.

Lemma file_exists_disk ho p n w : x_disk (snd (file_exists ho p n w)) = x_disk w.
Proof. unfold file_exists. rewrite call_snd. destruct (ho_fault _ _); reflexivity. Qed.

Lemma file_exists_false ho p n w w' : file_exists ho p n w = (Ok false, w') ->
  dot_name n = false /\ on_disk (x_disk w) (path_join p n) = None /\ x_disk w' = x_disk w.
Proof.
  intros H. pose proof (file_exists_disk ho p n w) as Hd. rewrite H in Hd. cbn [snd] in Hd.
  assert (Hf : fst (file_exists ho p n w) = Ok false) by (rewrite H; reflexivity).
  unfold file_exists in Hf. rewrite call_fst in Hf. destruct (ho_fault _ _); [discriminate|].
  cbn [fst] in Hf. apply Ok_inj in Hf. apply orb_false_elim in Hf as [H1 H2].
  destruct (on_disk _ _); [discriminate|]. auto.
Qed.

Lemma make_directory_ok ho p n w u w' : make_directory ho p n w = (Ok u, w') ->
  dot_name n = false /\ on_disk (x_disk w) (path_join p n) = None /\
  x_disk w' = (path_join p n, Directory) :: x_disk w.
Proof.
  intros H.
  assert (Hf : fst (make_directory ho p n w) = Ok u) by (rewrite H; reflexivity).
  assert (Hs : x_disk (snd (make_directory ho p n w)) = x_disk w') by (rewrite H; reflexivity).
  unfold make_directory in *. rewrite call_fst in Hf. rewrite call_snd in Hs.
  destruct (ho_fault _ _); [discriminate|]. destruct (dot_name n); [discriminate|].
  destruct (on_disk _ _); [discriminate|]. auto.
Qed.

Lemma make_directory_other ho p n w :
  x_disk (snd (make_directory ho p n w)) = x_disk w \/
  (on_disk (x_disk w) (path_join p n) = None /\
   x_disk (snd (make_directory ho p n w)) = (path_join p n, Directory) :: x_disk w).
Proof.
  unfold make_directory. rewrite call_snd. destruct (ho_fault _ _); [auto|].
  destruct (dot_name n); [auto|]. destruct (on_disk _ _); auto.
Qed.

Lemma open_write_disk ho p w :
  (exists u, fst (open_write ho p w) = Ok u /\ x_disk (snd (open_write ho p w)) = (p, Data []) :: x_disk w) \/
  (fst (open_write ho p w) = Err /\ x_disk (snd (open_write ho p w)) = x_disk w).
Proof.
  unfold open_write. rewrite call_snd, call_fst. destruct (ho_fault _ _); [right; auto|left].
  exists tt. auto.
Qed.

Lemma write_buffer_disk ho p l w : exists l',
  x_disk (snd (write_buffer ho p l w)) = (p, Data (written (x_disk w) p ++ l')) :: x_disk w /\
  (exists m, l' = firstn m l) /\
  (fst (write_buffer ho p l w) = Err \/ fst (write_buffer ho p l w) = Ok tt /\ l' = l).
Proof.
  unfold write_buffer. rewrite call_snd, call_fst. destruct (ho_fault _ _) as [n|].
  - exists (slice l 0 n). split; [reflexivity|]. split; [|left; reflexivity].
    unfold slice. eauto.
  - exists l. split; [reflexivity|]. split; [|right; auto]. exists (length l). now rewrite firstn_all.
Qed.

Lemma close_file_disk ho w : x_disk (snd (close_file ho w)) = x_disk w.
Proof. unfold close_file. rewrite call_snd. reflexivity. Qed.

Lemma choose_name_disk ho v d index dir w : x_disk (snd (choose_name ho v d index dir w)) = x_disk w.
Proof.
  unfold choose_name. destruct (ho_name _ _ _) as [raw|]; [|reflexivity].
  destruct (ho_sanitize ho raw) as [n|]; [|reflexivity].
  pose proof (file_exists_disk ho dir n w) as H. unfold xbind.
  destruct (file_exists ho dir n w) as [[[|]| | |] w1]; cbn [snd] in *; auto.
Qed.

Lemma read_item_disk rd v d c n w : x_disk (snd (read_item rd v d c n w)) = x_disk w.
Proof. unfold read_item. destruct (stream_read_buffer _ _ _ _ _ _ _). reflexivity. Qed.

(** A successful read has the bytes of the stream. *)
Lemma read_item_ok rd v d s c n w l c' w' :
  is_stream rd v d s -> 0 < n -> read_item rd v d c n w = (Ok (l, c'), w') ->
  field s c n l /\ c' = c + n.
Proof.
  intros (HV & HD & Hsh & HB & f & HS & (Hty & Hlen & Hby)) Hn H.
  unfold read_item in H.
  destruct (stream_read_buffer rd v d c n BUFFER_SIZE (x_trace w)) as [r tr] eqn:H1.
  apply pair_ok in H as [H _].
  destruct r as [[l0 c0]| | |]; cbn [rbind] in H; try discriminate.
  destruct (zlen l0 =? n) eqn:E; [|discriminate]. apply Z.eqb_eq in E.
  apply Ok_inj in H. apply pair_ok in H as [-> ->].
  pose proof (read_buffer_basic _ _ _ _ _ _ _ _ _ _ HD (Z.lt_le_incl _ _ Hn) H1)
    as (_ & Hc & _ & Ha & ->).
  pose proof (read_buffer_position _ _ _ _ _ _ _ _ _ _ _ HS HV HD (Z.lt_le_incl _ _ Hn) Hsh H1)
    as Hpos.
  unfold read_amount in Ha.
  destruct (de_size d <=? c) eqn:Ec; [lia|]. apply Z.leb_gt in Ec.
  split; [|lia]. split; [lia|]. split; [lia|]. split; [lia|].
  apply znth_ext; [rewrite zlen_slice by lia; lia|]. intros i Hi.
  destruct (znth_some l i) as (b & Hb); [lia|].
  destruct (znth_some s (c + i)) as (b' & Hb'); [lia|].
  rewrite znth_slice by lia. rewrite Hb, Hb'. f_equal.
  destruct (Hpos i b Hb) as (p & Hp & Hfp).
  destruct (Hby _ _ Hb') as (p' & Hp' & Hfp').
  rewrite (stream_position_fun _ _ _ _ _ Hp Hp') in Hfp. congruence.
Qed.

Lemma read_item_complete rd v d s c n w l :
  is_readable_stream rd v d s -> 0 < n <= BUFFER_SIZE -> field s c n l ->
  exists w', read_item rd v d c n w = (Ok (l, c + n), w') /\ x_disk w' = x_disk w.
Proof.
  intros (HV & HD & Hsh & HB & HI & f & HS & HT & HC) Hn Hfield.
  pose proof Hfield as (H0 & _ & Hle & Hl). pose proof HC as (Hty & Hlen & Hby).
  assert (Hm : Z.min n (de_size d - c) = n) by lia.
  unfold BUFFER_SIZE in Hn.
  destruct (read_buffer_complete f rd v d c n BUFFER_SIZE (x_trace w)) as (data & t' & Hr & Hdl);
    auto; try (unfold BUFFER_SIZE; lia).
  - unfold SSIZE_MAX. lia.
  - destruct (HI c) as (Hq & _); [lia|]. exact Hq.
  - rewrite Hm. destruct (HI (c + n - 1)) as (_ & Hq); [lia|]. exact Hq.
  - rewrite Hm. intros i Hi. destruct (znth_some s i) as (b & Hb); [lia|].
    destruct (Hby _ _ Hb) as (p & Hp & Hfp). exists p. split; auto.
    apply znth_range in Hfp. lia.
  - rewrite Hm in *.
    assert (Hri : read_item rd v d c n w =
      (Ok (data, c + n), {| x_disk := x_disk w; x_calls := x_calls w; x_trace := t' |})).
    { unfold read_item. rewrite Hr. cbn [rbind]. rewrite Hdl, Z.eqb_refl. reflexivity. }
    destruct (read_item_ok rd v d s c n w data (c + n) _ ltac:(unfold is_stream; eauto 10) ltac:(lia) Hri)
      as ((_ & _ & _ & ->) & _).
    rewrite Hri, Hl. eexists. split; reflexivity.
Qed.

Definition begins (l s : list Z) : Prop := exists m, l = firstn m s.

Lemma begins_slice s m : begins (slice s 0 m) s.
Proof. unfold begins, slice. exists (Z.to_nat m). reflexivity. Qed.

Lemma slice_snoc (s : list Z) c n m : 0 <= c -> 0 <= n ->
  slice s 0 c ++ firstn m (slice s c n) = slice s 0 (c + Z.min (Z.of_nat m) n) \/ zlen s < c.
Proof.
  intros Hc Hn. destruct (Z.le_gt_cases c (zlen s)) as [Hs|Hs]; [left|right; lia].
  unfold slice. cbn [Z.to_nat]. rewrite !skipn_O. rewrite firstn_firstn.
  replace (Z.to_nat (c + Z.min (Z.of_nat m) n)) with (Z.to_nat c + Nat.min m (Z.to_nat n))%nat by lia.
  rewrite <- (firstn_skipn (Z.to_nat c) s) at 3.
  assert (E : length (firstn (Z.to_nat c) s) = Z.to_nat c)
    by (rewrite firstn_length; unfold zlen in Hs; lia).
  rewrite <- E at 3. rewrite firstn_app_2. reflexivity.
Qed.

Lemma written_of s p l : on_disk s p = Some (Data l) -> written s p = l.
Proof. intros H. unfold written. now rewrite H. Qed.

(** The copy only writes to its file. *)
Lemma copy_loop_other ho rd v d p fuel : forall c left w q, q <> p ->
  on_disk (x_disk (snd (copy_loop ho rd v fuel d p c left w))) q = on_disk (x_disk w) q.
Proof.
  induction fuel as [|fuel IH]; intros c left w q Hq; cbn [copy_loop]; [reflexivity|].
  destruct (0 <? left); [|reflexivity]. cbv zeta.
  set (size := if left <? BUFFER_SIZE then left else BUFFER_SIZE). clearbody size.
  pose proof (read_item_disk rd v d c size w) as Hr. unfold xbind at 1.
  destruct (read_item rd v d c size w) as [[[l c']| | |] w1]; cbn [snd] in *; try congruence.
  destruct (write_buffer_disk ho p l w1) as (l' & Hw & _ & Hcase). unfold xbind.
  destruct (write_buffer ho p l w1) as [r w2]. cbn [snd fst] in *.
  assert (Hw2 : on_disk (x_disk w2) q = on_disk (x_disk w) q).
  { rewrite Hw, on_disk_other by exact Hq. now rewrite Hr. }
  destruct Hcase as [->|[-> _]]; cbn [snd]; [exact Hw2|]. rewrite IH by exact Hq. exact Hw2.
Qed.

Lemma copy_loop_file ho rd v d p fuel : forall c left w,
  (exists l, on_disk (x_disk w) p = Some (Data l)) ->
  exists l, on_disk (x_disk (snd (copy_loop ho rd v fuel d p c left w))) p = Some (Data l).
Proof.
  induction fuel as [|fuel IH]; intros c left w Hp; cbn [copy_loop]; [exact Hp|].
  destruct (0 <? left); [|exact Hp]. cbv zeta.
  set (size := if left <? BUFFER_SIZE then left else BUFFER_SIZE). clearbody size.
  pose proof (read_item_disk rd v d c size w) as Hr. unfold xbind at 1.
  destruct (read_item rd v d c size w) as [[[l c']| | |] w1]; cbn [snd] in *; try (rewrite Hr; exact Hp).
  destruct (write_buffer_disk ho p l w1) as (l' & Hw & _ & Hcase). unfold xbind.
  destruct (write_buffer ho p l w1) as [r w2]. cbn [snd fst] in *.
  assert (Hw2 : exists l, on_disk (x_disk w2) p = Some (Data l)).
  { rewrite Hw, on_disk_same. eauto. }
  destruct Hcase as [->|[-> _]]; cbn [snd]; [exact Hw2|]. apply IH. exact Hw2.
Qed.

(** The file is a beginning of the stream at any time, and all of it in the
    end. *)
Lemma copy_loop_data ho rd v d s p fuel : is_stream rd v d s -> forall c left w,
  0 <= c -> left = de_size d - c -> 0 <= left ->
  on_disk (x_disk w) p = Some (Data (slice s 0 c)) ->
  exists l, on_disk (x_disk (snd (copy_loop ho rd v fuel d p c left w))) p = Some (Data l) /\
    begins l s /\ (fst (copy_loop ho rd v fuel d p c left w) = Ok tt -> l = s).
Proof.
  intros HS.
  assert (Hlen : zlen s = de_size d /\ de_size d < 4294967296).
  { destruct HS as (_ & HD & _ & _ & f & _ & _ & H & _). destruct HD as [_ HD].
    unfold is_u32 in HD. lia. }
  induction fuel as [|fuel IH]; intros c left w Hc Hl Hl0 Hp; cbn [copy_loop].
  { exists (slice s 0 c). split; [exact Hp|]. split; [apply begins_slice|discriminate]. }
  destruct (0 <? left) eqn:E0.
  2:{ exists (slice s 0 c). split; [exact Hp|]. split; [apply begins_slice|]. intros _.
      replace c with (zlen s) by lia. apply slice_full. }
  cbv zeta. set (size := if left <? BUFFER_SIZE then left else BUFFER_SIZE).
  assert (Hsz : 0 < size <= left).
  { unfold size, BUFFER_SIZE. destruct (left <? 32768) eqn:E; lia. }
  clearbody size.
  pose proof (read_item_disk rd v d c size w) as Hr. unfold xbind at 1 3.
  destruct (read_item rd v d c size w) as [[[l c']| | |] w1] eqn:Eri; cbn [snd fst] in *;
    try (exists (slice s 0 c); rewrite Hr; split; [exact Hp|]; split; [apply begins_slice|discriminate]).
  destruct (read_item_ok _ _ _ _ _ _ _ _ _ _ HS (proj1 Hsz) Eri) as ((F1 & F2 & F3 & ->) & ->).
  destruct (write_buffer_disk ho p (slice s c size) w1) as (l' & Hw & (m & ->) & Hcase). unfold xbind.
  destruct (write_buffer ho p (slice s c size) w1) as [r w2]. cbn [snd fst] in *.
  rewrite Hr in Hw. rewrite (written_of _ _ _ Hp) in Hw.
  destruct (slice_snoc s c size m ltac:(lia) ltac:(lia)) as [Hsl|]; [|lia].
  rewrite Hsl in Hw.
  destruct Hcase as [->|[-> Hm]]; cbn [snd fst].
  - exists (slice s 0 (c + Z.min (Z.of_nat m) size)).
    rewrite Hw, on_disk_same. split; [reflexivity|]. split; [apply begins_slice|discriminate].
  - apply IH; try lia.
    + unfold u32, TWO32. rewrite Z.mod_small by lia. lia.
    + unfold u32, TWO32. rewrite Z.mod_small by lia. lia.
    + rewrite Hw, on_disk_same. do 2 f_equal.
      destruct (slice_snoc s c size (length (slice s c size)) ltac:(lia) ltac:(lia)) as [H2|]; [|lia].
      rewrite firstn_all in H2.
      assert (Hz : Z.of_nat (length (slice s c size)) = size) by (apply (zlen_slice s c size); lia).
      rewrite Hz, Z.min_id in H2. rewrite <- H2, <- Hsl, Hm. reflexivity.
Qed.

Lemma no_fault_write ho p l w : (forall k, ho_fault ho k = None) -> exists w',
  write_buffer ho p l w = (Ok tt, w') /\ x_disk w' = (p, Data (written (x_disk w) p ++ l)) :: x_disk w.
Proof.
  intros HF. unfold write_buffer, call. rewrite HF. eexists. split; reflexivity.
Qed.

Lemma copy_loop_complete ho rd v d s p fuel : is_readable_stream rd v d s ->
  (forall k, ho_fault ho k = None) -> forall c left w,
  0 <= c -> left = de_size d - c -> 0 <= left -> left <= BUFFER_SIZE * (Z.of_nat fuel - 1) ->
  exists w', copy_loop ho rd v fuel d p c left w = (Ok tt, w').
Proof.
  intros HS HF.
  assert (Hlen : zlen s = de_size d /\ de_size d < 4294967296).
  { destruct HS as (_ & HD & _ & _ & _ & f & _ & _ & _ & H & _). destruct HD as [_ HD].
    unfold is_u32 in HD. lia. }
  induction fuel as [|fuel IH]; intros c left w Hc Hl Hl0 Hf; cbn [copy_loop]; [unfold BUFFER_SIZE in *; lia|].
  destruct (0 <? left) eqn:E0; [|exists w; reflexivity].
  cbv zeta. set (size := if left <? BUFFER_SIZE then left else BUFFER_SIZE).
  assert (Hsz : 0 < size <= left /\ size <= BUFFER_SIZE /\ left - size <= BUFFER_SIZE * (Z.of_nat fuel - 1)).
  { unfold size. unfold BUFFER_SIZE in *. destruct (left <? 32768) eqn:E; lia. }
  clearbody size. destruct Hsz as (Hsz & Hsz2 & Hsz3).
  destruct (read_item_complete rd v d s c size w (slice s c size) HS) as (w1 & Hri & _); [lia| |].
  { split; [lia|]. split; [lia|]. split; [lia|reflexivity]. }
  rewrite (xbind_Ok _ _ _ _ _ Hri).
  destruct (no_fault_write ho p (slice s c size) w1 HF) as (w2 & Hw & _).
  rewrite (xbind_Ok _ _ _ _ _ Hw).
  apply IH; try lia; unfold u32, TWO32; rewrite Z.mod_small by lia; lia.
Qed.

Lemma copy_loop_defined ho rd v d p fuel : volume_ok v -> dirent_ok d -> forall c left w,
  0 <= left < 4294967296 -> left <= BUFFER_SIZE * (Z.of_nat fuel - 1) ->
  defined (fst (copy_loop ho rd v fuel d p c left w)).
Proof.
  intros HV HD. induction fuel as [|fuel IH]; intros c left w Hl Hf; cbn [copy_loop]; [unfold BUFFER_SIZE in *; lia|].
  destruct (0 <? left) eqn:E0; [|exact I].
  cbv zeta. set (size := if left <? BUFFER_SIZE then left else BUFFER_SIZE).
  assert (Hsz : 0 < size <= left /\ size <= BUFFER_SIZE /\ left - size <= BUFFER_SIZE * (Z.of_nat fuel - 1)).
  { unfold size. unfold BUFFER_SIZE in *. destruct (left <? 32768) eqn:E; lia. }
  clearbody size. destruct Hsz as (Hsz & Hsz2 & Hsz3).
  apply xbind_defined.
  - unfold read_item.
    pose proof (read_buffer_defined rd v d c size BUFFER_SIZE (x_trace w)) as Hd.
    destruct (stream_read_buffer rd v d c size BUFFER_SIZE (x_trace w)) as [r tr]. cbn [fst] in *.
    assert (Hr : defined r) by (unfold BUFFER_SIZE in *; apply Hd; auto; try lia; right; lia).
    destruct r as [[l c']| | |]; try exact Hr. cbn [rbind]. destruct (zlen l =? size); exact I.
  - intros [l c'] w1 _. apply xbind_defined.
    + unfold write_buffer. rewrite call_fst. destruct (ho_fault _ _); exact I.
    + intros u w2 _. apply IH; unfold u32, TWO32; rewrite Z.mod_small by lia; lia.
Qed.

(** * What an export adds *)
Section Grows.
Variables (ho : host) (rd : reader) (v : volume) (t : tree).

(** A data file: a beginning of the stream of some item. *)
Definition good (q : list Z) (x : file_entry) : Prop :=
  x = Directory \/
  exists j d r l, item_entry t j d /\ q = data_path r /\ x = Data l /\
    (forall s, item_data rd v d s -> begins l s).

Definition grows (dir : list Z) (s s' : disk) : Prop :=
  (forall q x, on_disk s q = Some x -> on_disk s' q = Some x) /\
  (forall q x, on_disk s' q = Some x ->
     on_disk s q = Some x \/ (below_path dir q /\ good q x)).

Lemma grows_refl dir s : grows dir s s.
Proof. split; auto. Qed.

Lemma grows_trans dir a b c : grows dir a b -> grows dir b c -> grows dir a c.
Proof.
  intros (A1 & A2) (B1 & B2). split; [auto|].
  intros q x H. destruct (B2 _ _ H) as [H1|H1]; [|right; exact H1]. apply A2. exact H1.
Qed.

Lemma grows_join dir n a b : grows (path_join dir n) a b -> grows dir a b.
Proof.
  intros (A1 & A2). split; [auto|]. intros q x H.
  destruct (A2 _ _ H) as [H1|(H1 & H2)]; [left; exact H1|right]. split; [|exact H2].
  eapply below_join. exact H1.
Qed.

Lemma grows_add dir s p x : on_disk s p = None -> below_path dir p -> good p x ->
  grows dir s ((p, x) :: s).
Proof.
  intros Hn Hb Hg. split.
  - intros q y H. rewrite on_disk_other; [exact H|]. intros ->. congruence.
  - intros q y H. rewrite on_disk_cons in H. destruct (list_eq_dec Z.eq_dec q p) as [->|].
    + right. injection H as <-. auto.
    + left. exact H.
Qed.

Definition grows_x (dir : list Z) (w w' : xstate) : Prop := grows dir (x_disk w) (x_disk w').

Lemma grows_x_trans dir a b c : grows_x dir a b -> grows_x dir b c -> grows_x dir a c.
Proof. apply grows_trans. Qed.

Lemma sub_items_loop_grows one dir :
  (forall k index w, grows_x dir w (snd (one k index dir w))) ->
  forall subs index w, grows_x dir w (snd (sub_items_loop one index subs dir w)).
Proof.
  intros H1 subs. induction subs as [|k subs IH]; intros index w; cbn [sub_items_loop];
    [apply grows_refl|].
  specialize (H1 k index w). destruct (one k index dir w) as [[u| | |] w1]; cbn [snd] in *; try exact H1.
  - eapply grows_x_trans; [exact H1|apply IH].
  - eapply grows_x_trans; [exact H1|apply IH].
Qed.

(** The data file: from before it is opened. *)
Lemma data_file_grows j d dir target w :
  item_entry t j d -> on_disk (x_disk w) target = None -> below_path dir target ->
  (exists r, target = data_path r) ->
  forall w1, x_disk w1 = (target, Data []) :: x_disk w ->
  forall w2, (forall q, q <> target -> on_disk (x_disk w2) q = on_disk (x_disk w1) q) ->
  forall l, on_disk (x_disk w2) target = Some (Data l) ->
  (forall s, item_data rd v d s -> begins l s) ->
  grows_x dir w w2.
Proof.
  intros Hj Hn Hb (r & Hr) w1 H1 w2 H2 l Hl Hs. split.
  - intros q x H. assert (Hq : q <> target) by (intros ->; congruence).
    rewrite H2 by exact Hq. rewrite H1, on_disk_other by exact Hq. exact H.
  - intros q x H. destruct (list_eq_dec Z.eq_dec q target) as [->|Hq].
    + right. split; [exact Hb|]. right. exists j, d, r, l. rewrite Hl in H. injection H as <-. auto.
    + left. rewrite H2, H1, on_disk_other in H by exact Hq. exact H.
Qed.

Lemma begins_nil s : begins [] s.
Proof. exists O. reflexivity. Qed.

(** The step from the opening of the data file to its end. *)
Definition copy_item (d : dirent) (target : list Z) : xio unit :=
  if 0 <? de_size d
  then copy_loop ho rd v (Z.to_nat (de_size d / BUFFER_SIZE) + 2) d target 0 (de_size d)
  else xret tt.

Lemma copy_item_other d target w q : q <> target ->
  on_disk (x_disk (snd (copy_item d target w))) q = on_disk (x_disk w) q.
Proof.
  intros Hq. unfold copy_item. destruct (0 <? de_size d); [|reflexivity].
  now apply copy_loop_other.
Qed.

Lemma copy_item_data d target w : on_disk (x_disk w) target = Some (Data []) ->
  exists l, on_disk (x_disk (snd (copy_item d target w))) target = Some (Data l) /\
    forall s, item_data rd v d s ->
      begins l s /\ (fst (copy_item d target w) = Ok tt -> l = s).
Proof.
  intros Hw. unfold copy_item. destruct (0 <? de_size d) eqn:E.
  - destruct (copy_loop_file ho rd v d target (Z.to_nat (de_size d / BUFFER_SIZE) + 2) 0 (de_size d) w)
      as (l & Hl); [eauto|].
    exists l. split; [exact Hl|]. intros s [(H0 & _)|Hs]; [lia|].
    destruct (copy_loop_data ho rd v d s target (Z.to_nat (de_size d / BUFFER_SIZE) + 2) Hs 0 (de_size d) w)
      as (l' & Hl' & Hb & Ho); try lia; [exact Hw|].
    assert (l = l') as -> by congruence. auto.
  - exists []. split; [exact Hw|]. intros s Hs. split; [apply begins_nil|]. intros _.
    destruct Hs as [(_ & ->)|(_ & [_ HD] & _ & _ & f & _ & _ & Hlen & _)]; [reflexivity|].
    unfold is_u32 in HD. assert (H0 : zlen s = 0) by lia. unfold zlen in H0. destruct s; [reflexivity|].
    cbn [length] in H0. lia.
Qed.

Lemma export_item_unfold fuel k index dir :
  export_item ho rd v t (S fuel) k index dir =
  (dx d <- xlift (node_value t k);
   dx name <- choose_name ho v d index dir;
   dx _ <- make_directory ho dir name;
   let path := path_join dir name in
   dx there <- file_exists ho path stream_data_name;
   if there then xret tt
   else
     let target := path_join path stream_data_name in
     dx _ <- open_write ho target;
     dx _ <- copy_item d target;
     dx _ <- close_file ho;
     dx subs <- xlift (sub_nodes t k);
     sub_items_loop (export_item ho rd v t fuel) 0 subs path).
Proof. reflexivity. Qed.

Lemma node_value_entry k d : node_value t k = Ok d -> item_entry t k d.
Proof.
  unfold node_value, item_entry. destruct (nth_error (tr_nodes t) k) as [n|]; [|discriminate].
  intros H. apply Ok_inj in H. eauto.
Qed.

(** The last steps, from the opening of the data file on. *)
Lemma finish_grows fuel k d dir target w :
  (forall k index dir w, grows_x dir w (snd (export_item ho rd v t fuel k index dir w))) ->
  item_entry t k d -> target = path_join dir stream_data_name ->
  on_disk (x_disk w) target = None ->
  grows_x dir w
    (snd ((dx _ <- open_write ho target;
           dx _ <- copy_item d target;
           dx _ <- close_file ho;
           dx subs <- xlift (sub_nodes t k);
           sub_items_loop (export_item ho rd v t fuel) 0 subs dir) w)).
Proof.
  intros IH Hk -> Hn. set (target := path_join dir stream_data_name) in *.
  destruct (open_write_disk ho target w) as [(u & Ho & Hd)|(Ho & Hd)];
    destruct (open_write ho target w) as [r w1] eqn:E1; cbn [fst snd] in *; subst r.
  2:{ unfold xbind at 1. rewrite E1. cbn [snd]. unfold grows_x. rewrite Hd. apply grows_refl. }
  rewrite (xbind_Ok _ _ _ _ _ E1).
  destruct (copy_item_data d target w1) as (l & Hl & Hs); [rewrite Hd; apply on_disk_same|].
  assert (Hg : grows_x dir w (snd (copy_item d target w1))).
  { eapply (data_file_grows k d dir target w Hk Hn (join_below _ _)).
    - exists dir. reflexivity.
    - exact Hd.
    - intros q Hq. apply copy_item_other. exact Hq.
    - exact Hl.
    - intros s H. apply (Hs s H). }
  eapply grows_x_trans; [exact Hg|].
  unfold xbind at 1. destruct (copy_item d target w1) as [[c| | |] w2]; cbn [snd]; try apply grows_refl.
  apply xbind_rel; [apply grows_x_trans|unfold grows_x; rewrite close_file_disk; apply grows_refl|].
  intros u3 w3 _. apply xbind_rel; [apply grows_x_trans|apply grows_refl|].
  intros subs w4 _. apply sub_items_loop_grows. intros. apply IH.
Qed.

Lemma export_item_grows fuel : forall k index dir w,
  grows_x dir w (snd (export_item ho rd v t fuel k index dir w)).
Proof.
  induction fuel as [|fuel IH]; intros k index dir w; [apply grows_refl|].
  rewrite export_item_unfold.
  apply xbind_rel; [apply grows_x_trans|apply grows_refl|]. intros d w1 Hd.
  assert (Hk : item_entry t k d).
  { unfold xlift in Hd. apply pair_ok in Hd as [Hd _]. now apply node_value_entry. }
  clear Hd.
  apply xbind_rel; [apply grows_x_trans|unfold grows_x; rewrite choose_name_disk; apply grows_refl|].
  intros name w2 _.
  unfold xbind at 1. destruct (make_directory ho dir name w2) as [[u| | |] w3] eqn:Em;
    cbn [snd];
    try (pose proof (make_directory_other ho dir name w2) as [H|(H1 & H2)]; rewrite Em in *; cbn [snd] in *;
         [unfold grows_x; rewrite H; apply grows_refl|
          unfold grows_x; rewrite H2; apply grows_add; [exact H1|apply join_below|left; reflexivity]]).
  apply make_directory_ok in Em as (_ & Hn & Hs).
  assert (Hg : grows_x dir w2 w3).
  { unfold grows_x. rewrite Hs. apply grows_add; [exact Hn|apply join_below|left; reflexivity]. }
  eapply grows_x_trans; [exact Hg|]. cbv zeta.
  unfold xbind at 1.
  destruct (file_exists ho (path_join dir name) stream_data_name w3) as [[[|]| | |] w4] eqn:Ex;
    try (pose proof (file_exists_disk ho (path_join dir name) stream_data_name w3) as Hx;
         rewrite Ex in Hx; cbn [snd] in Hx; cbn [snd xret]; unfold grows_x; rewrite Hx; apply grows_refl).
  apply file_exists_false in Ex as (_ & Hno & Hx).
  unfold grows_x. apply (grows_join dir name). rewrite <- Hx in *.
  apply finish_grows; auto.
Qed.

Lemma export_sub_items_grows k dir w : grows_x dir w (snd (export_sub_items ho rd v t k dir w)).
Proof.
  unfold export_sub_items. apply xbind_rel; [apply grows_x_trans|apply grows_refl|].
  intros subs w1 _. apply sub_items_loop_grows. intros. apply export_item_grows.
Qed.

(** * A successful export *)
Lemma choose_name_ok d index dir w name w' :
  choose_name ho v d index dir w = (Ok name, w') ->
  exists n, safe_name ho (v_byte_order v) d n /\
    ((name = n /\ on_disk (x_disk w) (path_join dir n) = None) \/
     (name = firstn 9 (item_text index) /\ 9 <= zlen n /\
      (In n [[46]; [46; 46]] \/ on_disk (x_disk w) (path_join dir n) <> None))).
Proof.
  unfold choose_name, safe_name. intros H.
  destruct (ho_name _ _ _) as [raw|]; [|discriminate].
  destruct (ho_sanitize ho raw) as [n|] eqn:En; [|discriminate].
  exists n. split; [eauto|]. apply xbind_ok in H as (there & w1 & Hx & H).
  destruct there.
  - unfold xlift in H. apply pair_ok in H as [H _]. unfold item_name_again in H.
    destruct (zlen n + 1 <? 10) eqn:E; [discriminate|].
    destruct (12 <? zlen (item_text index)); [discriminate|]. apply Ok_inj in H.
    right. split; [auto|]. split; [lia|].
    assert (Hf : fst (file_exists ho dir n w) = Ok true) by (rewrite Hx; reflexivity).
    unfold file_exists in Hf. rewrite call_fst in Hf. destruct (ho_fault _ _); [discriminate|].
    cbn [fst] in Hf. apply Ok_inj in Hf. apply orb_prop in Hf as [Hf|Hf].
    + left. unfold dot_name in Hf. destruct (list_eq_dec Z.eq_dec n [46]) as [->|]; [left; reflexivity|].
      destruct (list_eq_dec Z.eq_dec n [46; 46]) as [->|]; [right; left; reflexivity|discriminate].
    + right. destruct (on_disk _ _); [discriminate|discriminate Hf].
  - apply pair_ok in H as [H _]. apply Ok_inj in H. apply file_exists_false in Hx as (_ & Hx & _). auto.
Qed.

Lemma export_item_success fuel k index dir w u w' :
  export_item ho rd v t fuel k index dir w = (Ok u, w') ->
  exists d name n,
    item_entry t k d /\
    safe_name ho (v_byte_order v) d n /\
    ((name = n /\ on_disk (x_disk w) (path_join dir n) = None) \/
     (name = firstn 9 (item_text index) /\ 9 <= zlen n /\
      (In n [[46]; [46; 46]] \/ on_disk (x_disk w) (path_join dir n) <> None))) /\
    on_disk (x_disk w) (path_join dir name) = None /\
    on_disk (x_disk w') (path_join dir name) = Some Directory /\
    (on_disk (x_disk w) (data_path (path_join dir name)) = None ->
     exists l, on_disk (x_disk w') (data_path (path_join dir name)) = Some (Data l) /\
       forall s, item_data rd v d s -> l = s).
Proof.
  destruct fuel as [|fuel]; [discriminate|]. rewrite export_item_unfold. intros H.
  apply xbind_ok in H as (d & w1 & H1 & H). unfold xlift in H1. apply pair_ok in H1 as [H1 <-].
  apply node_value_entry in H1.
  apply xbind_ok in H as (name & w2 & H2 & H).
  pose proof (choose_name_disk ho v d index dir w) as Hd. rewrite H2 in Hd. cbn [snd] in Hd.
  apply xbind_ok in H as (u3 & w3 & H3 & H). apply make_directory_ok in H3 as (_ & Hn & Hs).
  rewrite Hd in *. cbv zeta in H. set (path := path_join dir name) in *.
  destruct (choose_name_ok _ _ _ _ _ _ H2) as (n & Hn1 & Hn2).
  exists d, name, n. split; [exact H1|]. split; [exact Hn1|]. split; [exact Hn2|].
  split; [exact Hn|].
  apply xbind_ok in H as (there & w4 & H4 & H).
  destruct there.
  { apply pair_ok in H as [_ <-].
    pose proof (file_exists_disk ho path stream_data_name w3) as Hx. rewrite H4 in Hx. cbn [snd] in Hx.
    rewrite Hx, Hs, on_disk_same. split; [reflexivity|]. intros Hno. exfalso.
    assert (Hf : fst (file_exists ho path stream_data_name w3) = Ok true) by (rewrite H4; reflexivity).
    unfold file_exists in Hf. rewrite call_fst in Hf. destruct (ho_fault _ _); [discriminate|].
    cbn [fst] in Hf. rewrite Hs, on_disk_other in Hf.
    - rewrite data_path_join in Hno. fold path in Hno. rewrite Hno in Hf. discriminate Hf.
    - intros E. symmetry in E. exact (join_neq _ _ E). }
  apply file_exists_false in H4 as (_ & Hno & Hx).
  set (target := path_join path stream_data_name) in *.
  apply xbind_ok in H as (u5 & w5 & H5 & H).
  destruct (open_write_disk ho target w4) as [(u' & Ho & Hd5)|(Ho & _)];
    rewrite H5 in *; cbn [fst snd] in *; [|discriminate].
  apply xbind_ok in H as (u6 & w6 & H6 & H).
  destruct (copy_item_data d target w5) as (l & Hl & Hdata); [rewrite Hd5; apply on_disk_same|].
  assert (Hother : forall q, q <> target -> on_disk (x_disk w6) q = on_disk (x_disk w5) q).
  { intros q Hq. pose proof (copy_item_other d target w5 q Hq) as Ho'. rewrite H6 in Ho'. exact Ho'. }
  rewrite H6 in *. cbn [fst snd] in *.
  apply xbind_ok in H as (u7 & w7 & H7 & H).
  pose proof (close_file_disk ho w6) as Hc. rewrite H7 in Hc. cbn [snd] in Hc.
  apply xbind_ok in H as (subs & w8 & H8 & H). unfold xlift in H8. apply pair_ok in H8 as [_ <-].
  assert (Hg : grows_x path w7 w').
  { pose proof (sub_items_loop_grows (export_item ho rd v t fuel) path
      ltac:(intros; apply export_item_grows) subs 0 w7) as Hg. rewrite H in Hg. exact Hg. }
  destruct Hg as (Hg & _).
  split.
  - apply Hg. rewrite Hc, Hother, Hd5, on_disk_other, Hx, Hs; [apply on_disk_same| |];
      apply join_neq.
  - intros _. exists l. split; [apply Hg; rewrite Hc; exact Hl|].
    intros s Hs'. destruct (Hdata s Hs') as (_ & Ho'). apply Ho'. destruct u6; reflexivity.
Qed.
End Grows.
