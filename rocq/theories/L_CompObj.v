(** Lemmas on compound objects: single reads, no undefined behaviour, memory. *)
From Coq Require Import ZArith List Bool Lia ZifyBool ZifyNat.
From Verif Require Import Base Spec_IO L_Base M_Table M_Load M_Stream Spec_Stream L_Stream L_Stream2
  L_Stream3 L_Prop3 Spec_Load L_Load L_Header M_CompObj Spec_CompObj.
Import ListNotations.
Open Scope Z_scope.

(** * Numbers *)
Lemma le_bytes_value l : Forall is_byte l -> le_bytes (length l) (le_value l) = l.
Proof.
  induction 1 as [|b l Hb Hl IH]; [reflexivity|]. cbn [length le_bytes le_value]. unfold is_byte in Hb.
  f_equal.
  - symmetry. apply Z.mod_unique with (q := le_value l); lia.
  - replace ((b + 256 * le_value l) / 256) with (le_value l); [exact IH|].
    apply Z.div_unique with (r := b); lia.
Qed.

Lemma bytes_of_value e l : Forall is_byte l -> bytes_of e (length l) (value e l) = l.
Proof.
  intros H. destruct e; cbn [bytes_of value]; [now apply le_bytes_value|].
  rewrite <- (rev_length l), le_bytes_value by now apply Forall_rev. apply rev_involutive.
Qed.

Lemma slice_all {A} (l : list A) n : n = zlen l -> slice l 0 n = l.
Proof. intros ->. unfold slice, zlen. rewrite Nat2Z.id. cbn [Z.to_nat skipn]. apply firstn_all. Qed.

Lemma get_u32_bytes e l x : Forall is_byte l -> zlen l = 4 -> get_u32 e l 0 = Ok x -> bytes_of e 4 x = l.
Proof.
  intros HB Hl. rewrite get_u32_value by lia. unfold value_at. rewrite slice_all by auto. intros H.
  injection H as <-. unfold zlen in Hl. replace 4%nat with (length l) by lia. now apply bytes_of_value.
Qed.

Lemma get_u32_of e x : 0 <= x < 4294967296 -> get_u32 e (bytes_of e 4 x) 0 = Ok x.
Proof.
  intros H. rewrite get_u32_value by (rewrite ?zlen_bytes_of; lia). unfold value_at.
  rewrite slice_all by (rewrite zlen_bytes_of; reflexivity). f_equal. apply value_bytes_of. exact H.
Qed.

Lemma bytes_of_inj e x y : 0 <= x < 4294967296 -> 0 <= y < 4294967296 ->
  bytes_of e 4 x = bytes_of e 4 y -> x = y.
Proof.
  intros Hx Hy H. apply (f_equal (value e)) in H. rewrite !value_bytes_of in H by assumption. exact H.
Qed.

(** * One read *)

(** Offsets for which the sector number does not wrap, or is refused. *)
Definition near (v : volume) (d : dirent) (c : Z) : Prop :=
  0 <= c /\ (c < 4294967296 \/ c / stream_sector_size v d <= INT_MAX).

Lemma near_index v d c index : volume_ok v -> near v d c ->
  index = s32 (c / stream_sector_size v d) -> 0 <= index -> index = c / stream_sector_size v d.
Proof.
  intros HV [H0 [H|H]] E Hi; [now apply (index_small v d c)|].
  rewrite E. apply s32_id. pose proof (stream_ss_pos v d HV).
  assert (0 <= c / stream_sector_size v d) by (apply Z.div_pos; lia). lia.
Qed.

Lemma io_read_chain f rd v d c n cap t l t' :
  io_sound rd f -> volume_ok v -> dirent_ok d ->
  (de_size d < v_minimum_size v ->
   v_short_sector_size v <= v_sector_size v /\ container_used v) ->
  near v d c -> 0 <= n -> io_read_stream rd v d c n cap t = (Ok l, t') ->
  chain_holds f v d c l.
Proof.
  intros HS HV HD Hsh Hc Hn H. unfold io_read_stream in H.
  destruct (c <? 0) eqn:E1; [discriminate|].
  destruct (SSIZE_MAX <? n); [discriminate|].
  set (index := s32 (c / stream_sector_size v d)) in *.
  destruct ((index <? 0) || (zlen (stream_table v d) <=? index)) eqn:E2; [discriminate|].
  apply ibind_ok in H as (id & t1 & Hid & H). apply ilift_ok in Hid as [Hid ->].
  apply skip_sectors_ok in Hid; [|apply stream_table_u32; auto|apply (do_sector d HD)].
  pose proof (stream_ss_pos v d HV) as Hss.
  assert (Hix : index = c / stream_sector_size v d) by (eapply near_index; eauto; lia).
  assert (Hw : index * stream_sector_size v d <= c < (index + 1) * stream_sector_size v d).
  { rewrite Hix. pose proof (Z.div_mod c (stream_sector_size v d)).
    pose proof (Z.mod_pos_bound c (stream_sector_size v d)). nia. }
  assert (Hids := stream_loop_ids rd v d HV HD _ _ _ _ _ _ _ _ _ _ Hid ltac:(lia) Hn (or_intror Hw) H).
  eapply stream_loop_ok in H; eauto; try lia.
  destruct H as (new & -> & H1 & H2). cbn [app]. intros j b Hj.
  destruct (H2 j b Hj) as (p & Hp & Hb). exists p. split; auto.
  pose proof (znth_range _ _ _ Hj) as Hjr.
  apply raw_to_stream; auto; try lia.
  intros k x Hns ->. destruct (Hids j) as (id' & Hn' & Hr'); [lia|].
  rewrite (nth_sector_fun _ _ _ _ _ Hns Hn'). pose proof (stream_table_len v d HV). lia.
Qed.

Lemma io_read_near rd v d c n cap t l t' :
  volume_ok v -> near v d c -> 0 <= n <= 134217728 ->
  io_read_stream rd v d c n cap t = (Ok l, t') -> near v d (c + n).
Proof.
  intros HV Hc Hn H. unfold io_read_stream in H.
  destruct (c <? 0) eqn:E1; [discriminate|].
  destruct (SSIZE_MAX <? n); [discriminate|].
  set (index := s32 (c / stream_sector_size v d)) in *.
  destruct ((index <? 0) || (zlen (stream_table v d) <=? index)) eqn:E2; [discriminate|].
  pose proof (stream_ss_pos v d HV) as Hss. pose proof (stream_table_len v d HV) as Htl.
  assert (Hix : index = c / stream_sector_size v d) by (eapply near_index; eauto; lia).
  split; [lia|right]. assert (HIM : INT_MAX = 2147483647) by reflexivity.
  assert (c / stream_sector_size v d < 33554432) by lia.
  pose proof (Z.div_mod c (stream_sector_size v d)). pose proof (Z.mod_pos_bound c (stream_sector_size v d)).
  apply Z.lt_succ_r. apply Z.div_lt_upper_bound; nia.
Qed.

Lemma io_read_defined rd v d c n t :
  volume_ok v -> dirent_ok d -> near v d c -> 0 <= n <= 134217728 ->
  defined (fst (io_read_stream rd v d c n n t)).
Proof.
  intros HV HD Hc Hn. unfold io_read_stream.
  destruct (c <? 0) eqn:E1; [exact I|].
  destruct (SSIZE_MAX <? n); [exact I|].
  set (index := s32 (c / stream_sector_size v d)) in *.
  destruct ((index <? 0) || (zlen (stream_table v d) <=? index)) eqn:E2; [exact I|].
  apply ibind_defined.
  { apply skip_sectors_defined; [apply (stream_table_u32 v d HV)|apply (do_sector d HD)]. }
  intros id t1 Hid. apply ilift_ok in Hid as [Hid ->].
  apply skip_sectors_ok in Hid; [|apply stream_table_u32; auto|apply (do_sector d HD)].
  pose proof (stream_ss_pos v d HV) as Hss. pose proof (stream_table_len v d HV) as Htl.
  assert (Hix : index = c / stream_sector_size v d) by (eapply near_index; eauto; lia).
  assert (Hm : c = stream_sector_size v d * index + c mod stream_sector_size v d)
    by (rewrite Hix; apply Z.div_mod; lia).
  pose proof (Z.mod_pos_bound c (stream_sector_size v d)) as Hmb.
  assert (Hw : index * stream_sector_size v d <= c < (index + 1) * stream_sector_size v d) by nia.
  apply stream_loop_defined; auto; try lia.
  - exact (nth_sector_u32 _ _ _ _ (stream_table_u32 v d HV) (do_sector d HD) Hid).
  - intros _. assert (HIM : INT_MAX = 2147483647) by reflexivity.
    apply Z.div_lt_upper_bound; nia.
Qed.

Lemma io_read_bytes rd v d c n cap t l t' : io_bytes rd ->
  io_read_stream rd v d c n cap t = (Ok l, t') -> Forall is_byte l.
Proof.
  intros HB H. unfold io_read_stream in H.
  destruct (c <? 0); [discriminate|]. destruct (SSIZE_MAX <? n); [discriminate|].
  destruct (_ || _) in H; [discriminate|].
  apply ibind_ok in H as (id & t1 & _ & H). eapply stream_loop_bytes; eauto.
Qed.

(** * Memory and outcomes *)
Section Run.
Variable mem : nat -> bool.
Variable rd : reader.
Variable v : volume.
Variable d : dirent.
Hypothesis HV : volume_ok v.
Hypothesis HD : dirent_ok d.
Hypothesis HB : io_bytes rd.

Lemma read_field_cases n w : near v d (c_offset w) -> 0 <= n <= 134217728 ->
  let (r, w') := read_field rd v d n w in
  c_log w' = c_log w /\ c_next w' = c_next w /\ (forall x, pointer x w' = pointer x w) /\
  c_offset w <= c_offset w' /\
  match r with
  | Ok l => near v d (c_offset w') /\ zlen l = n /\ Forall is_byte l
  | Err => True
  | Undef | NoFuel => False
  end.
Proof.
  intros Hc Hn. unfold read_field.
  pose proof (io_read_defined rd v d (c_offset w) n (c_trace w) HV HD Hc Hn) as Hdef.
  destruct (io_read_stream rd v d (c_offset w) n n (c_trace w)) as [[l| | |] t] eqn:E; try contradiction; cbn.
  - pose proof (io_read_stream_length _ _ _ _ _ _ _ _ _ (proj1 Hn) E) as Hl.
    rewrite Hl, Z.eqb_refl. repeat split; auto; try lia; try (intros []; reflexivity).
    + destruct Hc. lia.
    + destruct (io_read_near _ _ _ _ _ _ _ _ _ HV Hc Hn E) as [_ H]. exact H.
    + eapply io_read_bytes; eauto.
  - repeat split; auto; try lia; intros []; reflexivity.
Qed.

(** The log of a state in which only the variable [x] may point to a buffer. *)
Definition sizes_fine (log : list mevent) : Prop :=
  Forall (fun e => match e with Allocate _ s => 0 < s <= 134217728 | Release _ => True end) log.

Record kept (live : list nat) (w : cstate) : Prop := {
  kp_live : buffers [] (c_log w) = Some live;
  kp_new : forall k, In k live -> (k < c_next w)%nat;
  kp_sizes : sizes_fine (c_log w);
  kp_near : near v d (c_offset w)
}.

Definition tidy (w : cstate) : Prop := kept [] w /\ forall x, pointer x w = None.

(** After an error: what is allocated is what the variables point to. *)
Definition messy (w : cstate) : Prop :=
  sizes_fine (c_log w) /\
  ((buffers [] (c_log w) = Some [] /\ forall x, pointer x w = None) \/
   exists x k, buffers [] (c_log w) = Some [k] /\ pointer x w = Some k /\
               forall y, y <> x -> pointer y w = None).

Definition safe {A} (P : A -> Prop) (m : cio A) : Prop :=
  forall w, tidy w ->
    let (r, w') := m w in
    c_offset w <= c_offset w' /\
    match r with
    | Ok a => tidy w' /\ P a
    | Err => messy w'
    | Undef | NoFuel => False
    end.

Lemma tidy_messy w : tidy w -> messy w.
Proof. intros [[H1 _ H2 _] H3]. split; auto. Qed.

Lemma safe_ret {A} (P : A -> Prop) a : P a -> safe P (cret a).
Proof. intros HP w Hw. cbn. split; [lia|]. auto. Qed.

Lemma safe_err {A} (P : A -> Prop) : safe P (@cerr A).
Proof. intros w Hw. cbn. split; [lia|]. now apply tidy_messy. Qed.

Lemma safe_bind {A B} (P : A -> Prop) (Q : B -> Prop) (m : cio A) (k : A -> cio B) :
  safe P m -> (forall a, P a -> safe Q (k a)) -> safe Q (cbind m k).
Proof.
  intros Hm Hk w Hw. specialize (Hm w Hw). unfold cbind.
  destruct (m w) as [[a| | |] w1]; auto. destruct Hm as (H1 & H2 & H3).
  specialize (Hk a H3 w1 H2). destruct (k a w1) as [r w2]. destruct Hk as [H4 H5]. split; [lia|exact H5].
Qed.

Lemma safe_field n : 0 <= n <= 134217728 ->
  safe (fun l => zlen l = n /\ Forall is_byte l) (read_field rd v d n).
Proof.
  intros Hn w [Hw Hp]. pose proof (read_field_cases n w (kp_near _ _ Hw) Hn) as H.
  destruct (read_field rd v d n w) as [r w']. destruct H as (H1 & H2 & H3 & H4 & H5). split; [exact H4|].
  destruct Hw as [K1 K2 K3 K4]. destruct r; auto.
  - destruct H5 as (H5 & H6 & H7). split; [|auto]. split; [|intros x; rewrite H3; auto].
    constructor; rewrite ?H1, ?H2; auto.
  - split; [rewrite H1; auto|]. left. split; [rewrite H1; auto|intros x; rewrite H3; auto].
Qed.

Lemma safe_number : safe (fun x => 0 <= x < 4294967296) (read_number rd v d).
Proof.
  unfold read_number. eapply safe_bind; [apply safe_field; lia|]. intros l [Hl Hb] w Hw.
  destruct (get_u32_in (v_byte_order v) l 0) as (x & Hx); [lia|lia|]. rewrite Hx. split; [lia|]. split; auto.
  exact (get_u32_range _ _ _ _ Hb Hx).
Qed.

Lemma buffers_app a : forall live b, buffers live (a ++ b) =
  match buffers live a with Some l => buffers l b | None => None end.
Proof.
  induction a as [|[k s|k] a IH]; intros live b; cbn [app buffers]; [reflexivity|..];
    destruct (in_dec Nat.eq_dec k live); auto.
Qed.

Lemma safe_string x n : 0 < n <= 134217728 -> safe (fun _ => True) (read_string mem rd v d x n).
Proof.
  intros Hn w [Hw Hp]. unfold read_string, cbind at 1, allocate. destruct Hw as [K1 K2 K3 K4].
  destruct (mem (c_next w)) eqn:Em.
  - match goal with |- context [cbind _ _ ?s] => set (w1 := s) end.
    assert (A1 : buffers [] (c_log w1) = Some [c_next w]).
    { subst w1. cbn. rewrite buffers_app, K1. cbn. reflexivity. }
    assert (A2 : pointer x w1 = Some (c_next w)) by (subst w1; destruct x; reflexivity).
    assert (A3 : forall y, y <> x -> pointer y w1 = None).
    { intros y Hy. specialize (Hp y). subst w1. destruct x, y; cbn in *; congruence. }
    assert (A4 : sizes_fine (c_log w1)).
    { subst w1. apply Forall_app. split; [exact K3|]. repeat constructor; lia. }
    assert (A5 : c_next w1 = S (c_next w)) by (subst w1; destruct x; reflexivity).
    assert (A6 : c_offset w1 = c_offset w) by (subst w1; destruct x; reflexivity).
    clearbody w1. unfold cbind at 1.
    assert (Hnear : near v d (c_offset w1)) by (rewrite A6; exact K4).
    pose proof (read_field_cases n w1 Hnear ltac:(lia)) as H.
    destruct (read_field rd v d n w1) as [r w2]. destruct H as (H1 & H2 & H3 & H4 & H5).
    destruct r; try contradiction.
    + destruct H5 as (H5 & _). unfold cbind, release. rewrite H3, A2. cbn. split; [lia|]. split; [|exact I].
      split.
      * constructor; cbn; auto.
        -- rewrite H1, buffers_app, A1. cbn. destruct (Nat.eq_dec (c_next w) (c_next w)); [|contradiction].
           destruct (Nat.eq_dec (c_next w) (c_next w)); [reflexivity|contradiction].
        -- intros k [].
        -- rewrite H1. apply Forall_app. split; [exact A4|]. repeat constructor.
      * intros y. pose proof (A3 y) as Hy. rewrite <- H3 in Hy.
        destruct x, y; cbn in *; auto; apply Hy; discriminate.
    + split; [lia|]. split; [rewrite H1; exact A4|]. right. exists x, (c_next w).
      rewrite H1, H3. split; [exact A1|]. split; [exact A2|]. intros y Hy. rewrite H3. auto.
  - split; [cbn; lia|]. split; [exact K3|]. left. split; [exact K1|].
    intros y. specialize (Hp y). destruct x, y; cbn in *; auto.
Qed.

Lemma safe_user_type : safe (fun _ => True) (read_user_type mem rd v d).
Proof.
  unfold read_user_type. eapply safe_bind; [apply safe_number|]. intros n Hn. cbn beta in Hn.
  change MEMORY_MAXIMUM_ALLOCATION_SIZE with 134217728.
  destruct ((n =? 0) || (134217728 <? n)) eqn:E; [apply safe_err|apply safe_string; lia].
Qed.

Lemma safe_optional x : safe (fun _ => True) (read_optional mem rd v d x).
Proof.
  unfold read_optional. eapply safe_bind; [apply safe_number|]. intros n Hn. cbn beta in Hn.
  change MEMORY_MAXIMUM_ALLOCATION_SIZE with 134217728.
  destruct (0 <? n) eqn:E; [|apply safe_ret; auto].
  destruct (134217728 <? n) eqn:E1; [apply safe_err|apply safe_string; lia].
Qed.

Lemma safe_clipboard : safe (fun _ => True) (read_clipboard mem rd v d).
Proof.
  unfold read_clipboard. eapply safe_bind; [apply safe_number|]. intros n Hn. cbn beta in Hn.
  change MEMORY_MAXIMUM_ALLOCATION_SIZE with 134217728.
  set (n' := if (_ : bool) then 4 else n). assert (0 <= n') by (unfold n'; destruct ((n =? 0xffffffe) || (n =? 0xfffffff)); lia). clearbody n'.
  destruct (0x190 <? n') eqn:E0; [apply safe_err|].
  destruct (0 <? n') eqn:E; [|apply safe_ret; auto].
  destruct (134217728 <? n') eqn:E1; [apply safe_err|apply safe_string; lia].
Qed.

Lemma safe_more : safe (fun _ => True) (more_data d).
Proof. intros w Hw. cbn. split; [lia|]. auto. Qed.

Lemma safe_weaken {A} (P Q : A -> Prop) m : (forall a, P a -> Q a) -> safe P m -> safe Q m.
Proof.
  intros HPQ H w Hw. specialize (H w Hw). destruct (m w) as [[a| | |] w']; auto.
  destruct H as (H1 & H2 & H3). auto.
Qed.

Lemma safe_object : safe (fun _ => True) (read_object mem rd v d).
Proof.
  unfold read_object.
  eapply safe_bind; [apply safe_field; lia|]. intros _ _.
  eapply safe_bind; [apply safe_user_type|]. intros _ _.
  eapply safe_bind; [apply safe_clipboard|]. intros _ _.
  eapply safe_bind; [apply safe_optional|]. intros _ _.
  eapply safe_bind; [apply safe_more|]. intros more _.
  eapply (safe_bind (fun _ => True)).
  { destruct more; [eapply safe_weaken; [|apply safe_number]; auto|apply safe_ret; auto]. }
  intros marker _.
  eapply safe_bind; [apply safe_more|]. intros more' _.
  destruct (more' && _); [|apply safe_ret; auto].
  eapply safe_bind; [apply safe_optional|]. intros _ _.
  eapply safe_bind; [apply safe_clipboard|]. intros _ _.
  apply safe_optional.
Qed.

Lemma release_all w : messy w ->
  let (r, w') := (dc _ <- release Reserved; dc _ <- release Clipboard; release UserType) w in
  r = Ok tt /\ buffers [] (c_log w') = Some [] /\ sizes_fine (c_log w') /\ c_offset w' = c_offset w.
Proof.
  intros [Hs [[Hl Hp]|(x & k & Hl & Hx & Hy)]].
  - pose proof (Hp Reserved) as H1. pose proof (Hp Clipboard) as H2. pose proof (Hp UserType) as H3.
    unfold cbind, release. rewrite H1, H2, H3. auto.
  - assert (G : buffers [] (c_log w ++ [Release k]) = Some []).
    { rewrite buffers_app, Hl. cbn. destruct (Nat.eq_dec k k); [|contradiction].
      destruct (Nat.eq_dec k k); [reflexivity|contradiction]. }
    assert (G' : sizes_fine (c_log w ++ [Release k])).
    { apply Forall_app. split; [exact Hs|repeat constructor]. }
    destruct x.
    + pose proof (Hy Reserved ltac:(discriminate)) as H1. pose proof (Hy Clipboard ltac:(discriminate)) as H2.
      unfold cbind, release. rewrite H1, H2, Hx. cbn. auto.
    + pose proof (Hy Reserved ltac:(discriminate)) as H1. pose proof (Hy UserType ltac:(discriminate)) as H2.
      cbn in H2. unfold cbind, release. rewrite H1, Hx. cbn. rewrite H2. cbn. auto.
    + pose proof (Hy Clipboard ltac:(discriminate)) as H1. pose proof (Hy UserType ltac:(discriminate)) as H2.
      cbn in H1, H2. unfold cbind, release. rewrite Hx. cbn. rewrite H1. cbn. rewrite H2. cbn. auto.
Qed.

Lemma compound_object_safe c : 0 <= c < 4294967296 ->
  let '(r, c', _, log) := compound_object_call mem rd v d c in
  defined r /\ c <= c' /\ buffers [] log = Some [] /\ sizes_fine log.
Proof.
  intros Hc. unfold compound_object_call, compound_object_read.
  set (w0 := {| c_offset := c |}).
  assert (T : tidy w0).
  { split; [|intros []; reflexivity].
    constructor; cbn; auto; try reflexivity; [intros k []|constructor|split; [lia|left; lia]]. }
  pose proof (safe_object w0 T) as H. destruct (read_object mem rd v d w0) as [r w] eqn:E.
  destruct H as [H1 H2]. change (c_offset w0) with c in H1.
  destruct r; try contradiction.
  - destruct H2 as [[[K1 _ K3 _] _] _]. repeat split; auto.
  - pose proof (release_all w H2) as H3.
    destruct ((dc _ <- release Reserved; dc _ <- release Clipboard; release UserType) w) as [r' w'].
    destruct H3 as (-> & H4 & H5 & H6). repeat split; auto. lia.
Qed.

End Run.
