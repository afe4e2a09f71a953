(** C95: what a read of a stream asks for, and media with bytes that cannot be
    read. *)
From Coq Require Import ZArith List Bool Lia.
From Verif Require Import Base Spec_IO M_Table M_Load M_Stream Spec_Stream Spec_Content Spec_Fuse
  L_Base L_Stream L_Stream2 L_Stream3 L_Fuse X_Stream Spec_Fault L_Fault L_Fault2 Spec_Requests L_Requests.
Import ListNotations.
Open Scope Z_scope.

(** * Theorems *)

(** Whether the read succeeds or not: the bytes that are asked for are those at
    the offset of the stream and after it, each once and in their order; all of
    them if it succeeds, and never one that the caller does not get. *)
Theorem C95_asks :
  forall rd v d c n cap t r t',
    volume_ok v -> dirent_ok d -> short_ok v d -> intact v d -> 0 <= n ->
    stream_read_buffer rd v d c n cap t = (r, t') ->
    exists q, t' = t ++ q /\
      (let l := bytes_asked q in
       (forall k p, znth l k = Some p -> stream_position v d (c + k) p) /\
       zlen l <= Z.max 0 (Z.min n (de_size d - c)) /\
       forall s c', r = Ok (s, c') -> zlen l = Z.max 0 (Z.min n (de_size d - c))) /\
      forall off m, In (off, m) q -> part_of v d c n off m.
Proof.
  intros rd v d c n cap t r t' HV HD HSh HI Hn H.
  destruct (asks_stream v d HV HD HSh HI rd c n cap t r t' Hn H) as (q & -> & (Q1 & Q2 & Q3) & Q). exists q. split; [reflexivity|].
  split; [|intros off m Hin; exact (proj1 (Q off m Hin))]. split; [exact Q3|]. split; [exact Q1|]. intros s c' ->. now apply Q2.
Qed.
Print Assumptions C95_asks.

(** So what other parts of the file are like does not matter. *)
Theorem C95_local :
  forall rd rd' v d c n cap t,
    volume_ok v -> dirent_ok d -> short_ok v d -> intact v d -> 0 <= n ->
    (forall t off m, part_of v d c n off m -> rd t off m = rd' t off m) ->
    stream_read_buffer rd v d c n cap t = stream_read_buffer rd' v d c n cap t.
Proof. intros rd rd' v d c n cap t HV HD HSh HI Hn H. now apply read_alike. Qed.
Print Assumptions C95_local.

(** The I/O layer may fail, or deliver less than asked for, anywhere else: the
    bytes of the stream are returned. *)
Theorem C95_delivered :
  forall rd rd0 f v d s c n t,
    io_sound rd f -> io_sound rd0 f -> io_total rd0 f -> is_readable_stream rd0 v d s ->
    0 <= c -> 0 < n <= SSIZE_MAX -> few_sectors v d n -> delivers rd v d c n ->
    exists t', stream_read_buffer rd v d c n n t = (Ok (slice s c n, c + zlen (slice s c n)), t').
Proof.
  intros rd rd0 f v d s c n t HS HS0 HT0 HR Hc Hn Hf HD. pose proof HR as (R1 & R2 & R3 & _ & R5 & _).
  destruct (read_buffer_full rd0 v d s c n t HR Hc Hn Hf) as (t' & H). exists t'. rewrite <- H.
  apply (read_delivered v d R1 R2 R3 R5 rd rd0 f); auto. lia.
Qed.
Print Assumptions C95_delivered.

(** A read of a byte that is never delivered fails. *)
Theorem C95_never :
  forall rd v d c n cap t i p l c' t',
    volume_ok v -> dirent_ok d -> short_ok v d -> intact v d -> 0 <= n ->
    c <= i < Z.min (c + n) (de_size d) -> stream_position v d i p -> never_read rd p ->
    stream_read_buffer rd v d c n cap t <> (Ok (l, c'), t').
Proof.
  intros rd v d c n cap t i p l c' t' HV HD HSh HI Hn Hi Hp HN H.
  apply (read_never v d HV HD HSh HI rd c n cap t i p Hn Hi Hp HN). rewrite H. exact I.
Qed.
Print Assumptions C95_never.

Lemma bad_sound bad f : io_sound (bad_medium bad f) f.
Proof.
  intros t off n l H1 H2 H3 H4. unfold bad_medium in H3. destruct (existsb _ _); [discriminate|].
  exact (file_reader_sound f t off n l H1 H2 H3 H4).
Qed.

Lemma bad_never bad f p : bad p = true -> never_read (bad_medium bad f) p.
Proof.
  intros Hb t off m l Hp H. exfalso. unfold bad_medium in H.
  assert (E : existsb (fun k => bad (off + Z.of_nat k)) (seq 0 (Z.to_nat m)) = true).
  { apply existsb_exists. exists (Z.to_nat (p - off)). split; [apply in_seq; lia|].
    replace (off + Z.of_nat (Z.to_nat (p - off))) with p by lia. exact Hb. }
  rewrite E in H. discriminate.
Qed.

Lemma bad_bytes bad f : Forall is_byte f -> io_bytes (bad_medium bad f).
Proof.
  intros Hf t off m l. unfold bad_medium. destruct (existsb _ _); [discriminate|]. apply (file_reader_bytes f Hf).
Qed.

Lemma bad_delivers bad f v d s c n : is_readable_stream (file_reader f) v d s -> 0 <= c ->
  (forall i p, c <= i < Z.min (c + n) (de_size d) -> stream_position v d i p -> bad p = false) ->
  delivers (bad_medium bad f) v d c n.
Proof.
  intros HR Hc Hb t off m HP.
  destruct (part_inside (file_reader f) f v d s c n off m (file_reader_sound f) (file_reader_total f) HR Hc HP) as (H1 & H2).
  destruct HP as (Hm & i & I1 & I2 & I3).
  assert (HB : existsb (fun k => bad (off + Z.of_nat k)) (seq 0 (Z.to_nat m)) = false).
  { destruct (existsb _ _) eqn:E; [|reflexivity]. apply existsb_exists in E as (k & Hk & E). apply in_seq in Hk.
    rewrite (Hb (i + Z.of_nat k) (off + Z.of_nat k) ltac:(lia)) in E; [discriminate|]. apply I3. lia. }
  unfold bad_medium. rewrite HB. now apply file_reader_total.
Qed.

(** A medium with bytes that cannot be read: reads that touch none of them
    succeed, with the bytes of the stream, and all others fail. *)
Theorem C95_bad_medium :
  forall bad f v d s c n t,
    is_readable_stream (file_reader f) v d s -> 0 <= c -> 0 < n <= SSIZE_MAX -> few_sectors v d n ->
    ((exists l c' t', stream_read_buffer (bad_medium bad f) v d c n n t = (Ok (l, c'), t')) <->
     forall i p, c <= i < Z.min (c + n) (de_size d) -> stream_position v d i p -> bad p = false) /\
    forall l c' t', stream_read_buffer (bad_medium bad f) v d c n n t = (Ok (l, c'), t') ->
      l = slice s c n /\ c' = c + zlen l.
Proof.
  intros bad f v d s c n t HR Hc Hn Hf. pose proof HR as (R1 & R2 & R3 & _ & R5 & _).
  split; [split|].
  - intros (l & c' & t' & H) i p Hi Hp. destruct (bad p) eqn:Eb; [|reflexivity]. exfalso.
    apply (C95_never (bad_medium bad f) v d c n n t i p l c' t' R1 R2 R3 R5 ltac:(lia) Hi Hp); [now apply bad_never|exact H].
  - intros Hb.
    destruct (C95_delivered (bad_medium bad f) (file_reader f) f v d s c n t (bad_sound bad f) (file_reader_sound f) (file_reader_total f)
                HR Hc Hn Hf) as (t' & H); [|eauto].
    now apply (bad_delivers bad f v d s).
  - intros l c' t' H.
    pose proof (readable_faulty (bad_medium bad f) (file_reader f) f v d s (bad_sound bad f) (file_reader_sound f) (file_reader_total f) HR) as HS.
    exact (read_buffer_slice _ v d s c n n t l c' t' HS ltac:(lia) H).
Qed.
Print Assumptions C95_bad_medium.

(** * Cases *)

(** The short stream of X_Stream.v: its bytes are at 256 and at 512. *)
Definition xq_bytes : list Z := slice x_file 256 64 ++ slice x_file 512 26.

Lemma xq_readable : is_readable_stream (file_reader x_file) x_volume x_short xq_bytes.
Proof.
  split; [exact x_volume_ok|]. split; [exact x_short_ok|].
  split. { intros _. split; [vm_compute; discriminate|exact x_container_used]. }
  split. { apply Forall_app. split; apply Forall_slice; apply Forall_forall; intros b Hb; apply in_map_iff in Hb as (k & <- & _);
           unfold is_byte; pose proof (Z.mod_pos_bound (7 * Z.of_nat k + Z.of_nat k / 128) 256 ltac:(lia)); lia. }
  split.
  - intros i Hi. change (de_size x_short) with 90 in Hi. change (de_size x_short <? v_minimum_size x_volume) with true. cbv iota.
    revert i Hi.
    apply (forall_below 90 (fun i => i / 64 < zlen x_ssat /\ exists id, nth_sector x_ssat 0 (Z.to_nat (i / 64)) id /\ 0 <= id < zlen x_ssat)
      (fun i => (i / 64 <? 4) && match nth_sector_c x_ssat 0 (Z.to_nat (i / 64)) with Some id => (0 <=? id) && (id <? 4) | None => false end));
      [|vm_compute; reflexivity].
    intros i H. apply andb_prop in H as (H1 & H2). change (zlen x_ssat) with 4. split; [lia|].
    destruct (nth_sector_c x_ssat 0 (Z.to_nat (i / 64))) as [id|] eqn:E; [|discriminate]. exists id.
    split; [now apply nth_sector_c_ok|]. apply andb_prop in H2. lia.
  - exists x_file. split; [apply file_reader_sound|]. split; [apply file_reader_total|]. split; [reflexivity|]. split; [vm_compute; reflexivity|].
    intros i b Hb. pose proof (znth_range _ _ _ Hb) as Hi. change (zlen xq_bytes) with 90 in Hi. revert i Hi b Hb.
    apply (forall_below 90 (fun i => forall b, znth xq_bytes i = Some b -> exists p, stream_position x_volume x_short i p /\ znth x_file p = Some b)
      (fun i => match stream_position_c x_volume x_short i with
                | Some p => match znth xq_bytes i, znth x_file p with Some a, Some b => a =? b | _, _ => false end
                | None => false
                end)); [|vm_compute; reflexivity].
    intros i H b Hb. destruct (stream_position_c x_volume x_short i) as [p|] eqn:E; [|discriminate]. exists p.
    split; [now apply stream_position_c_ok|]. rewrite Hb in H. destruct (znth x_file p) as [b'|]; [|discriminate]. f_equal. lia.
Qed.

(** The byte at 520 is the 73rd of the stream. *)
Definition xq_medium : reader := bad_medium (Z.eqb 520) x_file.

Example C95_case :
  is_readable_stream (file_reader x_file) x_volume x_short xq_bytes /\
  few_sectors x_volume x_short 70 /\ stream_position x_volume x_short 72 520 /\
  stream_read_buffer (file_reader x_file) x_volume x_short 10 70 70 [] =
    (Ok (slice xq_bytes 10 70, 80), [(266, 54); (512, 16)]) /\
  stream_read_buffer xq_medium x_volume x_short 10 62 62 [] = (Ok (slice xq_bytes 10 62, 72), [(266, 54); (512, 8)]) /\
  stream_read_buffer xq_medium x_volume x_short 10 63 63 [] = (Err, [(266, 54); (512, 9)]) /\
  stream_read_buffer xq_medium x_volume x_short 73 70 70 [] = (Ok (slice xq_bytes 73 17, 90), [(521, 17)]) /\
  part_of x_volume x_short 10 70 512 16 /\ ~ part_of x_volume x_short 10 62 512 16.
Proof.
  split; [exact xq_readable|]. split; [left; vm_compute; discriminate|].
  split; [apply stream_position_c_ok; vm_compute; reflexivity|].
  split; [vm_compute; reflexivity|]. split; [vm_compute; reflexivity|]. split; [vm_compute; reflexivity|]. split; [vm_compute; reflexivity|].
  split.
  - split; [lia|]. exists 64. split; [lia|]. split; [vm_compute; discriminate|].
    apply (forall_below 16 (fun k => stream_position x_volume x_short (64 + k) (512 + k))
      (fun k => match stream_position_c x_volume x_short (64 + k) with Some p => p =? 512 + k | None => false end)); [|vm_compute; reflexivity].
    intros k H. apply stream_position_c_ok. destruct (stream_position_c x_volume x_short (64 + k)); [|discriminate]. f_equal. lia.
  - intros (_ & i & I1 & I2 & I3). change (de_size x_short) with 90 in I2. specialize (I3 0 ltac:(lia)).
    assert (Hi : 0 <= i < 90) by lia. clear I1.
    assert (G : forall i, 0 <= i < 90 -> stream_position x_volume x_short i 512 -> i = 64).
    { apply (forall_below 90 (fun i => stream_position x_volume x_short i 512 -> i = 64)
        (fun i => match stream_position_c x_volume x_short i with Some p => negb (p =? 512) || (i =? 64) | None => true end)); [|vm_compute; reflexivity].
      intros k H Hp. apply stream_position_c_ok in Hp. rewrite Hp in H. cbn in H. lia. }
    rewrite !Z.add_0_r in I3. specialize (G i Hi I3). lia.
Qed.
