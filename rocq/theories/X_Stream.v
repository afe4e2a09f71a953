(** A small volume for concrete cases of the theorems on streams. *)
From Coq Require Import ZArith List Bool Lia.
From Verif Require Import Base Spec_IO L_Base M_Table M_Load M_Stream Spec_Stream L_Stream.
Import ListNotations.
Open Scope Z_scope.

(** Header and four sectors of 128 bytes; byte i is (7 i + i/128) mod 256. *)
Definition x_file : list Z :=
  map (fun n => (7 * Z.of_nat n + Z.of_nat n / 128) mod 256) (seq 0 640).

(** Chain 0, 2 for a regular stream; chain 1, 3 for the short sectors. *)
Definition x_sat : list Z := [2; 3; END_OF_CHAIN; END_OF_CHAIN].
Definition x_ssat : list Z := [2; END_OF_CHAIN; END_OF_CHAIN; UNUSED].

Definition x_volume : volume :=
  {| v_byte_order := Little; v_sector_size := 128; v_short_sector_size := 64;
     v_minimum_size := 100; v_container_start := 1; v_sat := x_sat; v_ssat := x_ssat |}.

Definition x_dirent (type sector size : Z) : dirent :=
  {| de_id := 1; de_type := type; de_name := [65; 0; 0; 0];
     de_prev := UNUSED; de_next := UNUSED; de_sub := UNUSED;
     de_ctime := 0; de_mtime := 0; de_sector := sector; de_size := size |}.

(** A stream of 200 bytes in sectors 0, 2 and one of 90 bytes in short
    sectors 0, 2. *)
Definition x_regular : dirent := x_dirent 2 0 200.
Definition x_short : dirent := x_dirent 2 0 90.
Definition x_storage : dirent := x_dirent 1 0 200.

Lemma x_volume_ok : volume_ok x_volume.
Proof.
  constructor; simpl; try (unfold is_u32; lia).
  - exists 7. split; [lia|reflexivity].
  - exists 6. split; [lia|reflexivity].
  - repeat constructor; unfold is_u32, END_OF_CHAIN; lia.
  - repeat constructor; unfold is_u32, END_OF_CHAIN, UNUSED; lia.
  - vm_compute. discriminate.
  - vm_compute. discriminate.
Qed.

Lemma x_dirent_ok type sector size :
  is_u32 sector -> is_u32 size -> dirent_ok (x_dirent type sector size).
Proof. now constructor. Qed.

Lemma x_regular_ok : dirent_ok x_regular.
Proof. apply x_dirent_ok; unfold is_u32; lia. Qed.

Lemma x_short_ok : dirent_ok x_short.
Proof. apply x_dirent_ok; unfold is_u32; lia. Qed.

Lemma x_container_used : container_used x_volume.
Proof.
  assert (G : forall k id, nth_sector x_sat 1 k id -> id = 1 \/ id = 3 \/ id = END_OF_CHAIN).
  { intros k id H. induction H as [|k id id' H [ -> |[ -> | -> ]] Hn]; [auto|..].
    - vm_compute in Hn. injection Hn as <-. auto.
    - vm_compute in Hn. injection Hn as <-. auto.
    - apply znth_range in Hn. change (zlen x_sat) with 4 in Hn. unfold END_OF_CHAIN in Hn. lia. }
  intros k H. apply G in H. unfold UNUSED, END_OF_CHAIN in H. lia.
Qed.

Lemma x_reader_sound : io_sound (file_reader x_file) x_file.
Proof. apply file_reader_sound. Qed.

Lemma x_reader_total : io_total (file_reader x_file) x_file.
Proof. apply file_reader_total. Qed.

(** The same with short sectors of 256 bytes. *)
Definition x_volume_large : volume :=
  {| v_byte_order := Little; v_sector_size := 128; v_short_sector_size := 256;
     v_minimum_size := 400; v_container_start := 1; v_sat := x_sat; v_ssat := x_ssat |}.

(** The same where the root entry has no data: its chain is the unused marker. *)
Definition x_volume_unused : volume :=
  {| v_byte_order := Little; v_sector_size := 128; v_short_sector_size := 64;
     v_minimum_size := 100; v_container_start := UNUSED; v_sat := x_sat; v_ssat := x_ssat |}.

Lemma x_volume_large_ok : volume_ok x_volume_large.
Proof.
  constructor; simpl; try (unfold is_u32; lia).
  - exists 7. split; [lia|reflexivity].
  - exists 8. split; [lia|reflexivity].
  - repeat constructor; unfold is_u32, END_OF_CHAIN; lia.
  - repeat constructor; unfold is_u32, END_OF_CHAIN, UNUSED; lia.
  - vm_compute. discriminate.
  - vm_compute. discriminate.
Qed.

Lemma x_volume_unused_ok : volume_ok x_volume_unused.
Proof.
  constructor; simpl; try (unfold is_u32, UNUSED; lia).
  - exists 7. split; [lia|reflexivity].
  - exists 6. split; [lia|reflexivity].
  - repeat constructor; unfold is_u32, END_OF_CHAIN; lia.
  - repeat constructor; unfold is_u32, END_OF_CHAIN, UNUSED; lia.
  - vm_compute. discriminate.
  - vm_compute. discriminate.
Qed.

(** Decide positions by computation. *)
Fixpoint nth_sector_c (tbl : list Z) (first : Z) (k : nat) : option Z :=
  match k with
  | O => Some first
  | S k' => match nth_sector_c tbl first k' with Some id => if zlen tbl <=? id then None else znth tbl id
            | None => None end
  end.

Lemma nth_sector_c_ok tbl first k id :
  nth_sector tbl first k id <-> nth_sector_c tbl first k = Some id.
Proof.
  split.
  - induction 1; simpl; auto. rewrite IHnth_sector. pose proof (znth_range _ _ _ H0).
    destruct (zlen tbl <=? id) eqn:E; auto. lia.
  - revert id. induction k; simpl; intros id H.
    + injection H as <-. constructor.
    + destruct (nth_sector_c tbl first k) eqn:E; [|discriminate].
      destruct (zlen tbl <=? z); [discriminate|]. econstructor; eauto.
Qed.

Definition chain_position_c (tbl : list Z) (ss first i : Z) : option Z :=
  match nth_sector_c tbl first (Z.to_nat (i / ss)) with
  | Some id => Some ((id + 1) * ss + i mod ss)
  | None => None
  end.

Lemma chain_position_c_ok tbl ss first i p :
  chain_position tbl ss first i p <-> chain_position_c tbl ss first i = Some p.
Proof.
  unfold chain_position, chain_position_c. split.
  - intros (id & H & ->). apply nth_sector_c_ok in H. now rewrite H.
  - destruct (nth_sector_c _ _ _) eqn:E; [|discriminate]. intros H. injection H as <-.
    exists z. split; auto. now apply nth_sector_c_ok.
Qed.

Definition stream_position_c (v : volume) (d : dirent) (i : Z) : option Z :=
  if de_size d <? v_minimum_size v then
    match nth_sector_c (v_ssat v) (de_sector d) (Z.to_nat (i / v_short_sector_size v)) with
    | Some id => chain_position_c (v_sat v) (v_sector_size v) (v_container_start v)
                   (id * v_short_sector_size v + i mod v_short_sector_size v)
    | None => None
    end
  else chain_position_c (v_sat v) (v_sector_size v) (de_sector d) i.

Lemma stream_position_c_ok v d i p :
  stream_position v d i p <-> stream_position_c v d i = Some p.
Proof.
  unfold stream_position, stream_position_c. destruct (_ <? _).
  - split.
    + intros (id & H & Hp). apply nth_sector_c_ok in H. rewrite H. now apply chain_position_c_ok.
    + destruct (nth_sector_c _ _ _) eqn:E; [|discriminate]. intros H. exists z.
      split; [now apply nth_sector_c_ok|now apply chain_position_c_ok].
  - apply chain_position_c_ok.
Qed.

Lemma forall_below (n : nat) (P : Z -> Prop) (q : Z -> bool) :
  (forall i, q i = true -> P i) ->
  forallb q (map Z.of_nat (seq 0 n)) = true ->
  forall i, 0 <= i < Z.of_nat n -> P i.
Proof.
  intros Hq H i Hi. apply Hq. rewrite forallb_forall in H. apply H.
  apply in_map_iff. exists (Z.to_nat i). split; [lia|]. apply in_seq. lia.
Qed.
