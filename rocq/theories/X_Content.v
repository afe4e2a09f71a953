(** Deciding by computation, for concrete files, that a stream is readable. *)
From Coq Require Import ZArith List Bool Lia Arith.
From Verif Require Import Base Spec_IO L_Base M_Table M_Load M_Stream Spec_Stream Spec_Content L_Stream X_Stream.
Import ListNotations.
Open Scope Z_scope.

Lemma nth_sector_c_none tbl first k n : nth_sector_c tbl first k = None -> (k <= n)%nat ->
  nth_sector_c tbl first n = None.
Proof.
  intros H Hn. induction n as [|n IH]; [now replace O with k by lia|].
  destruct (Nat.eq_dec k (S n)) as [<-|Hne]; [exact H|]. simpl. now rewrite IH by lia.
Qed.

(** The chain ends after at most [n] sectors, and the marker is not in it. *)
Definition used_c (v : volume) (n : nat) : bool :=
  match nth_sector_c (v_sat v) (v_container_start v) n with
  | Some _ => false
  | None => forallb (fun k => match nth_sector_c (v_sat v) (v_container_start v) k with
                              | Some id => negb (id =? UNUSED)
                              | None => true
                              end) (seq 0 n)
  end.

Lemma used_c_ok v n : used_c v n = true -> container_used v.
Proof.
  unfold used_c, container_used. intros H k Hk. apply nth_sector_c_ok in Hk.
  destruct (nth_sector_c _ _ n) eqn:E; [discriminate|]. rewrite forallb_forall in H.
  destruct (le_lt_dec n k) as [Hl|Hl].
  - rewrite (nth_sector_c_none _ _ _ _ E Hl) in Hk. discriminate.
  - specialize (H k ltac:(apply in_seq; lia)). rewrite Hk in H. rewrite Z.eqb_refl in H. discriminate.
Qed.

Definition short_c (v : volume) (d : dirent) : bool :=
  if de_size d <? v_minimum_size v
  then (v_short_sector_size v <=? v_sector_size v) && used_c v (S (length (v_sat v)))
  else true.

Lemma short_c_ok v d : short_c v d = true -> short_ok v d.
Proof.
  unfold short_c, short_ok. intros H Hlt. rewrite (proj2 (Z.ltb_lt _ _) Hlt) in H.
  apply andb_true_iff in H as [H1 H2]. split; [lia|]. eapply used_c_ok; eauto.
Qed.

Definition intact_c (v : volume) (d : dirent) : bool :=
  let ss := if de_size d <? v_minimum_size v then v_short_sector_size v
            else v_sector_size v in
  let tbl := if de_size d <? v_minimum_size v then v_ssat v else v_sat v in
  forallb (fun i => (i / ss <? zlen tbl) &&
             match nth_sector_c tbl (de_sector d) (Z.to_nat (i / ss)) with
             | Some id => (0 <=? id) && (id <? zlen tbl)
             | None => false
             end) (map Z.of_nat (seq 0 (Z.to_nat (de_size d)))).

Lemma intact_c_ok v d : intact_c v d = true -> intact v d.
Proof.
  unfold intact_c, intact. cbv zeta. intros H i Hi. rewrite forallb_forall in H.
  specialize (H i). assert (Hin : In i (map Z.of_nat (seq 0 (Z.to_nat (de_size d))))).
  { apply in_map_iff. exists (Z.to_nat i). split; [lia|]. apply in_seq. lia. }
  apply H in Hin. apply andb_true_iff in Hin as [H1 H2]. split; [lia|].
  destruct (nth_sector_c _ _ _) as [id|] eqn:E; [|discriminate]. exists id.
  split; [now apply nth_sector_c_ok|]. lia.
Qed.

(** The bytes of the stream. *)
Fixpoint bytes_c (f : list Z) (v : volume) (d : dirent) (i : Z) (n : nat) : option (list Z) :=
  match n with
  | O => Some []
  | S n =>
      match stream_position_c v d i with
      | Some p =>
          match znth f p, bytes_c f v d (i + 1) n with
          | Some b, Some l => Some (b :: l)
          | _, _ => None
          end
      | None => None
      end
  end.
Definition stream_bytes_c (f : list Z) (v : volume) (d : dirent) : option (list Z) :=
  bytes_c f v d 0 (Z.to_nat (de_size d)).

Lemma bytes_c_ok f v d n : forall i s, bytes_c f v d i n = Some s ->
  length s = n /\
  forall j b, znth s j = Some b -> exists p, stream_position v d (i + j) p /\ znth f p = Some b.
Proof.
  induction n as [|n IH]; intros i s H; cbn [bytes_c] in H.
  - injection H as <-. split; [reflexivity|]. intros j b Hj. apply znth_range in Hj.
    change (zlen (@nil Z)) with 0 in Hj. lia.
  - destruct (stream_position_c v d i) as [p|] eqn:Ep; [|discriminate].
    destruct (znth f p) as [b|] eqn:Eb; [|discriminate].
    destruct (bytes_c f v d (i + 1) n) as [l|] eqn:El; [|discriminate]. injection H as <-.
    destruct (IH _ _ El) as (Hl & HP). split; [cbn; lia|]. intros j b' Hj.
    pose proof (znth_range _ _ _ Hj) as Hr.
    destruct (Z.eq_dec j 0) as [->|Hj0].
    + cbn in Hj. injection Hj as <-. exists p. rewrite Z.add_0_r. split; [now apply stream_position_c_ok|exact Eb].
    + replace (i + j) with (i + 1 + (j - 1)) by lia. apply HP.
      unfold znth in *. rewrite (proj2 (Z.ltb_ge j 0)) in Hj by lia.
      rewrite (proj2 (Z.ltb_ge (j - 1) 0)) by lia.
      replace (Z.to_nat j) with (S (Z.to_nat (j - 1))) in Hj by lia. exact Hj.
Qed.

Definition readable_c (f : list Z) (v : volume) (d : dirent) : bool :=
  match stream_bytes_c f v d with
  | Some _ => (de_type d =? 2) && intact_c v d && short_c v d
  | None => false
  end.

Lemma readable_c_ok f v d s : Forall is_byte f -> volume_ok v -> dirent_ok d ->
  stream_bytes_c f v d = Some s -> readable_c f v d = true ->
  is_readable_stream (file_reader f) v d s.
Proof.
  intros HB HV HD Hs H. unfold readable_c in H. rewrite Hs in H.
  apply andb_true_iff in H as [H H3]. apply andb_true_iff in H as [H1 H2].
  destruct (bytes_c_ok _ _ _ _ _ _ Hs) as (Hl & HP).
  pose proof (do_size _ HD) as Hsz. unfold is_u32 in Hsz.
  split; [exact HV|]. split; [exact HD|]. split; [now apply short_c_ok|].
  split.
  { apply Forall_forall. intros b Hb. apply In_nth_error in Hb as (j & Hj).
    destruct (HP (Z.of_nat j) b) as (p & _ & Hp).
    { unfold znth. rewrite (proj2 (Z.ltb_ge (Z.of_nat j) 0)) by lia. now rewrite Nat2Z.id. }
    unfold znth in Hp. destruct (p <? 0); [discriminate|].
    eapply Forall_forall; [exact HB|]. eapply nth_error_In; eauto. }
  split; [now apply intact_c_ok|].
  exists f. split; [apply file_reader_sound|]. split; [apply file_reader_total|].
  split; [lia|]. split; [unfold zlen; lia|]. exact HP.
Qed.
