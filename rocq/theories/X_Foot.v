(** Deciding by computation, for concrete files, that they are alike. *)
From Coq Require Import ZArith List Bool Lia Arith ZifyBool.
From Verif Require Import Base Spec_IO M_Header M_Table M_Load M_Stream M_Tree M_Open
  Spec_Stream Spec_Load Spec_Open Spec_Content L_Base L_Stream L_Stream2 X_Stream X_Content Spec_Write Spec_Fault Spec_Foot.
Import ListNotations.
Open Scope Z_scope.

Fixpoint same_c (a b : list Z) : bool :=
  match a, b with
  | [], [] => true
  | x :: a', y :: b' => (x =? y) && same_c a' b'
  | _, _ => false
  end.

Lemma same_c_ok a : forall b, same_c a b = true -> a = b.
Proof.
  induction a as [|x a IH]; intros [|y b] H; try discriminate; [reflexivity|]. cbn in H. apply andb_true_iff in H as [H1 H2].
  apply Z.eqb_eq in H1. f_equal; auto.
Qed.

(** The sectors of a chain that ends after at most [n]. *)
Definition chain_c (tbl : list Z) (first : Z) (n : nat) : option (list Z) :=
  match nth_sector_c tbl first n with
  | Some _ => None
  | None => Some (flat_map (fun k => match nth_sector_c tbl first k with Some id => [id] | None => [] end) (seq 0 n))
  end.

Lemma chain_c_ok tbl first n ids k id : chain_c tbl first n = Some ids -> nth_sector tbl first k id -> In id ids.
Proof.
  unfold chain_c. intros H Hk. apply nth_sector_c_ok in Hk. destruct (nth_sector_c tbl first n) eqn:E; [discriminate|]. injection H as <-.
  destruct (le_lt_dec n k) as [Hl|Hl]; [rewrite (nth_sector_c_none _ _ _ _ E Hl) in Hk; discriminate|].
  apply in_flat_map. exists k. split; [apply in_seq; lia|]. rewrite Hk. now left.
Qed.

Definition inside_c (f : list Z) (ss id : Z) : bool := fst (request ss id) + ss <=? zlen f.

(** Parts of a file that must be the same. *)
Definition slot_spans (e : endian) (slot : list Z) (q : Z) : list (Z * Z) :=
  (q + 66, 1) :: (if value_at Little slot 66 1 =? 0 then []
                  else [(q + 64, 3); (q + 68, 12); (q + 100, 24); (q, value_at e slot 64 2)]).

Definition spans (f : list Z) (o : opened) (tables dirs : list Z) : list (Z * Z) :=
  let e := fh_byte_order (o_header o) in
  let ss := fh_sector_size (o_header o) in
  [(0, 8); (24, 10); (44, 8); (56, 456)] ++
  map (request ss) (filter (inside_c f ss) tables) ++
  flat_map (fun id => flat_map (fun j => slot_spans e (slice (sector_at f ss id) (128 * Z.of_nat j) 128)
                                                   (fst (request ss id) + 128 * Z.of_nat j))
                               (seq 0 (Z.to_nat (ss / 128))))
           (filter (inside_c f ss) dirs).

Definition alike_c (f f' : list Z) (o : opened) : bool :=
  let ss := fh_sector_size (o_header o) in
  (fh_msat_sector_identifier (o_header o) =? EOC) && (128 <=? ss) && (512 <=? zlen f') &&
  match chain_c (o_sat o) (fh_ssat_sector_identifier (o_header o)) (S (length (o_sat o))),
        chain_c (o_sat o) (fh_root_directory_sector_identifier (o_header o)) (S (length (o_sat o))) with
  | Some a, Some dirs =>
      let tables := used_ids (o_msat o) ++ a in
      forallb (fun '(p, n) => same_c (slice f' p n) (slice f p n)) (spans f o tables dirs) &&
      forallb (fun id => Bool.eqb (inside_c f ss id) (inside_c f' ss id)) (tables ++ dirs)
  | _, _ => false
  end.

Definition streams_c (f f' : list Z) (o : opened) : bool :=
  forallb (fun d => negb (de_type d =? 2) ||
    forallb (fun i => match stream_position_c (opened_volume o) d (Z.of_nat i) with
                      | Some p => match znth f' p, znth f p with
                                  | Some b, Some b' => b =? b'
                                  | _, None => true
                                  | _, _ => false
                                  end
                      | None => true
                      end) (seq 0 (Z.to_nat (de_size d)))) (o_entries o).

Lemma span_znth (f f' : list Z) p a n : a <= p < a + n -> 0 <= a -> slice f' a n = slice f a n -> keeps f f' p.
Proof.
  intros H H0 E b Hb. rewrite <- Hb. replace p with (a + (p - a)) by lia. rewrite <- !(znth_slice _ a n) by lia. now rewrite E.
Qed.

Lemma alike_c_ok f f' o : alike_c f f' o = true -> opens_alike f f' o.
Proof.
  unfold alike_c. cbn zeta. intros H. apply andb_true_iff in H as [H H4]. apply andb_true_iff in H as [H H3].
  apply andb_true_iff in H as [H1 H2]. apply Z.eqb_eq in H1. apply Z.leb_le in H2, H3.
  destruct (chain_c (o_sat o) (fh_ssat_sector_identifier _) _) as [a|] eqn:Ea; [|discriminate].
  destruct (chain_c (o_sat o) (fh_root_directory_sector_identifier _) _) as [dirs|] eqn:Ed; [|discriminate].
  apply andb_true_iff in H4 as [H4 H5]. rewrite forallb_forall in H4, H5.
  set (ss := fh_sector_size (o_header o)) in *. set (e := fh_byte_order (o_header o)) in *.
  assert (HT : forall id, table_sector o id -> In id (used_ids (o_msat o) ++ a)).
  { intros id [G|(k & G & _)]; apply in_or_app; [now left|right]. eapply chain_c_ok; eauto. }
  assert (HMs : forall ids last id, master_chain e f ss (fh_msat_sector_identifier (o_header o)) ids last -> In id ids -> False).
  { intros ids last id G Hid. rewrite H1 in G. inversion G; subst; [destruct Hid|]. congruence. }
  assert (HSp : forall p q n, In (q, n) (spans f o (used_ids (o_msat o) ++ a) dirs) -> 0 <= q -> q <= p < q + n -> keeps f f' p).
  { intros p q n G G0 Gp. apply H4 in G. apply same_c_ok in G. eapply span_znth; eauto. }
  assert (HP : forall id, 0 <= fst (request ss id)).
  { intros id. unfold request. cbn [fst]. pose proof (Z.mod_pos_bound (id + 1) 4294967296 ltac:(reflexivity)). nia. }
  split; [|split; [auto|]].
  - intros p Hp. unfold looked_at in Hp. cbn zeta in Hp. fold ss e in Hp. destruct Hp as [Hp|[(id & Hp & HI & Hin)|(k & id & j & Hp & HI & Hj & Hj2 & Hs)]].
    + unfold header_byte in Hp. destruct Hp as [Hp|[Hp|[Hp|Hp]]].
      * apply (HSp p 0 8); [|lia..]. unfold spans. apply in_or_app. left. cbn. auto.
      * apply (HSp p 24 10); [|lia..]. unfold spans. apply in_or_app. left. cbn. auto.
      * apply (HSp p 44 8); [|lia..]. unfold spans. apply in_or_app. left. cbn. auto.
      * apply (HSp p 56 456); [|lia..]. unfold spans. apply in_or_app. left. cbn. auto.
    + destruct Hp as [Hp|(ids & last & Hp & Hid)]; [|now exfalso; eapply HMs; eauto].
      apply (HSp p (fst (request ss id)) ss); [|apply HP|exact Hin]. unfold spans. apply in_or_app. right. apply in_or_app. left. fold ss.
      apply in_map_iff. exists id. split; [reflexivity|]. apply filter_In. split; [auto|]. unfold inside_c. apply Z.leb_le. exact HI.
    + assert (HQ : forall q n, In (q, n) (slot_spans e (slice (sector_at f ss id) (128 * j) 128) (fst (request ss id) + 128 * j)) ->
        In (q, n) (spans f o (used_ids (o_msat o) ++ a) dirs)).
      { intros q n G. unfold spans. apply in_or_app. right. apply in_or_app. right. fold ss e. apply in_flat_map. exists id. split.
        - apply filter_In. split; [eapply chain_c_ok; eauto|]. unfold inside_c. apply Z.leb_le. exact HI.
        - apply in_flat_map. exists (Z.to_nat j). rewrite Z2Nat.id by lia. split; [|exact G]. apply in_seq.
          assert (j < ss / 128) by (apply Z.lt_le_trans with (m := (128 * (j + 1)) / 128); [rewrite Z.mul_comm, Z.div_mul; lia|apply Z.div_le_mono; lia]).
          lia. }
      pose proof (HP id). unfold slot_spans in HQ. unfold slot_byte, slot_empty in Hs. destruct Hs as [Hs|(Hn & Hs)].
      * apply (HSp p (fst (request ss id) + 128 * j + 66) 1); [apply HQ; now left|lia..].
      * rewrite (proj2 (Z.eqb_neq _ _) Hn) in HQ.
        destruct Hs as [Hs|[Hs|[Hs|Hs]]].
        -- eapply HSp; [apply HQ; right; left; reflexivity|lia..].
        -- eapply HSp; [apply HQ; right; right; left; reflexivity|lia..].
        -- eapply HSp; [apply HQ; do 3 right; left; reflexivity|lia..].
        -- eapply HSp; [apply HQ; do 4 right; left; reflexivity|lia..].
  - intros id HN.
    assert (HI : In id ((used_ids (o_msat o) ++ a) ++ dirs)).
    { unfold needed_sector in HN. cbn zeta in HN. destruct HN as [HN|[(ids & last & HN & Hid)|(k & HN)]]; apply in_or_app.
      - left. auto.
      - now exfalso; eapply HMs; eauto.
      - right. eapply chain_c_ok; eauto. }
    apply H5 in HI. apply Bool.eqb_prop in HI. unfold inside_c in HI. unfold sector_inside.
    fold ss. lia.
Qed.

Lemma streams_c_ok f f' o : alike_c f f' o = true -> streams_c f f' o = true -> reads_alike f f' o.
Proof.
  intros HA H. split; [now apply alike_c_ok|]. intros d p Hd Ht (i & Hi & Hp). unfold streams_c in H. rewrite forallb_forall in H.
  apply H in Hd. rewrite Ht in Hd. change (negb (2 =? 2)) with false in Hd. cbn [orb] in Hd. rewrite forallb_forall in Hd.
  specialize (Hd (Z.to_nat i) ltac:(apply in_seq; lia)). cbn beta in Hd. rewrite Z2Nat.id in Hd by lia.
  destruct (stream_position_c (opened_volume o) d i) as [q|] eqn:E.
  - apply stream_position_c_ok in E. rewrite (stream_position_fun _ _ _ _ _ Hp E) in *.
    intros x Hx. rewrite Hx in Hd. destruct (znth f' q) as [b|]; try discriminate. apply Z.eqb_eq in Hd. congruence.
  - apply stream_position_c_ok in Hp. congruence.
Qed.
