(** Lemmas on what olecfinfo prints: what a property set in memory is like. *)
From Coq Require Import ZArith List Bool Lia.
From Verif Require Import Base Spec_IO M_Table M_Load M_Stream Spec_Stream Spec_Content
  M_Prop Spec_Prop L_Base L_Prop L_Prop2 L_Prop3.
Import ListNotations.
Open Scope Z_scope.

(** What is known of a property that was read, even from a damaged file. *)
Definition property_fine (cp : Z) (e : endian) (p : property) : Prop :=
  0 <= pv_id p < 4294967296 /\ 0 <= pv_type p < 4294967296 /\
  handed cp e (pv_type p) (pv_value p) /\
  (forall l, stored p = Some l -> Forall is_byte l).

Definition class_fine (l : list Z) : Prop := zlen l = 16 /\ Forall is_byte l.

Definition section_fine (cp : Z) (e : endian) (x : section) : Prop :=
  class_fine (sc_class x) /\ Forall (property_fine cp e) (sc_properties x).

Definition set_fine (cp : Z) (x : property_set) : Prop :=
  class_fine (ps_class x) /\ Forall (section_fine cp (ps_order x)) (ps_sections x).

Section Fine.
Variables (lib : fvlib) (rd : reader) (v : volume) (d : dirent) (cp : Z).
Hypothesis HB : io_bytes rd.

Lemma get_u32_bound e l p x : Forall is_byte l -> 0 <= p -> p + 4 <= zlen l ->
  get_u32 e l p = Ok x -> 0 <= x < 4294967296.
Proof.
  intros HF Hp Hl H. rewrite get_u32_number in H by auto. apply Ok_inj in H. subst x.
  pose proof (number_in_range e (slice l p 4) (Forall_slice _ _ _ _ HF)) as Hr.
  rewrite zlen_slice in Hr by lia. exact Hr.
Qed.

Lemma ascii_size_range l : 0 <= ascii_size l <= zlen l.
Proof.
  induction l as [|b l IH]; [cbn; lia|]. cbn [ascii_size]. rewrite zlen_cons.
  assert (0 <= zlen l) by (unfold zlen; lia). destruct (b =? 0); lia.
Qed.

Lemma utf16_size_range : forall l n, utf16_size l = Ok n -> Nat.Even (length l) -> 0 <= n <= zlen l.
Proof.
  fix IH 1. intros l n H He. destruct l as [|b [|b1 l]].
  - cbn in H. apply Ok_inj in H. subst. cbn. lia.
  - destruct He as [m Hm]. cbn in Hm. lia.
  - cbn [utf16_size] in H. rewrite !zlen_cons. assert (0 <= zlen l) by (unfold zlen; lia).
    destruct ((b =? 0) && (b1 =? 0)).
    + apply Ok_inj in H. lia.
    + apply rbind_ok in H as (m & Hm & H). apply Ok_inj in H. subst n.
      specialize (IH l m Hm). assert (Nat.Even (length l)).
      { destruct He as [j Hj]. cbn [length] in Hj. exists (j - 1)%nat. lia. }
      specialize (IH H). lia.
Qed.

Lemma read_value_fine t k enc c size tr w c' tr' :
  0 <= size ->
  read_value lib rd v d t k enc c size tr = (Ok (w, c'), tr') ->
  exists w0, w = Some w0 /\ data_ok w0 k enc /\ Forall is_byte (bytes_of w0) /\
    (t <> 0x1e -> t <> 0x1f -> zlen (bytes_of w0) = size).
Proof.
  intros Hs H. unfold read_value in H. destruct (0 <? size) eqn:E0.
  - set (m := if t =? 31 then u32 (size * 2) else size) in *.
    assert (Hm : 0 <= m).
    { unfold m, u32, TWO32. destruct (t =? 31); [|lia]. apply Z.mod_pos_bound. lia. }
    destruct ((m =? 0) || (MAX_ALLOCATION <? m)) eqn:E1; [discriminate|].
    apply ibind_ok in H as ([data c1] & t1 & H1 & H).
    apply ibind_ok in H as (n & t2 & H2 & H). apply ilift_ok in H2 as [H2 ->].
    apply ibind_ok in H as (w0 & t3 & H3 & H). apply ilift_ok in H3 as [H3 ->].
    apply iret_ok in H as [H ->]. apply pair_ok in H as [<- <-].
    destruct (pread_len _ _ _ _ _ _ _ _ _ HB H1) as (Hl & HF).
    assert (Hn : 0 <= n <= zlen data /\ (t <> 30 -> t <> 31 -> n = size)).
    { destruct (Z.eqb_spec t 30) as [->|N1].
      - apply Ok_inj in H2. subst n. split; [apply ascii_size_range|congruence].
      - destruct (Z.eqb_spec t 31) as [->|N2].
        + split; [|congruence]. apply utf16_size_range; [exact H2|].
          assert (Em : m = 2 * (size mod 2147483648)).
          { unfold m, u32, TWO32. change (31 =? 31) with true. cbv iota. rewrite Z.mul_comm.
            change 4294967296 with (2 * 2147483648). apply Zmult_mod_distr_l. }
          exists (Z.to_nat (size mod 2147483648)).
          pose proof (Z.mod_pos_bound size 2147483648 ltac:(lia)). unfold zlen in Hl. lia.
        + apply Ok_inj in H2. subst n.
          assert (m = size) by (unfold m; try rewrite (proj2 (Z.eqb_neq t 31) N2); reflexivity).
          split; [lia|auto]. }
    destruct Hn as [Hn Hn'].
    apply store_ok in H3; [|exact Hn]. destruct H3 as (Hk & Hd).
    exists w0. split; [reflexivity|]. unfold data_ok, bytes_of. destruct (fv_data w0) as [[l enc']|].
    + destruct Hd as (-> & -> & Hpos). rewrite zlen_slice by lia.
      split; [repeat split; auto; lia|]. split; [now apply Forall_slice|]. intros A B. exact (Hn' A B).
    + split; [auto|]. split; [constructor|]. intros A B. cbn. rewrite <- (Hn' A B). lia.
  - apply ibind_ok in H as (w0 & t2 & H2 & H). apply ilift_ok in H2 as [H2 ->].
    apply iret_ok in H as [H ->]. apply pair_ok in H as [<- <-].
    apply store_ok in H2; [|change (zlen (@nil Z)) with 0; lia]. destruct H2 as (Hk & Hd).
    exists w0. split; [reflexivity|]. unfold data_ok, bytes_of. destruct (fv_data w0) as [[l enc']|]; [lia|].
    split; [auto|]. split; [constructor|]. intros _ _. cbn. lia.
Qed.

Lemma read_data_fine e c off t ty w c' t' :
  read_data lib rd v d cp e c off t = (Ok (ty, w, c'), t') ->
  forall id, 0 <= id < 4294967296 ->
  property_fine cp e {| pv_id := id; pv_type := ty; pv_value := w |}.
Proof.
  intros H id Hid. unfold read_data in H.
  destruct (UINT32_MAX - 4 <=? off); [discriminate|].
  apply ibind_ok in H as (c0 & t0 & _ & H).
  apply ibind_ok in H as ([b c1] & t1 & H1 & H).
  apply ibind_ok in H as (ty' & t2 & H2 & H). apply ilift_ok in H2 as [H2 ->].
  destruct (pread_len _ _ _ _ _ _ _ _ _ HB H1) as (Hl & HF).
  pose proof (get_u32_bound e b 0 ty' HF ltac:(lia) ltac:(lia) H2) as Hty.
  assert (HG : ty = ty' /\ handed cp e ty w /\
               (forall l, stored_of w = Some l -> Forall is_byte l)).
  2:{ destruct HG as (E & Hh & Hb). rewrite E in *. unfold property_fine. cbn [pv_id pv_type pv_value].
      split; [exact Hid|]. split; [exact Hty|]. split; [exact Hh|exact Hb]. }
  destruct (shape_cases cp e ty') as [(k & n & Hk & Hin)|Hc].
  - rewrite Hk in H. apply ibind_ok in H as ([w1 c2] & t3 & H3 & H).
    apply iret_ok in H as [H ->]. apply pair_ok in H as [H <-]. apply pair_ok in H as [<- <-].
    destruct (shape_fixed cp e _ _ Hin) as (k' & Hk' & _ & Ha & Hb & Hr).
    apply read_value_fine in H3; [|lia]. destruct H3 as (w0 & -> & Hd & HFw & Hz).
    specialize (Hz Ha Hb). split; [reflexivity|]. split.
    + unfold handed. rewrite Hk. unfold data_ok, bytes_of in *.
      destruct w0 as [k0 [[l enc]|]]; cbn [fv_data fv_kind] in *.
      * destruct Hd as (-> & -> & _). exists l. split; [exact Hz|]. split; [lia|reflexivity].
      * change (zlen (@nil Z)) with 0 in Hz. lia.
    + intros l E. cbn [stored_of] in E. fold (bytes_of w0) in E.
      assert (l = bytes_of w0) by congruence. now subst l.
  - assert (HS : (exists k enc, shape_of cp e ty' = Sized k enc) \/
                 shape_of cp e ty' = Multi \/ shape_of cp e ty' = Unknown).
    { destruct Hc as [(k & enc & Hk & _)|[->|[->|[[Hk _]|[Hk _]]]]]; eauto.
      - left. eexists _, _. reflexivity.
      - left. eexists _, _. reflexivity. }
    destruct HS as [(k & enc & Hk)|[Hk|Hk]]; rewrite Hk in H.
    + apply ibind_ok in H as ([b2 c2] & t3 & H3 & H).
      apply ibind_ok in H as (n & t4 & H4 & H). apply ilift_ok in H4 as [H4 ->].
      destruct (pread_len _ _ _ _ _ _ _ _ _ HB H3) as (Hl2 & HF2).
      pose proof (get_u32_bound e b2 0 n HF2 ltac:(lia) ltac:(lia) H4) as Hn.
      apply ibind_ok in H as ([w1 c3] & t5 & H5 & H).
      apply iret_ok in H as [H ->]. apply pair_ok in H as [H <-]. apply pair_ok in H as [<- <-].
      apply read_value_fine in H5; [|lia]. destruct H5 as (w0 & -> & Hd & HFw & _).
      split; [reflexivity|]. split.
      * unfold handed. rewrite Hk. eauto.
      * intros l E. cbn [stored_of] in E. fold (bytes_of w0) in E.
        assert (l = bytes_of w0) by congruence. now subst l.
    + destruct (UINT32_MAX - 4 <=? u32 (off + 4)); [discriminate|].
      apply ibind_ok in H as ([b2 c2] & t3 & _ & H).
      apply ibind_ok in H as (n & t4 & _ & H).
      apply ibind_ok in H as (c3 & t5 & _ & H).
      apply iret_ok in H as [H ->]. apply pair_ok in H as [H <-]. apply pair_ok in H as [<- <-].
      split; [reflexivity|]. split; [unfold handed; now rewrite Hk|]. intros l E. discriminate.
    + apply iret_ok in H as [H ->]. apply pair_ok in H as [H <-]. apply pair_ok in H as [<- <-].
      split; [reflexivity|]. split; [unfold handed; now rewrite Hk|]. intros l E. discriminate.
Qed.

Lemma properties_fine k : forall e base c pos acc t ps c' t',
  Forall (property_fine cp e) acc ->
  properties_loop lib rd v d cp k e base c pos acc t = (Ok (ps, c'), t') ->
  Forall (property_fine cp e) ps.
Proof.
  induction k as [|k IH]; intros e base c pos acc t ps c' t' Hacc H; cbn [properties_loop] in H.
  - apply iret_ok in H as [H _]. apply pair_ok in H as [<- _]. exact Hacc.
  - apply ibind_ok in H as (c0 & t0 & _ & H).
    apply ibind_ok in H as ([[id rel] c1] & t1 & H1 & H).
    destruct (rel <=? 8); [discriminate|].
    apply ibind_ok in H as (pos' & t2 & _ & H).
    apply ibind_ok in H as ([[ty w] c2] & t3 & H3 & H).
    assert (Hid : 0 <= id < 4294967296).
    { unfold read_list_entry in H1. apply ibind_ok in H1 as ([b c3] & t4 & H4 & H1).
      apply ibind_ok in H1 as (id' & t5 & H5 & H1). apply ilift_ok in H5 as [H5 ->].
      apply ibind_ok in H1 as (rel' & t6 & _ & H1).
      apply iret_ok in H1 as [H1 _]. apply pair_ok in H1 as [H1 _]. apply pair_ok in H1 as [<- _].
      destruct (pread_len _ _ _ _ _ _ _ _ _ HB H4) as (Hl & HF).
      exact (get_u32_bound e b 0 id' HF ltac:(lia) ltac:(lia) H5). }
    eapply IH; [|exact H]. apply Forall_app. split; [exact Hacc|]. constructor; [|constructor].
    eapply read_data_fine; eauto.
Qed.

Lemma sections_fine k : forall e c pos acc t xs c' t',
  Forall (section_fine cp e) acc ->
  sections_loop lib rd v d cp k e c pos acc t = (Ok (xs, c'), t') ->
  Forall (section_fine cp e) xs.
Proof.
  induction k as [|k IH]; intros e c pos acc t xs c' t' Hacc H; cbn [sections_loop] in H.
  - apply iret_ok in H as [H _]. apply pair_ok in H as [<- _]. exact Hacc.
  - apply ibind_ok in H as (c0 & t0 & _ & H).
    apply ibind_ok in H as ([[class base] c1] & t1 & H1 & H).
    apply ibind_ok in H as (pos' & t2 & _ & H).
    apply ibind_ok in H as ([props c2] & t3 & H3 & H).
    eapply IH; [|exact H]. apply Forall_app. split; [exact Hacc|]. constructor; [|constructor].
    split; cbn [sc_class sc_properties].
    + unfold section_list_entry in H1. apply ibind_ok in H1 as ([b c3] & t4 & H4 & H1).
      apply ibind_ok in H1 as (base' & t5 & _ & H1).
      apply iret_ok in H1 as [H1 _]. apply pair_ok in H1 as [H1 _]. apply pair_ok in H1 as [<- _].
      destruct (pread_len _ _ _ _ _ _ _ _ _ HB H4) as (Hl & HF).
      split; [apply zlen_slice; lia|now apply Forall_slice].
    + unfold section_read in H3. apply ibind_ok in H3 as (c3 & t4 & _ & H3).
      apply ibind_ok in H3 as ([b c4] & t5 & _ & H3).
      apply ibind_ok in H3 as (size & t6 & _ & H3).
      apply ibind_ok in H3 as (n & t7 & _ & H3).
      eapply properties_fine; [constructor|exact H3].
Qed.

Theorem get_set_fine c t x c' t' :
  get_set lib rd v d cp c t = (Ok (x, c'), t') -> set_fine cp x.
Proof.
  intros H. unfold get_set in H. apply ibind_ok in H as (c0 & t0 & _ & H).
  apply ibind_ok in H as ([b c1] & t1 & H1 & H).
  apply ibind_ok in H as (h & t2 & H2 & H). apply ilift_ok in H2 as [H2 ->].
  apply ibind_ok in H as ([secs c2] & t3 & H3 & H).
  apply iret_ok in H as [H _]. apply pair_ok in H as [<- _].
  destruct (pread_len _ _ _ _ _ _ _ _ _ HB H1) as (Hl & HF).
  split; cbn [ps_class ps_order ps_sections].
  - unfold read_header in H2.
    apply rbind_ok in H2 as (b0 & _ & H2). apply rbind_ok in H2 as (b1 & _ & H2).
    apply rbind_ok in H2 as (e & _ & H2). apply rbind_ok in H2 as (x1 & _ & H2).
    apply rbind_ok in H2 as (x2 & _ & H2). apply rbind_ok in H2 as (x3 & _ & H2).
    apply Ok_inj in H2. subst h. cbn [ps_class]. split; [apply zlen_slice; lia|now apply Forall_slice].
  - eapply sections_fine; [constructor|exact H3].
Qed.
End Fine.
