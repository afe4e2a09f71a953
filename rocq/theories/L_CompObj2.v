(** Lemmas on compound objects: what is read, and what can be read. *)
From Coq Require Import ZArith List Bool Lia ZifyBool ZifyNat.
From Verif Require Import Base Spec_IO L_Base M_Table M_Load M_Stream Spec_Stream Spec_Content L_Stream
  L_Stream2 L_Stream3 L_Prop3 L_Fuse Spec_Load L_Load L_Header M_CompObj Spec_CompObj L_CompObj.
Import ListNotations.
Open Scope Z_scope.

Lemma chain_holds_app f v d c l1 l2 : chain_holds f v d c l1 -> chain_holds f v d (c + zlen l1) l2 ->
  chain_holds f v d c (l1 ++ l2).
Proof.
  intros H1 H2 j b Hj. pose proof (znth_range _ _ _ Hj) as Hr.
  destruct (Z_lt_le_dec j (zlen l1)) as [L|L].
  - rewrite znth_app_l in Hj by lia. auto.
  - rewrite znth_app_r in Hj by lia. destruct (H2 _ _ Hj) as (p & Hp & Hb).
    exists p. split; [|exact Hb]. replace (c + j) with (c + zlen l1 + (j - zlen l1)) by lia. exact Hp.
Qed.

Lemma chain_holds_nil f v d c : chain_holds f v d c [].
Proof. intros j b Hj. apply znth_range in Hj. change (zlen (@nil Z)) with 0 in Hj. lia. Qed.

Lemma zlen_zero {A} (l : list A) : zlen l = 0 -> l = [].
Proof. destruct l; [reflexivity|]. rewrite zlen_cons. pose proof (zlen_nonneg l). lia. Qed.

Lemma cbind_ok {A B} (m : cio A) (k : A -> cio B) w b w' : cbind m k w = (Ok b, w') ->
  exists a w1, m w = (Ok a, w1) /\ k a w1 = (Ok b, w').
Proof. unfold cbind. destruct (m w) as [[a| | |] w1]; try discriminate. eauto. Qed.

Lemma cbind_step {A B} (m : cio A) (k : A -> cio B) w a w1 : m w = (Ok a, w1) -> cbind m k w = k a w1.
Proof. unfold cbind. intros ->. reflexivity. Qed.

(** * What is read *)
Section Takes.
Variable mem : nat -> bool.
Variable f : list Z.
Variable rd : reader.
Variable v : volume.
Variable d : dirent.
Hypothesis HS : io_sound rd f.
Hypothesis HB : io_bytes rd.
Hypothesis HV : volume_ok v.
Hypothesis HD : dirent_ok d.
Hypothesis Hsh : short_ok v d.

Let e := v_byte_order v.

(** A successful run moves the offset over bytes [l] of the chain with [P]. *)
Definition takes {A} (m : cio A) (P : Z -> A -> list Z -> Prop) : Prop :=
  forall w a w', near v d (c_offset w) -> m w = (Ok a, w') ->
    exists l, P (c_offset w) a l /\ chain_holds f v d (c_offset w) l /\
              c_offset w' = c_offset w + zlen l /\ near v d (c_offset w').

Lemma takes_bind {A B} (m : cio A) (k : A -> cio B) P Q :
  takes m P -> (forall a, takes (k a) (Q a)) ->
  takes (cbind m k) (fun c b l => exists a l1 l2, l = l1 ++ l2 /\ P c a l1 /\ Q a (c + zlen l1) b l2).
Proof.
  intros Hm Hk w b w' Hw H. apply cbind_ok in H as (a & w1 & H1 & H2).
  destruct (Hm _ _ _ Hw H1) as (l1 & P1 & C1 & O1 & N1).
  destruct (Hk _ _ _ _ N1 H2) as (l2 & P2 & C2 & O2 & N2).
  exists (l1 ++ l2). split; [|split; [|split]].
  - exists a, l1, l2. rewrite <- O1. auto.
  - apply chain_holds_app; [exact C1|]. rewrite <- O1. exact C2.
  - rewrite zlen_app. lia.
  - exact N2.
Qed.

Lemma takes_weaken {A} (m : cio A) (P Q : Z -> A -> list Z -> Prop) :
  takes m P -> (forall c a l, P c a l -> Q c a l) -> takes m Q.
Proof. intros H HPQ w a w' Hw Hm. destruct (H _ _ _ Hw Hm) as (l & H1 & H2). exists l. auto. Qed.

Lemma takes_ret {A} (a : A) : takes (cret a) (fun _ x l => x = a /\ l = []).
Proof.
  intros w x w' Hw H. injection H as <- <-. exists []. split; [auto|]. split; [apply chain_holds_nil|].
  change (zlen (@nil Z)) with 0. split; [lia|exact Hw].
Qed.

Lemma takes_err {A} P : takes (@cerr A) P.
Proof. intros w a w' _ H. discriminate. Qed.

(** Steps that do not touch the offset. *)
Lemma takes_still {A} (m : cio A) : (forall w, c_offset (snd (m w)) = c_offset w) ->
  takes m (fun _ _ l => l = []).
Proof.
  intros Hm w a w' Hw H. pose proof (Hm w) as E. rewrite H in E. cbn in E. exists [].
  split; [reflexivity|]. split; [apply chain_holds_nil|]. change (zlen (@nil Z)) with 0.
  split; [lia|]. rewrite E. exact Hw.
Qed.

Lemma takes_field n : 0 <= n <= 134217728 ->
  takes (read_field rd v d n) (fun _ a l => a = l /\ zlen l = n /\ Forall is_byte l).
Proof.
  intros Hn w a w' Hw H. unfold read_field in H.
  destruct (io_read_stream rd v d (c_offset w) n n (c_trace w)) as [[l| | |] t] eqn:E; try discriminate.
  pose proof (io_read_stream_length _ _ _ _ _ _ _ _ _ (proj1 Hn) E) as Hl.
  rewrite Hl, Z.eqb_refl in H. injection H as <- <-. exists l. cbn. split; [|split; [|split]].
  - repeat split; auto. eapply io_read_bytes; eauto.
  - eapply io_read_chain; eauto. lia.
  - lia.
  - eapply io_read_near; eauto.
Qed.

Lemma takes_number : takes (read_number rd v d) (fun _ x l => 0 <= x < 4294967296 /\ l = bytes_of e 4 x).
Proof.
  unfold read_number. eapply takes_weaken.
  - apply takes_bind; [apply takes_field; lia|]. intros l0.
    instantiate (1 := fun l0 _ x l => get_u32 e l0 0 = Ok x /\ l = []).
    intros w a w' Hw H. injection H as H <-. exists []. repeat split; auto.
    + apply chain_holds_nil.
    + change (zlen (@nil Z)) with 0. lia.
    + apply Hw.
    + apply Hw.
  - cbn beta. intros c x l (l0 & l1 & l2 & -> & (-> & Hl & Hb) & Hx & ->). rewrite app_nil_r.
    split; [exact (get_u32_range _ _ _ _ Hb Hx)|]. symmetry. now apply get_u32_bytes.
Qed.

Lemma takes_string x n : 0 <= n <= 134217728 ->
  takes (read_string mem rd v d x n) (fun _ _ l => zlen l = n).
Proof.
  intros Hn. unfold read_string. eapply takes_weaken.
  - apply takes_bind; [apply takes_still|intros ?].
    { intros w. unfold allocate. destruct (mem (c_next w)), x; reflexivity. }
    apply takes_bind; [apply takes_field; lia|intros ?].
    apply takes_bind; [apply takes_still|intros ?].
    { intros w. unfold release. destruct (pointer x w); reflexivity. }
    apply takes_still. intros w. destruct x; reflexivity.
  - cbn beta. intros c a l (? & l1 & l2 & -> & -> & ? & l3 & l4 & -> & (_ & Hl & _) & ? & l5 & l6 & -> & -> & ->).
    cbn. rewrite app_nil_r. exact Hl.
Qed.

Lemma takes_user_type : takes (read_user_type mem rd v d)
  (fun _ _ l => exists u, 0 < zlen u <= 134217728 /\ l = string_bytes e u).
Proof.
  unfold read_user_type. eapply takes_weaken.
  - apply takes_bind; [apply takes_number|]. intros n.
    instantiate (1 := fun n _ _ l => 0 <= n -> 0 < n <= 134217728 /\ zlen l = n).
    change MEMORY_MAXIMUM_ALLOCATION_SIZE with 134217728.
    destruct ((n =? 0) || (134217728 <? n)) eqn:E; [apply takes_err|].
    destruct (Z_lt_le_dec n 0).
    { intros w a w' Hw H. unfold read_string in H. apply cbind_ok in H as (? & w1 & H1 & H).
      apply cbind_ok in H as (lx & w2 & H2 & _). unfold read_field in H2.
      destruct (io_read_stream rd v d (c_offset w1) n n (c_trace w1)) as [[l0| | |] t] eqn:E0; try discriminate.
      destruct (zlen l0 =? n) eqn:E2; [|discriminate]. pose proof (zlen_nonneg l0). lia. }
    eapply takes_weaken; [apply takes_string; lia|]. cbn. intros. lia.
  - cbn beta. intros c a l (n & l1 & l2 & -> & (Hn & ->) & H). destruct H as [H1 H2]; [lia|].
    exists l2. rewrite H2. split; [lia|]. unfold string_bytes. now rewrite H2.
Qed.

Lemma takes_optional x : takes (read_optional mem rd v d x)
  (fun _ _ l => exists u, zlen u <= 134217728 /\ l = string_bytes e u).
Proof.
  unfold read_optional. eapply takes_weaken.
  - apply takes_bind; [apply takes_number|]. intros n.
    instantiate (1 := fun n _ _ l => 0 <= n -> n <= 134217728 /\ zlen l = n).
    change MEMORY_MAXIMUM_ALLOCATION_SIZE with 134217728.
    destruct (0 <? n) eqn:E.
    + destruct (134217728 <? n) eqn:E1; [apply takes_err|].
      eapply takes_weaken; [apply takes_string; lia|]. cbn. intros. lia.
    + eapply takes_weaken; [apply takes_ret|]. cbn. intros c a l (_ & ->) Hn.
      change (zlen (@nil Z)) with 0. lia.
  - cbn beta. intros c a l (n & l1 & l2 & -> & (Hn & ->) & H). destruct H as [H1 H2]; [lia|].
    exists l2. rewrite H2. split; [lia|]. unfold string_bytes. now rewrite H2.
Qed.

Lemma takes_clipboard : takes (read_clipboard mem rd v d)
  (fun _ _ l => exists x, format_ok library_markers x /\ l = format_bytes e x).
Proof.
  unfold read_clipboard. eapply takes_weaken.
  - apply takes_bind; [apply takes_number|]. intros n.
    instantiate (1 := fun n _ _ l => 0 <= n ->
       (n = 0 /\ l = []) \/ (0 < n <= 0x190 /\ zlen l = n) \/ (In n library_markers /\ zlen l = 4)).
    change MEMORY_MAXIMUM_ALLOCATION_SIZE with 134217728.
    destruct ((n =? 0xffffffe) || (n =? 0xfffffff)) eqn:E.
    + change (0x190 <? 4) with false. change (0 <? 4) with true. change (134217728 <? 4) with false. cbn iota.
      eapply takes_weaken; [apply takes_string; lia|]. cbn. intros. right. right. split; [lia|auto].
    + destruct (0x190 <? n) eqn:E0; [apply takes_err|]. destruct (0 <? n) eqn:E1.
      * destruct (134217728 <? n) eqn:E2; [apply takes_err|].
        eapply takes_weaken; [apply takes_string; lia|]. cbn beta. intros. right. left. lia.
      * eapply takes_weaken; [apply takes_ret|]. cbn. intros c a l (_ & ->) Hn. left. split; [lia|auto].
  - cbn beta. intros c a l (n & l1 & l2 & -> & (Hn & ->) & H).
    destruct H as [[-> ->]|[[H1 H2]|[H1 H2]]]; [lia|..].
    + exists NoFormat. split; [exact I|]. rewrite app_nil_r. reflexivity.
    + exists (Registered l2). cbn. rewrite H2. split; [lia|]. unfold string_bytes. now rewrite H2.
    + exists (Standard n l2). cbn [format_ok format_bytes]. auto.
Qed.

Lemma takes_more : takes (more_data d) (fun c b l => b = (c <? de_size d) /\ l = []).
Proof.
  intros w b w' Hw H. injection H as <- <-. exists []. repeat split; auto.
  - apply chain_holds_nil.
  - change (zlen (@nil Z)) with 0. lia.
  - apply Hw.
  - apply Hw.
Qed.

Lemma takes_object : takes (read_object mem rd v d)
  (fun c _ l => exists o, object_ok library_markers o /\ ends e (de_size d) c o /\ l = object_bytes e o).
Proof.
  unfold read_object. eapply takes_weaken.
  - apply takes_bind; [apply takes_field; lia|intros ?].
    apply takes_bind; [apply takes_user_type|intros ?].
    apply takes_bind; [apply takes_clipboard|intros ?].
    apply takes_bind; [apply takes_optional|intros ?].
    apply takes_bind; [apply takes_more|intros more]. 
    instantiate (1 := fun more c _ l => exists t, tail_ok library_markers t /\ l = tail_bytes e t /\
       match t with
       | Nothing => more = false
       | Number m => more = true /\ (m <> UNICODE_MARKER \/ de_size d <= c + 4)
       | Unicode _ _ _ => more = true /\ c + 4 < de_size d
       end).
    eapply takes_weaken.
    + apply takes_bind; [|intros marker; apply takes_bind; [apply takes_more|intros more']].
      * instantiate (1 := fun _ m l => if more then 0 <= m < 4294967296 /\ l = bytes_of e 4 m
                                       else m = 0 /\ l = []).
        destruct more; [apply takes_number|apply takes_ret].
      * instantiate (1 := fun more' _ _ l =>
          if more' && (marker =? UNICODE_MARKER)
          then exists u x r, zlen u <= 134217728 /\ format_ok library_markers x /\ zlen r <= 134217728 /\
                             l = string_bytes e u ++ format_bytes e x ++ string_bytes e r
          else l = []).
        change 0x71b239f4 with UNICODE_MARKER. cbv beta. destruct (more' && (marker =? UNICODE_MARKER)).
        -- eapply takes_weaken.
           ++ apply takes_bind; [apply takes_optional|intros ?].
              apply takes_bind; [apply takes_clipboard|intros ?]. apply takes_optional.
           ++ cbn beta. intros cc aa ll (? & l1 & l2 & -> & (u & Hu & ->) & ? & l3 & l4 & -> & (x & Hx & ->) & (r & Hr & ->)).
              exists u, x, r. auto.
        -- eapply takes_weaken; [apply takes_ret|]. cbn beta. intros cc aa ll (_ & ->). reflexivity.
    + cbn beta. intros cc aa ll (m & l1 & l2 & -> & H1 & more' & l3 & l4 & -> & (-> & ->) & H2).
      cbn [app]. change (zlen (@nil Z)) with 0 in H2. destruct more.
      * destruct H1 as [Hm ->]. rewrite zlen_bytes_of in H2. change (Z.of_nat 4) with 4 in H2.
        destruct ((cc + 4 <? de_size d) && (m =? UNICODE_MARKER)) eqn:E.
        -- destruct H2 as (u & x & r & Hu & Hx & Hr & ->). exists (Unicode u x r).
           cbn [tail_ok tail_bytes]. assert (m = UNICODE_MARKER) by lia. subst m. repeat split; auto; lia.
        -- subst l4. rewrite app_nil_r. exists (Number m). cbn [tail_ok tail_bytes].
           split; [exact Hm|]. split; [reflexivity|]. split; [reflexivity|]. lia.
      * destruct H1 as [-> ->]. rewrite andb_false_r in H2. subst l4. exists Nothing.
        cbn [tail_ok tail_bytes]. auto.
  - cbn beta. intros c a l (? & l1 & l2 & -> & (_ & Hh & _) & ? & l3 & l4 & -> & (u & Hu & ->) &
      ? & l5 & l6 & -> & (x & Hx & ->) & ? & l7 & l8 & -> & (r & Hr & ->) &
      more & l9 & l10 & -> & (Hmore & ->) & (t & Ht & -> & He)).
    exists {| co_header := l1; co_user := u; co_format := x; co_reserved := r; co_tail := t |}.
    split; [|split].
    + repeat split; cbn; auto; lia.
    + unfold ends, body_bytes. cbn [co_header co_user co_format co_reserved co_tail].
      rewrite !zlen_app. change (zlen (@nil Z)) with 0 in He. rewrite ?Z.add_assoc, ?Z.add_0_r in *.
      subst more. destruct t; cbn beta iota in He.
      * lia.
      * lia.
      * lia.
    + unfold object_bytes, body_bytes. cbn [co_header co_user co_format co_reserved co_tail app].
      now rewrite <- !app_assoc.
Qed.

Lemma compound_object_sound c c' t log : 0 <= c < 4294967296 ->
  compound_object_call mem rd v d c = (Ok tt, c', t, log) ->
  exists o, object_ok library_markers o /\ ends e (de_size d) c o /\
            chain_holds f v d c (object_bytes e o) /\ c' = c + zlen (object_bytes e o).
Proof.
  intros Hc H. unfold compound_object_call, compound_object_read in H.
  set (w0 := {| c_offset := c |}) in H.
  destruct (read_object mem rd v d w0) as [r w] eqn:E. destruct r; cbn in H; try discriminate.
  - injection H as _ <- _ _. destruct (takes_object w0 a w) as (l & (o & H1 & H2 & ->) & H3 & H4 & _); auto.
    { split; [cbn; lia|left; cbn; lia]. }
    exists o. auto.
  - destruct ((dc _ <- release Reserved; dc _ <- release Clipboard; release UserType) w) as [[]]; discriminate.
Qed.

End Takes.

(** * What can be read *)
Section Reads.
Variable mem : nat -> bool.
Variable rd : reader.
Variable v : volume.
Variable d : dirent.
Variable s : list Z.
Hypothesis HR : is_readable_stream rd v d s.
Hypothesis HM : forall k, mem k = true.

Let e := v_byte_order v.

(** The stream holds [l] at [c]. *)
Definition at_offset (c : Z) (l : list Z) : Prop :=
  0 <= c /\ c + zlen l <= zlen s /\ slice s c (zlen l) = l.

Lemma at_app c l1 l2 : at_offset c (l1 ++ l2) -> at_offset c l1 /\ at_offset (c + zlen l1) l2.
Proof.
  intros (H1 & H2 & H3). rewrite zlen_app in *. pose proof (zlen_nonneg l1). pose proof (zlen_nonneg l2).
  assert (E : forall i, znth s (c + i) = if (0 <=? i) && (i <? zlen l1 + zlen l2)
                        then znth (l1 ++ l2) i else znth s (c + i)).
  { intros i. destruct ((0 <=? i) && _) eqn:Ei; [|reflexivity]. rewrite <- H3 at 1.
    rewrite znth_slice by lia. reflexivity. }
  split; (split; [lia|split; [lia|]]); apply znth_ext.
  - rewrite zlen_slice by lia. reflexivity.
  - intros i Hi. rewrite zlen_slice in Hi by lia. rewrite znth_slice by lia. rewrite E.
    replace ((0 <=? i) && (i <? zlen l1 + zlen l2)) with true by lia. apply znth_app_l. lia.
  - rewrite zlen_slice by lia. reflexivity.
  - intros i Hi. rewrite zlen_slice in Hi by lia. rewrite znth_slice by lia.
    replace (c + zlen l1 + i) with (c + (zlen l1 + i)) by lia. rewrite E.
    replace ((0 <=? zlen l1 + i) && (zlen l1 + i <? zlen l1 + zlen l2)) with true by lia.
    rewrite znth_app_r by lia. f_equal. lia.
Qed.

Lemma io_read_full c n t : 0 <= c -> 0 < n <= 134217728 -> c + n <= zlen s ->
  exists t', io_read_stream rd v d c n n t = (Ok (slice s c n), t').
Proof.
  intros Hc Hn Hs. assert (HSM : SSIZE_MAX = 9223372036854775807) by reflexivity.
  destruct (read_buffer_full rd v d s c n t HR Hc) as (t' & H); [lia|right; lia|].
  destruct HR as (HV & HD & _ & _ & _ & f & _ & _ & Hty & Hlen & _).
  pose proof (do_size d HD) as Hds. unfold is_u32 in Hds.
  unfold stream_read_buffer in H.
  destruct (negb (de_type d =? TYPE_STREAM)); [discriminate|].
  destruct (c <? 0); [discriminate|]. destruct (SSIZE_MAX <? n); [discriminate|].
  destruct (de_size d <=? c) eqn:E3; [lia|].
  rewrite clamp_eq in H by lia. rewrite Z.min_l in H by lia.
  apply ibind_ok in H as (l & t1 & H1 & H). destruct (zlen l =? n) eqn:E; [|discriminate].
  injection H as -> _ _. eauto.
Qed.

Definition reads {A} (m : cio A) (a : A) (l : list Z) : Prop :=
  forall w, at_offset (c_offset w) l ->
    exists w', m w = (Ok a, w') /\ c_offset w' = c_offset w + zlen l.

Lemma reads_bind {A B} (m : cio A) (k : A -> cio B) a b l1 l2 :
  reads m a l1 -> reads (k a) b l2 -> reads (cbind m k) b (l1 ++ l2).
Proof.
  intros Hm Hk w Hw. apply at_app in Hw as [H1 H2]. destruct (Hm w H1) as (w1 & E1 & O1).
  rewrite <- O1 in H2. destruct (Hk w1 H2) as (w2 & E2 & O2).
  exists w2. rewrite (cbind_step _ _ _ _ _ E1). split; [exact E2|]. rewrite zlen_app. lia.
Qed.

Lemma reads_still {A} (m : cio A) a : (forall w, fst (m w) = Ok a /\ c_offset (snd (m w)) = c_offset w) ->
  reads m a [].
Proof.
  intros H w _. specialize (H w). destruct (m w) as [r w']. cbn in H. destruct H as [-> H].
  exists w'. split; [reflexivity|]. change (zlen (@nil Z)) with 0. lia.
Qed.

Lemma reads_field l : 0 < zlen l <= 134217728 -> reads (read_field rd v d (zlen l)) l l.
Proof.
  intros Hn w (H1 & H2 & H3). unfold read_field.
  destruct (io_read_full (c_offset w) (zlen l) (c_trace w)) as (t' & E); auto.
  rewrite E, H3, Z.eqb_refl. eexists. split; reflexivity.
Qed.

Lemma reads_number x : 0 <= x < 4294967296 -> reads (read_number rd v d) x (bytes_of e 4 x).
Proof.
  intros Hx. unfold read_number. rewrite <- (app_nil_r (bytes_of e 4 x)).
  apply (reads_bind _ _ (bytes_of e 4 x)).
  - change 4 with (Z.of_nat 4). rewrite <- (zlen_bytes_of e 4 x) at 1. apply reads_field. rewrite zlen_bytes_of. lia.
  - apply reads_still. intros w. cbn. rewrite get_u32_of by assumption. auto.
Qed.

Lemma reads_string x l : 0 < zlen l <= 134217728 -> reads (read_string mem rd v d x (zlen l)) tt l.
Proof.
  intros Hn. unfold read_string.
  replace l with ([] ++ l ++ [] ++ []) at 2 by (cbn; apply app_nil_r).
  apply (reads_bind _ _ tt); [apply reads_still|].
  { intros w. unfold allocate. rewrite HM. destruct x; cbn; auto. }
  apply (reads_bind _ _ l); [now apply reads_field|].
  apply (reads_bind _ _ tt); apply reads_still; intros w.
  - unfold release. destruct (pointer x w); cbn; auto.
  - destruct x; cbn; auto.
Qed.

Lemma reads_user_type u : 0 < zlen u <= 134217728 -> reads (read_user_type mem rd v d) tt (string_bytes e u).
Proof.
  intros Hu. unfold read_user_type, string_bytes. apply (reads_bind _ _ (zlen u)).
  - apply reads_number. lia.
  - change MEMORY_MAXIMUM_ALLOCATION_SIZE with 134217728.
    replace ((zlen u =? 0) || (134217728 <? zlen u)) with false by lia. now apply reads_string.
Qed.

Lemma reads_optional x u : zlen u <= 134217728 -> reads (read_optional mem rd v d x) tt (string_bytes e u).
Proof.
  intros Hu. pose proof (zlen_nonneg u). unfold read_optional, string_bytes.
  apply (reads_bind _ _ (zlen u)); [apply reads_number; lia|].
  change MEMORY_MAXIMUM_ALLOCATION_SIZE with 134217728. destruct (0 <? zlen u) eqn:E.
  - replace (134217728 <? zlen u) with false by lia. apply reads_string. lia.
  - rewrite (zlen_zero u) by lia. apply reads_still. cbn. auto.
Qed.

Lemma reads_clipboard x : format_ok library_markers x -> reads (read_clipboard mem rd v d) tt (format_bytes e x).
Proof.
  intros Hx. unfold read_clipboard. destruct x as [|m id|l]; cbn [format_ok format_bytes] in *.
  - rewrite <- (app_nil_r (bytes_of e 4 0)). apply (reads_bind _ _ 0); [apply reads_number; lia|].
    apply reads_still. cbn. auto.
  - destruct Hx as [Hm Hid]. apply (reads_bind _ _ m).
    + apply reads_number. unfold library_markers in Hm. cbn [In] in Hm. lia.
    + assert (E : (m =? 0xffffffe) || (m =? 0xfffffff) = true).
      { unfold library_markers in Hm. cbn [In] in Hm. lia. }
      rewrite E. change (0x190 <? 4) with false. change (0 <? 4) with true.
      change (MEMORY_MAXIMUM_ALLOCATION_SIZE <? 4) with false. cbn iota. rewrite <- Hid. apply reads_string. lia.
  - unfold string_bytes. apply (reads_bind _ _ (zlen l)); [apply reads_number; lia|].
    replace ((zlen l =? 0xffffffe) || (zlen l =? 0xfffffff)) with false by lia.
    replace (0x190 <? zlen l) with false by lia. replace (0 <? zlen l) with true by lia.
    change MEMORY_MAXIMUM_ALLOCATION_SIZE with 134217728.
    replace (134217728 <? zlen l) with false by lia. apply reads_string. lia.
Qed.

(** The object at the offset of [w]. *)
Lemma reads_object o w : object_ok library_markers o -> ends e (de_size d) (c_offset w) o ->
  at_offset (c_offset w) (object_bytes e o) ->
  exists w', read_object mem rd v d w = (Ok tt, w') /\ c_offset w' = c_offset w + zlen (object_bytes e o).
Proof.
  intros (Hh & Hu & Hf & Hr & Ht) He Hat. unfold object_bytes in Hat.
  apply at_app in Hat as [Hb Htl].
  assert (Hbody : forall k : cio unit,
    (forall w1, c_offset w1 = c_offset w + zlen (body_bytes e o) ->
       exists w', k w1 = (Ok tt, w') /\ c_offset w' = c_offset w1 + zlen (tail_bytes e (co_tail o))) ->
    exists w', (dc _ <- read_field rd v d 28; dc _ <- read_user_type mem rd v d;
                dc _ <- read_clipboard mem rd v d; dc _ <- read_optional mem rd v d Reserved; k) w = (Ok tt, w') /\
               c_offset w' = c_offset w + zlen (object_bytes e o)).
  { intros k Hk. unfold body_bytes in Hb. apply at_app in Hb as [H1 Hb].
    destruct (reads_field (co_header o) ltac:(lia) w H1) as (w1 & E1 & O1). rewrite Hh in E1.
    rewrite <- O1 in Hb. apply at_app in Hb as [H2 Hb].
    destruct (reads_user_type _ Hu w1 H2) as (w2 & E2 & O2).
    rewrite <- O2 in Hb. apply at_app in Hb as [H3 Hb].
    destruct (reads_clipboard _ Hf w2 H3) as (w3 & E3 & O3). rewrite <- O3 in Hb.
    destruct (reads_optional Reserved _ Hr w3 Hb) as (w4 & E4 & O4).
    rewrite (cbind_step _ _ _ _ _ E1), (cbind_step _ _ _ _ _ E2), (cbind_step _ _ _ _ _ E3),
      (cbind_step _ _ _ _ _ E4).
    destruct (Hk w4) as (w' & E5 & O5).
    { unfold body_bytes. rewrite !zlen_app. lia. }
    exists w'. split; [exact E5|]. unfold object_bytes, body_bytes. rewrite !zlen_app. lia. }
  unfold read_object. apply Hbody. clear Hbody. intros w1 O1. rewrite <- O1 in Htl.
  unfold ends in He. rewrite <- O1 in He. unfold cbind at 1, more_data at 1.
  destruct (co_tail o) as [|m|u x r]; cbn [tail_ok tail_bytes] in *.
  - replace (c_offset w1 <? de_size d) with false by lia. unfold cbind, cret, more_data.
    rewrite andb_false_r. exists w1. split; [reflexivity|]. change (zlen (@nil Z)) with 0. lia.
  - replace (c_offset w1 <? de_size d) with true by lia.
    destruct (reads_number m Ht w1 Htl) as (w2 & E2 & O2). rewrite (cbind_step _ _ _ _ _ E2).
    rewrite zlen_bytes_of in *. change (Z.of_nat 4) with 4 in *.
    unfold cbind, cret, more_data. change 0x71b239f4 with UNICODE_MARKER.
    replace ((c_offset w2 <? de_size d) && (m =? UNICODE_MARKER)) with false by lia. eauto.
  - replace (c_offset w1 <? de_size d) with true by lia.
    apply at_app in Htl as [H1 Htl].
    destruct (reads_number UNICODE_MARKER ltac:(unfold UNICODE_MARKER; lia) w1 H1) as (w2 & E2 & O2).
    rewrite <- O2 in Htl.
    rewrite (cbind_step _ _ _ _ _ E2). rewrite zlen_bytes_of in O2. change (Z.of_nat 4) with 4 in O2.
    unfold cbind at 1, more_data.
    replace ((c_offset w2 <? de_size d) && (UNICODE_MARKER =? 0x71b239f4)) with true
      by (change (UNICODE_MARKER =? 0x71b239f4) with true; lia).
    destruct Ht as (Hu' & Hx & Hr').
    apply at_app in Htl as [H2 Htl]. destruct (reads_optional UserType _ Hu' w2 H2) as (w3 & E3 & O3).
    rewrite <- O3 in Htl. apply at_app in Htl as [H3 Htl].
    destruct (reads_clipboard _ Hx w3 H3) as (w4 & E4 & O4). rewrite <- O4 in Htl.
    destruct (reads_optional Reserved _ Hr' w4 Htl) as (w5 & E5 & O5).
    rewrite (cbind_step _ _ _ _ _ E3), (cbind_step _ _ _ _ _ E4). exists w5. split; [exact E5|].
    rewrite !zlen_app, zlen_bytes_of. lia.
Qed.

Lemma compound_object_complete o c : object_ok library_markers o -> ends e (de_size d) c o ->
  at_offset c (object_bytes e o) ->
  exists t log, compound_object_call mem rd v d c = (Ok tt, c + zlen (object_bytes e o), t, log).
Proof.
  intros Ho He Ha. unfold compound_object_call, compound_object_read.
  set (w0 := {| c_offset := c |}).
  destruct (reads_object o w0 Ho He Ha) as (w' & E & O). rewrite E. rewrite O. eauto.
Qed.

End Reads.

(** * Standard formats *)

(** Lists that agree as far as both go. *)
Definition agree (l1 l2 : list Z) : Prop :=
  forall j b1 b2, znth l1 j = Some b1 -> znth l2 j = Some b2 -> b1 = b2.

Lemma agree_app a b a' b' : zlen a = zlen a' -> agree (a ++ b) (a' ++ b') -> a = a' /\ agree b b'.
Proof.
  intros Hl H. split.
  - apply znth_ext; [exact Hl|]. intros i Hi.
    destruct (znth_some a i) as (x & Hx); [lia|]. destruct (znth_some a' i) as (y & Hy); [lia|].
    rewrite Hx, Hy. f_equal. apply (H i); [rewrite znth_app_l by lia|rewrite znth_app_l by lia]; auto.
  - intros j b1 b2 H1 H2. pose proof (znth_range _ _ _ H1) as R1.
    apply (H (zlen a + j)); rewrite znth_app_r by (try rewrite Hl; lia);
      [replace (zlen a + j - zlen a) with j by lia|replace (zlen a + j - zlen a') with j by lia]; auto.
Qed.

Lemma chain_agree f v d c l1 l2 : chain_holds f v d c l1 -> chain_holds f v d c l2 -> agree l1 l2.
Proof.
  intros H1 H2 j b1 b2 E1 E2. destruct (H1 _ _ E1) as (p1 & P1 & B1). destruct (H2 _ _ E2) as (p2 & P2 & B2).
  rewrite (stream_position_fun _ _ _ _ _ P1 P2) in B1. congruence.
Qed.

Lemma agree_string e u r u' r' : zlen u <= 134217728 -> zlen u' <= 134217728 ->
  agree (string_bytes e u ++ r) (string_bytes e u' ++ r') -> u = u' /\ agree r r'.
Proof.
  intros Hu Hu' H. unfold string_bytes in H. rewrite <- !app_assoc in H.
  pose proof (zlen_nonneg u). pose proof (zlen_nonneg u').
  apply agree_app in H as [E H]; [|now rewrite !zlen_bytes_of].
  apply bytes_of_inj in E; [|lia..]. now apply agree_app in H.
Qed.

Definition number_of (x : format) : Z :=
  match x with NoFormat => 0 | Standard m _ => m | Registered l => zlen l end.
Definition data_of (x : format) : list Z :=
  match x with NoFormat => [] | Standard _ id => id | Registered l => l end.

Lemma format_parts e x : format_bytes e x = bytes_of e 4 (number_of x) ++ data_of x.
Proof. destruct x; cbn [format_bytes number_of data_of]; rewrite ?app_nil_r; reflexivity. Qed.

Lemma agree_format e x r x' r' : format_ok documented_markers x -> format_ok library_markers x' ->
  agree (format_bytes e x ++ r) (format_bytes e x' ++ r') ->
  x = x' /\ (forall m id, x <> Standard m id) /\ agree r r'.
Proof.
  intros Hx Hx' H. rewrite !format_parts, <- !app_assoc in H.
  assert (N : 0 <= number_of x < 4294967296 /\ 0 <= number_of x' < 4294967296).
  { split; [destruct x|destruct x']; cbn [format_ok number_of] in *; try lia;
      [destruct Hx as [Hx _]|destruct Hx' as [Hx' _]]; cbn [In documented_markers library_markers] in *; lia. }
  apply agree_app in H as [H1 H]; [|now rewrite !zlen_bytes_of].
  apply bytes_of_inj in H1; [|apply N..].
  destruct x as [|m id|l], x' as [|m' id'|l']; cbn [format_ok number_of data_of] in *;
    try (exfalso; unfold documented_markers, library_markers in *; cbn [In] in *; lia).
  - split; [reflexivity|]. split; [discriminate|exact H].
  - apply agree_app in H as [-> H]; [|lia]. split; [reflexivity|]. split; [discriminate|exact H].
Qed.

Lemma standard_disagrees e size c o o' :
  object_ok documented_markers o -> ends e size c o -> has_standard o ->
  object_ok library_markers o' -> ends e size c o' ->
  agree (object_bytes e o) (object_bytes e o') -> False.
Proof.
  intros (Hh & Hu & Hf & Hr & Ht) He (m & id & Hs) (Hh' & Hu' & Hf' & Hr' & Ht') He' H.
  unfold object_bytes, body_bytes in H. rewrite <- !app_assoc in H.
  apply agree_app in H as [Eh H]; [|lia].
  apply agree_string in H as [Eu H]; [|lia..].
  apply agree_format in H as (Ef & Hno & H); auto.
  apply agree_string in H as [Er H]; [|lia..].
  destruct Hs as [Hs|(u & r & Hs)]; [exact (Hno _ _ Hs)|].
  assert (Eb : body_bytes e o = body_bytes e o') by (unfold body_bytes; congruence).
  unfold ends in He, He'. rewrite Eb in He. rewrite Hs in He, H, Ht. cbn [tail_ok] in Ht.
  cbn [tail_bytes] in H. destruct (co_tail o') as [|x|u' x r']; cbn [tail_bytes tail_ok] in *.
  - lia.
  - rewrite <- (app_nil_r (bytes_of e 4 x)) in H. apply agree_app in H as [H _]; [|now rewrite !zlen_bytes_of].
    apply bytes_of_inj in H; [|unfold UNICODE_MARKER; lia|exact Ht']. lia.
  - apply agree_app in H as [_ H]; [|reflexivity]. apply agree_string in H as [_ H]; [|lia..].
    apply agree_format in H as (_ & Hno' & _); [|apply Ht|apply Ht']. exact (Hno' _ _ eq_refl).
Qed.

Lemma standard_refused mem f rd v d o c : io_sound rd f -> io_bytes rd -> volume_ok v -> dirent_ok d ->
  short_ok v d -> 0 <= c < 4294967296 ->
  object_ok documented_markers o -> ends (v_byte_order v) (de_size d) c o -> has_standard o ->
  chain_holds f v d c (object_bytes (v_byte_order v) o) ->
  exists c' t log, compound_object_call mem rd v d c = (Err, c', t, log).
Proof.
  intros HS HB HV HD Hsh Hc Ho He Hst Hch.
  pose proof (compound_object_safe mem rd v d HV HD HB c Hc) as Hsafe.
  destruct (compound_object_call mem rd v d c) as [[[r c'] t] log] eqn:E.
  destruct Hsafe as [Hdef _]. destruct r as [[]| | |]; try contradiction; [|eauto].
  destruct (compound_object_sound mem f rd v d HS HB HV HD Hsh c c' t log Hc E) as (o' & H1 & H2 & H3 & _).
  destruct (standard_disagrees _ _ _ o o' Ho He Hst H1 H2).
  eapply chain_agree; eauto.
Qed.
