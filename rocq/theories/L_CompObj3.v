(** Lemmas on compound objects: the offset moves over bytes of the chain, also
    if the call fails. *)
From Coq Require Import ZArith List Bool Lia ZifyBool ZifyNat.
From Verif Require Import Base Spec_IO L_Base M_Table M_Load M_Stream Spec_Stream Spec_Content L_Stream
  L_Stream2 L_Stream3 Spec_Load L_Load M_CompObj Spec_CompObj L_CompObj L_CompObj2.
Import ListNotations.
Open Scope Z_scope.

Section Moves.
Variable mem : nat -> bool.
Variable f : list Z.
Variable rd : reader.
Variable v : volume.
Variable d : dirent.
Hypothesis HS : io_sound rd f.
Hypothesis HB : io_bytes rd.
Hypothesis HV : volume_ok v.
Hypothesis HD : dirent_ok d.
Hypothesis Hsh : short_ok v d.

Definition over (c c' : Z) : Prop := exists l, chain_holds f v d c l /\ c' = c + zlen l.

Lemma over_refl c : over c c.
Proof. exists []. split; [apply chain_holds_nil|]. change (zlen (@nil Z)) with 0. lia. Qed.

Lemma over_trans a b c : over a b -> over b c -> over a c.
Proof.
  intros (l1 & H1 & E1) (l2 & H2 & E2). exists (l1 ++ l2). rewrite zlen_app. split; [|lia].
  apply chain_holds_app; [exact H1|]. rewrite <- E1. exact H2.
Qed.

Definition moves {A} (P : A -> Prop) (m : cio A) : Prop :=
  forall w, near v d (c_offset w) ->
    let (r, w') := m w in
    over (c_offset w) (c_offset w') /\
    match r with Ok a => near v d (c_offset w') /\ P a | _ => True end.

Lemma moves_bind {A B} (P : A -> Prop) (Q : B -> Prop) (m : cio A) (k : A -> cio B) :
  moves P m -> (forall a, P a -> moves Q (k a)) -> moves Q (cbind m k).
Proof.
  intros Hm Hk w Hw. specialize (Hm w Hw). unfold cbind.
  destruct (m w) as [[a| | |] w1]; auto. destruct Hm as (H1 & H2 & H3).
  specialize (Hk a H3 w1 H2). destruct (k a w1) as [r w2]. destruct Hk as [H4 H5].
  split; [eapply over_trans; eauto|exact H5].
Qed.

Lemma moves_same {A} (P : A -> Prop) (m : cio A) :
  (forall w, c_offset (snd (m w)) = c_offset w) ->
  (forall w, match fst (m w) with Ok a => P a | _ => True end) -> moves P m.
Proof.
  intros Ho HP w Hw. specialize (Ho w). specialize (HP w). destruct (m w) as [r w']. cbn in Ho, HP.
  rewrite Ho. split; [apply over_refl|]. destruct r; auto.
Qed.

Lemma moves_ret {A} (P : A -> Prop) a : P a -> moves P (cret a).
Proof. intros H. apply moves_same; auto. Qed.
Lemma moves_err {A} (P : A -> Prop) : moves P (@cerr A).
Proof. apply moves_same; cbn; auto. Qed.

Lemma moves_field n : 0 <= n <= 134217728 ->
  moves (fun l => zlen l = n /\ Forall is_byte l) (read_field rd v d n).
Proof.
  intros Hn w Hw. pose proof (read_field_cases rd v d HV HD HB n w Hw Hn) as H.
  unfold read_field in *.
  destruct (io_read_stream rd v d (c_offset w) n n (c_trace w)) as [[l| | |] t] eqn:E; cbn in *;
    try (split; [apply over_refl|exact I]).
  assert (Ho : over (c_offset w) (c_offset w + zlen l)).
  { exists l. split; [|reflexivity]. eapply io_read_chain; eauto. lia. }
  split; [exact Ho|]. destruct H as (_ & _ & _ & _ & H). destruct (zlen l =? n); [exact H|exact I].
Qed.

Lemma moves_number : moves (fun x => 0 <= x < 4294967296) (read_number rd v d).
Proof.
  unfold read_number. eapply moves_bind; [apply moves_field; lia|]. intros l [Hl Hb].
  apply moves_same; [reflexivity|]. intros w. cbn.
  destruct (get_u32_in (v_byte_order v) l 0) as (x & Hx); [lia|lia|]. rewrite Hx.
  exact (get_u32_range _ _ _ _ Hb Hx).
Qed.

Lemma moves_string x n : 0 < n <= 134217728 -> moves (fun _ => True) (read_string mem rd v d x n).
Proof.
  intros Hn. unfold read_string. eapply (moves_bind (fun _ => True)).
  { apply moves_same; intros w; unfold allocate; destruct (mem (c_next w)); destruct x; reflexivity || exact I. }
  intros _ _. eapply moves_bind; [apply moves_field; lia|]. intros _ _.
  eapply (moves_bind (fun _ => True)).
  { apply moves_same; intros w; unfold release; destruct (pointer x w); reflexivity || exact I. }
  intros _ _. apply moves_same; [intros w; destruct x; reflexivity|intros w; exact I].
Qed.

Lemma moves_user_type : moves (fun _ => True) (read_user_type mem rd v d).
Proof.
  unfold read_user_type. eapply moves_bind; [apply moves_number|]. intros n Hn. cbn beta in Hn.
  change MEMORY_MAXIMUM_ALLOCATION_SIZE with 134217728.
  destruct ((n =? 0) || (134217728 <? n)) eqn:E; [apply moves_err|apply moves_string; lia].
Qed.

Lemma moves_optional x : moves (fun _ => True) (read_optional mem rd v d x).
Proof.
  unfold read_optional. eapply moves_bind; [apply moves_number|]. intros n Hn. cbn beta in Hn.
  change MEMORY_MAXIMUM_ALLOCATION_SIZE with 134217728.
  destruct (0 <? n) eqn:E; [|apply moves_ret; auto].
  destruct (134217728 <? n) eqn:E1; [apply moves_err|apply moves_string; lia].
Qed.

Lemma moves_clipboard : moves (fun _ => True) (read_clipboard mem rd v d).
Proof.
  unfold read_clipboard. eapply moves_bind; [apply moves_number|]. intros n Hn. cbn beta in Hn.
  change MEMORY_MAXIMUM_ALLOCATION_SIZE with 134217728.
  set (n' := if (_ : bool) then 4 else n).
  assert (0 <= n') by (unfold n'; destruct ((n =? 0xffffffe) || (n =? 0xfffffff)); lia). clearbody n'.
  destruct (0x190 <? n') eqn:E0; [apply moves_err|].
  destruct (0 <? n') eqn:E; [|apply moves_ret; auto].
  destruct (134217728 <? n') eqn:E1; [apply moves_err|apply moves_string; lia].
Qed.

Lemma moves_more : moves (fun _ => True) (more_data d).
Proof. apply moves_same; cbn; auto. Qed.

Lemma moves_object : moves (fun _ => True) (read_object mem rd v d).
Proof.
  unfold read_object.
  eapply moves_bind; [apply moves_field; lia|]. intros _ _.
  eapply moves_bind; [apply moves_user_type|]. intros _ _.
  eapply moves_bind; [apply moves_clipboard|]. intros _ _.
  eapply moves_bind; [apply moves_optional|]. intros _ _.
  eapply moves_bind; [apply moves_more|]. intros more _.
  eapply (moves_bind (fun _ => True)).
  { destruct more; [|apply moves_ret; auto]. intros w Hw. pose proof (moves_number w Hw) as H.
    destruct (read_number rd v d w) as [[x| | |] w']; tauto. }
  intros marker _.
  eapply moves_bind; [apply moves_more|]. intros more' _.
  destruct (more' && _); [|apply moves_ret; auto].
  eapply moves_bind; [apply moves_optional|]. intros _ _.
  eapply moves_bind; [apply moves_clipboard|]. intros _ _.
  apply moves_optional.
Qed.

Lemma release_offset x w : c_offset (snd (release x w)) = c_offset w /\ fst (release x w) = Ok tt.
Proof. unfold release. destruct (pointer x w); auto. Qed.

Lemma compound_object_moves c : 0 <= c < 4294967296 ->
  let '(_, c', _, _) := compound_object_call mem rd v d c in
  exists l, chain_holds f v d c l /\ c' = c + zlen l.
Proof.
  intros Hc. unfold compound_object_call, compound_object_read. cbv zeta.
  set (w0 := {| c_offset := c |}).
  assert (Hw : near v d (c_offset w0)) by (split; cbn; lia).
  pose proof (moves_object w0 Hw) as H. change (c_offset w0) with c in H.
  destruct (read_object mem rd v d w0) as [[[]| | |] w']; destruct H as [H _]; try exact H.
  unfold cbind. destruct (release_offset Reserved w') as [E1 F1].
  destruct (release Reserved w') as [r1 w1]; cbn in E1, F1; subst r1.
  destruct (release_offset Clipboard w1) as [E2 F2].
  destruct (release Clipboard w1) as [r2 w2]; cbn in E2, F2; subst r2.
  destruct (release_offset UserType w2) as [E3 F3].
  destruct (release UserType w2) as [r3 w3]; cbn in E3, F3; subst r3.
  rewrite E3, E2, E1. exact H.
Qed.

End Moves.
