(** Lemmas on what can be done with an opened file. *)
From Coq Require Import ZArith List Bool Lia ZifyBool ZifyNat Sorted.
From Verif Require Import Base Spec_IO Spec_Stream Spec_Load Spec_Open Spec_Tree Spec_Item L_Base M_Table M_Header M_Load
  M_Stream M_Tree M_Open M_Item L_Stream L_Stream2 L_Stream3 L_Load L_Load2 L_Header L_Tree L_Tree2 L_Tree3 L_Tree4
  L_Open L_Open2 L_Exact L_Item.
Import ListNotations.
Open Scope Z_scope.

(** * Stream calls *)
Lemma read_step_defined rd v d op cursor :
  volume_ok v -> dirent_ok d -> read_sizes v d op -> fst (item_step rd v d op cursor) <> RUndefined.
Proof.
  intros Hv Hd Hop. destruct op as [size|offset size|offset whence|]; cbn [item_step].
  - destruct Hop as [Hs Hop]. pose proof (read_buffer_defined rd v d cursor size size [] Hv Hd ltac:(lia) Hop) as H.
    destruct (stream_read_buffer rd v d cursor size size []) as [[[data c]| | |] t]; cbn in *; try discriminate; contradiction.
  - destruct Hop as [Hs Hop]. unfold stream_read_at.
    assert (Hseek : stream_seek_offset d cursor offset SEEK_SET = Err \/ exists c, stream_seek_offset d cursor offset SEEK_SET = Ok c).
    { unfold stream_seek_offset. destruct (negb _); auto. destruct (cursor <? 0); auto. cbn. destruct (offset <? 0); eauto. }
    destruct Hseek as [->|(c & ->)]; [discriminate|].
    pose proof (read_buffer_defined rd v d c size size [] Hv Hd ltac:(lia) Hop) as H.
    destruct (stream_read_buffer rd v d c size size []) as [[[data c']| | |] t]; cbn in *; try discriminate; contradiction.
  - contradiction.
  - unfold stream_get_offset. destruct (negb _); discriminate.
Qed.

Lemma session_defined v d : volume_ok v -> dirent_ok d -> forall h cursor k rd op,
  nth_error h k = Some (rd, op) -> read_sizes v d op ->
  exists r, nth_error (fst (item_run v d h cursor)) k = Some r /\ r <> RUndefined.
Proof.
  intros Hv Hd. induction h as [|[rd0 op0] h IH]; intros cursor k rd op Hk Hop; [destruct k; discriminate|].
  cbn [item_run]. destruct (item_step rd0 v d op0 cursor) as [r c1] eqn:E1.
  destruct (item_run v d h c1) as [rs c2] eqn:E2. cbn [fst].
  destruct k as [|k]; cbn [nth_error] in *.
  - injection Hk as -> ->. exists r. split; auto. pose proof (read_step_defined rd v d op cursor Hv Hd Hop) as H.
    now rewrite E1 in H.
  - specialize (IH c1 k rd op Hk Hop). now rewrite E2 in IH.
Qed.

(** * The tree of an opened file *)
Section Opened.
  Variable u : una.
  Variable rd : reader.
  Hypothesis Hu : una_ok u.
  Hypothesis HB : io_bytes rd.
  Variable o : opened.
  Variable t : trace.
  Hypothesis HO : open_read u rd [] = (Ok o, t).
  Let e := fh_byte_order (o_header o).

  Lemma opened_made tr : o_tree o = Some tr -> exists root, tree_made u e (o_entries o) root tr.
  Proof.
    intros Ht. destruct (opened_entries u rd Hu HB o t HO) as (He & _).
    pose proof (opened_tree u rd Hu HB o t HO) as Hc. rewrite Ht in Hc.
    exact (create_tree_made u e _ _ Hu He Hc).
  Qed.

  Lemma opened_root tr : o_tree o = Some tr ->
    exists root, first_root (o_entries o) root /\ item_entry tr 0 root /\ tree_made u e (o_entries o) root tr.
  Proof.
    intros Ht. destruct (opened_made tr Ht) as (root & HM). exists root. split.
    - apply find_root_first. apply HM.
    - split; auto. eapply made_root; eauto.
  Qed.

  Lemma opened_root_unique tr root root' : o_tree o = Some tr ->
    first_root (o_entries o) root -> tree_made u e (o_entries o) root' tr -> root' = root.
  Proof.
    intros Ht Hr HM. apply find_root_first in Hr. destruct HM as (H & _). congruence.
  Qed.

  Lemma opened_subs_valid tr k nd : o_tree o = Some tr -> nth_error (tr_nodes tr) k = Some nd ->
    Forall (fun j => exists d, item_entry tr j d) (n_subs nd).
  Proof.
    intros Ht Hn. destruct (opened_made tr Ht) as (root & HM).
    destruct (opened_entries u rd Hu HB o t HO) as (He & _).
    destruct (made_sorted u e (o_entries o) root tr HM k nd Hn) as (ds & HF & _).
    clear - HF. induction HF; constructor; eauto.
  Qed.

  (** The lookup by name on an item. *)
  Lemma lookup_cases tr k d compare : o_tree o = Some tr -> item_entry tr k d ->
    (forall n, defined (compare n)) ->
    exists subs, sub_nodes tr k = Ok subs /\ (forall j, In j subs <-> item_sub tr k j) /\
    let r := rbind (sub_nodes tr k) (sub_node_loop tr compare) in
    ((r = Ok None /\ Forall (name_differs compare tr) subs) \/
     (exists pre j post, subs = pre ++ j :: post /\ Forall (name_differs compare tr) pre /\
       ((name_equals compare tr j /\ r = Ok (Some j)) \/ (name_fails compare tr j /\ r = Err)))).
  Proof.
    intros Ht (nd & Hn & Hd) Hc. exists (n_subs nd). unfold sub_nodes. rewrite Hn. split; auto.
    split.
    { intros j. unfold item_sub. split; [eauto|]. intros (n & Hn' & Hj). congruence. }
    cbn [rbind]. apply sub_node_loop_cases; auto. eapply opened_subs_valid; eauto.
  Qed.

  Definition valid_item (tr : tree) (k : nat) : Prop := exists d, item_entry tr k d.

  Lemma by_name_defined tr k compare : o_tree o = Some tr -> valid_item tr k ->
    (forall n, defined (compare n)) ->
    defined (rbind (sub_nodes tr k) (sub_node_loop tr compare)) /\
    forall j, rbind (sub_nodes tr k) (sub_node_loop tr compare) = Ok (Some j) -> valid_item tr j.
  Proof.
    intros Ht (d & Hk) Hc.
    destruct (lookup_cases tr k d compare Ht Hk Hc) as (subs & _ & _ & [[-> _]|(pre & j & post & _ & _ & [[He ->]|[_ ->]])]).
    - split; [exact I|discriminate].
    - split; [exact I|]. intros j' [= <-]. destruct He as (x & Hx & _). exists x; auto.
    - split; [exact I|discriminate].
  Qed.

  Lemma utf8_path_defined tr k s : o_tree o = Some tr -> valid_item tr k -> char_ok (una_utf8_char u) ->
    defined (sub_item_by_utf8_path u e tr k s) /\
    forall j, sub_item_by_utf8_path u e tr k s = Ok (Some j) -> valid_item tr j.
  Proof.
    intros Ht Hk Hc. apply (sub_item_by_path_defined (valid_item tr)); auto.
    intros k' n Hk'. apply by_name_defined; auto. intros; apply (uo_utf8 u Hu).
  Qed.
  Lemma utf16_path_defined tr k s : o_tree o = Some tr -> valid_item tr k -> char_ok (una_utf16_char u) ->
    defined (sub_item_by_utf16_path u e tr k s) /\
    forall j, sub_item_by_utf16_path u e tr k s = Ok (Some j) -> valid_item tr j.
  Proof.
    intros Ht Hk Hc. apply (sub_item_by_path_defined (valid_item tr)); auto.
    intros k' n Hk'. apply by_name_defined; auto. intros; apply (uo_utf16 u Hu).
  Qed.
End Opened.
