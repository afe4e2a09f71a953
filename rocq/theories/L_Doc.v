(** Lemmas on files that hold a document: items by their names. *)
From Coq Require Import ZArith List Bool Lia.
From Verif Require Import Base Spec_IO M_Header M_Table M_Load M_Stream M_Tree M_Open M_Item
  Spec_Stream Spec_Load Spec_Tree Spec_Open Spec_Content Spec_Item Spec_Write L_Base L_Open2 L_Tree3 L_Item L_Write3 L_Write4 L_Write5 L_Write6 L_Write7
  P_Tree Spec_Stores L_Stores L_Stores2 Spec_Doc.
Import ListNotations.
Open Scope Z_scope.

(** * Names *)
Lemma names_members P fo : names_ok P fo -> Forall (fun i => P (name_of i)) (members fo).
Proof.
  induction fo as [|n c m s r IH|n c m a _ r IH]; cbn [names_ok members]; intros H; [constructor| |].
  - destruct H as (H1 & H2). constructor; [exact H1|auto].
  - destruct H as (H1 & _ & H2). constructor; [exact H1|auto].
Qed.

Lemma names_below doc P fo i : names_ok P fo -> In i (members fo) -> names_ok P (below doc (At i)).
Proof.
  induction fo as [|n c m s r IH|n c m a _ r IH]; cbn [names_ok members]; intros H Hi.
  - destruct Hi.
  - destruct H as (_ & H2). destruct Hi as [<-|Hi]; [exact I|auto].
  - destruct H as (_ & H1 & H2). destruct Hi as [<-|Hi]; [exact H1|auto].
Qed.

Section Items.
Variable rd : reader.
Variable v : volume.
Variable t : tree.
Variable doc : document.
(* entries other than streams and the root have no data *)
Hypothesis no_data : forall k nd, nth_error (tr_nodes t) k = Some nd -> de_type (n_entry nd) = 1 -> de_size (n_entry nd) = 0.

(** The items that are shown, one by one. *)
Lemma shows_members js fo : shows rd v t js fo -> Forall2 (fun j i => item_at rd v t doc (At i) j) js (members fo).
Proof.
  induction 1 as [|j js nd n c m s r H1 H2 H3 H4 H5 H6 H7 H8 IH|j js nd n c m a r H1 H2 _ H3 H4 H5 H6 H7 IH]; cbn [members].
  - constructor.
  - constructor; [|exact IH]. exists nd. split; [exact H1|]. cbn [entry_of below]. rewrite H2.
    split; [|split; [constructor|exact H7]]. destruct H7 as (_ & _ & _ & _ & _ & f & _ & _ & _ & Hl & _). auto.
  - constructor; [|exact IH]. exists nd. split; [exact H1|]. cbn [entry_of below]. eauto 10.
Qed.

Lemma item_at_name i j : item_at rd v t doc (At i) j -> exists d, node_value t j = Ok d /\ de_name d = name_of i.
Proof.
  intros (nd & H1 & H2 & _). exists (n_entry nd). unfold node_value. rewrite H1. split; [reflexivity|].
  destruct i; cbn [entry_of name_of] in *; tauto.
Qed.

Lemma loop_finds compare (is : list Z -> bool) js l :
  Forall2 (fun j i => item_at rd v t doc (At i) j) js l -> Forall (fun i => compare (name_of i) = Ok (is (name_of i))) l ->
  match find (fun i => is (name_of i)) l with
  | Some i => exists j, sub_node_loop t compare js = Ok (Some j) /\ item_at rd v t doc (At i) j
  | None => sub_node_loop t compare js = Ok None
  end.
Proof.
  induction 1 as [|j i js l H1 H2 IH]; intros HF; cbn [find sub_node_loop]; [reflexivity|].
  inversion HF as [|? ? HF1 HF2]; subst. destruct (item_at_name i j H1) as (d & -> & E). cbn [rbind]. rewrite E, HF1. cbn [rbind].
  destruct (is (name_of i)); [eauto|exact (IH HF2)].
Qed.

Lemma lookup_reached (compare : list Z -> list Z -> res bool) same names :
  forall p k, item_at rd v t doc p k ->
  names_ok (fun n => forall q, In q names -> compare q n = Ok (same q n)) (below doc p) ->
  answer rd v t doc (reached doc same p names)
    (lookup_names (fun k q => do subs <- sub_nodes t k; sub_node_loop t (compare q) subs) k names).
Proof.
  induction names as [|q names IH]; intros p k HI HN; cbn [reached lookup_names].
  - exists k. auto.
  - pose proof HI as (nd & H1 & _ & H3 & _). unfold sub_nodes at 1. rewrite H1. cbn [rbind].
    pose proof (loop_finds (compare q) (same q) _ _ (shows_members _ _ H3)) as HL.
    assert (HF : Forall (fun i => compare q (name_of i) = Ok (same q (name_of i))) (members (below doc p))).
    { eapply Forall_impl; [|apply names_members; exact HN]. cbn beta. intros i Hi. apply Hi. now left. }
    specialize (HL HF). destruct (find _ _) as [i|] eqn:E.
    + destruct HL as (j & -> & Hj). apply IH; [exact Hj|].
      apply find_some in E as (E & _). pose proof (names_below doc _ _ i HN E) as HB.
      revert HB. generalize (below doc (At i)). intros fo. induction fo as [|? ? ? ? r IHr|? ? ? a IHa r IHr]; cbn [names_ok]; intros HB; [exact I| |].
      * destruct HB as (B1 & B2). split; [|auto]. intros q' Hq. apply B1. now right.
      * destruct HB as (B1 & B2 & B3). split; [|auto]. intros q' Hq. apply B1. now right.
    + rewrite HL. reflexivity.
Qed.
End Items.

Lemma reached_names doc same P names : forall p p', names_ok P (below doc p) -> reached doc same p names = Some p' ->
  names_ok P (below doc p').
Proof.
  induction names as [|q names IH]; intros p p' HP HR; cbn [reached] in HR.
  - assert (p' = p) by congruence. now subst.
  - destruct (find _ _) as [i|] eqn:E; [|discriminate HR]. apply find_some in E as (E & _).
    eapply IH; [|exact HR]. eapply names_below; eauto.
Qed.

Lemma members_streams doc fo i : In i (members fo) ->
  incl (streams (below doc (At i))) (streams fo) /\ forall n c m s, i = Stream n c m s -> In s (streams fo).
Proof.
  induction fo as [|n c m s r IH|n c m a _ r IH]; cbn [members streams]; intros Hi.
  - destruct Hi.
  - destruct Hi as [<-|Hi].
    + split; [intros x []|]. intros n' c' m' s' E. left. congruence.
    + destruct (IH Hi) as (I1 & I2). split; [intros x Hx; right; auto|]. intros. right. eauto.
  - destruct Hi as [<-|Hi].
    + split; [intros x Hx; apply in_or_app; now left|]. intros. discriminate.
    + destruct (IH Hi) as (I1 & I2). split; [intros x Hx; apply in_or_app; right; auto|]. intros. apply in_or_app. right. eauto.
Qed.

Lemma reached_stream_from doc same names : forall p n c m s, reached doc same p names = Some (At (Stream n c m s)) -> names <> [] ->
  In s (streams (below doc p)).
Proof.
  induction names as [|q names IH]; intros p n c m s HR Hne; cbn [reached] in HR; [congruence|].
  destruct (find _ _) as [i|] eqn:E; [|discriminate HR]. apply find_some in E as (E & _).
  destruct (members_streams doc _ i E) as (I1 & I2). destruct names as [|q' names].
  - cbn [reached] in HR. apply (I2 n c m s). congruence.
  - apply I1. eapply IH; [exact HR|discriminate].
Qed.

Lemma reached_stream doc same names n c m s : reached doc same Top names = Some (At (Stream n c m s)) ->
  In s (streams (doc_items doc)).
Proof. intros H. eapply (reached_stream_from doc same names Top); eauto. intros ->. discriminate H. Qed.

(** * Opening *)
Lemma holds_opens u rd h root doc : holds u rd h root doc ->
  exists o t tr, open_read u rd [] = (Ok o, t) /\ o_tree o = Some tr /\ o_header o = h /\
    item_at rd (opened_volume o) tr doc Top 0 /\
    (forall k nd, nth_error (tr_nodes tr) k = Some nd -> de_type (n_entry nd) = 1 -> de_size (n_entry nd) = 0) /\
    item_entry tr 0 root.
Proof.
  intros [Hu HB (f & HF & HS & HT) HE].
  destruct (stored_opens u rd f Hu HB HS HT h root doc HF) as (o & t & H1 & H2 & _ & _ & H4 & H5).
  destruct (o_tree o) as [tr|] eqn:Et; [|now elim HE; apply H4].
  destruct (H5 tr eq_refl) as (nd & E1 & E2 & E3 & E4). destruct (stores_root _ _ _ _ _ HF) as (R1 & R2 & R3 & R4 & _).
  exists o, t, tr. split; [exact H1|]. split; [exact Et|]. split; [exact H2|]. split; [|split; [exact E3|exists nd; auto]].
  exists nd. cbn [entry_of below]. rewrite E2. auto 10.
Qed.

Lemma holds_sector u rd h root doc : holds u rd h root doc -> 4 <= fh_sector_size h.
Proof.
  intros HH. destruct (holds_opens _ _ _ _ _ HH) as (o & t & tr & H1 & _ & <- & _).
  destruct (opened_header u rd (hd_una _ _ _ _ _ HH) (hd_bytes _ _ _ _ _ HH) o t H1) as (_ & Hs & _). lia.
Qed.

(** The files of the writer. *)
Lemma written_holds u rd fm doc : una_ok u -> writable fm doc -> comparable u (fm_order fm) (doc_name doc) ->
  names_ok (comparable u (fm_order fm)) (doc_items doc) -> io_bytes rd -> io_sound rd (write fm doc) -> io_total rd (write fm doc) ->
  doc_items doc <> Empty -> holds u rd (w_h fm doc) (w_root fm doc) doc.
Proof. intros Hu W HC HCs HB HS HT HE. constructor; auto. exists (write fm doc). split; [now apply written_stored|auto]. Qed.

Lemma path_size char names : Forall (is_name char) names -> names <> [] -> zlen (92 :: join names) < 18446744073709551616 ->
  2 <= zlen ([92] ++ join names ++ []) < 18446744073709551616.
Proof.
  intros HN Hne Hs. rewrite app_nil_r. change ([92] ++ join names) with (92 :: join names). split; [|exact Hs]. rewrite zlen_cons.
  destruct names as [|q names]; [congruence|]. assert (Hq : q <> []) by (inversion HN as [|? ? (_ & H) _]; exact H).
  assert (1 <= zlen (join (q :: names))); [|lia]. destruct q as [|x q]; [congruence|].
  destruct names; cbn [join app]; rewrite zlen_cons; match goal with |- context [zlen ?l] => pose proof (zlen_nonneg l) end; lia.
Qed.
