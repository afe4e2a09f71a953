(** Lemmas on olecfinfo: what was printed stays printed, whatever is refused. *)
From Coq Require Import String ZArith List Bool Lia.
From Verif Require Import Base Spec_IO M_Table M_Header M_Load M_Stream M_Tree M_Open M_Item M_Mount M_File
  M_Prop M_PyProp M_Info M_Mem M_PropMem M_InfoTool L_Base L_InfoTool.
Import ListNotations.
Open Scope Z_scope.

Definition qgrows {A} (f : im A) : Prop := forall s, exists more, i_out (snd (f s)) = i_out s ++ more.

Lemma qgrows_same {A} (f : im A) : (forall s, i_out (snd (f s)) = i_out s) -> qgrows f.
Proof. intros H s. exists []. now rewrite H, app_nil_r. Qed.
Lemma qgrows_lift {A} (r : res A) : qgrows (qlift r).
Proof. apply qgrows_same. reflexivity. Qed.
Lemma qgrows_ret {A} (a : A) : qgrows (qret a).
Proof. apply qgrows_same. reflexivity. Qed.
Lemma qgrows_memory {A} (m : mm A) : qgrows (in_memory m).
Proof. apply qgrows_same. intros s. unfold in_memory. now destruct (m (i_mem s)). Qed.
Lemma qgrows_bind {A B} (f : im A) (k : A -> im B) : qgrows f -> (forall a, qgrows (k a)) -> qgrows (qbind f k).
Proof.
  intros H K s. unfold qbind. destruct (H s) as (m & Hm). destruct (f s) as [[a| | |] s1]; cbn [snd] in *; eauto.
  destruct (K a s1) as (m2 & Hm2). exists (m ++ m2). now rewrite Hm2, Hm, app_assoc.
Qed.
Lemma qgrows_shown {A} (g : pio A) : grows g -> qgrows (shown g).
Proof.
  intros G s. unfold shown. destruct (G {| p_out := i_out s; p_trace := m_trace (i_mem s) |}) as (m & Hm).
  destruct (g _) as [r p]. exists m. exact Hm.
Qed.
Lemma qgrows_print l : qgrows (shown (print l)).
Proof. apply qgrows_shown, grows_print. Qed.
Lemma qgrows_take mem : qgrows (take mem).
Proof. apply qgrows_bind; [apply qgrows_memory|]. intros [p|]; [apply qgrows_ret|apply qgrows_lift]. Qed.
Lemma qgrows_holding {A} ps (f : im A) : qgrows f -> qgrows (holding ps f).
Proof.
  intros H s. unfold holding. destruct (H s) as (m & Hm). destruct (f s) as [[a| | |] s1]; cbn [snd] in *; eauto.
  - assert (G : qgrows (dq _ <- in_memory (release_all ps); qret a)) by (apply qgrows_bind; [apply qgrows_memory|intros _; apply qgrows_ret]).
    destruct (G s1) as (m2 & Hm2). exists (m ++ m2). now rewrite Hm2, Hm, app_assoc.
  - assert (G : qgrows (dq _ <- in_memory (release_all ps); @qlift A Err)) by (apply qgrows_bind; [apply qgrows_memory|intros _; apply qgrows_lift]).
    destruct (G s1) as (m2 & Hm2). exists (m ++ m2). now rewrite Hm2, Hm, app_assoc.
Qed.
Lemma qgrows_block {A} mem (f : im A) : qgrows f -> qgrows (with_block mem f).
Proof. intros H. apply qgrows_bind; [apply qgrows_take|]. intros p. now apply qgrows_holding. Qed.

Ltac qg := repeat (try assumption; lazymatch goal with
  | |- qgrows (shown (print _)) => apply qgrows_print
  | |- qgrows (qlift _) => apply qgrows_lift
  | |- qgrows (qret _) => apply qgrows_ret
  | |- qgrows (in_memory _) => apply qgrows_memory
  | |- qgrows (take _) => apply qgrows_take
  | |- qgrows (with_block _ _) => apply qgrows_block
  | |- qgrows (holding _ _) => apply qgrows_holding
  | |- qgrows (qbind _ _) => apply qgrows_bind; [|intros ?]
  end).

Section Info.
Variables (mem : memory) (lib : infolib) (u : una) (rd : reader).

Lemma qgrows_root o : qgrows (root_item mem o).
Proof.
  intros s. unfold root_item. destruct (i_root s) as [[k p]|]; [exists []; now rewrite app_nil_r|].
  match goal with |- exists more, i_out (snd (?f s)) = _ => assert (G : qgrows f); [|exact (G s)] end.
  qg. destruct a as [k|]; qg. apply qgrows_same. reflexivity.
Qed.

Lemma qgrows_sub_items k t one : (forall j, qgrows (one j)) -> forall n i, qgrows (q_sub_items_fprint mem k t one n i).
Proof. intros H. induction n as [|n IH]; intros i; cbn [q_sub_items_fprint]; qg; auto. Qed.

Lemma qgrows_item fuel : forall e t k level, qgrows (q_item_fprint mem lib fuel e t k level).
Proof.
  induction fuel as [|fuel IH]; intros e t k level; cbn [q_item_fprint]; qg.
  - apply qgrows_shown, grows_name.
  - apply qgrows_sub_items. intros j. apply IH.
Qed.

Lemma qgrows_items e o : qgrows (q_items_fprint mem lib e o).
Proof.
  unfold q_items_fprint. qg; [apply qgrows_root|]. destruct a as [k|]; [destruct o as [t|]|]; qg. apply qgrows_item.
Qed.

Lemma qgrows_value_data p : qgrows (q_value_data_fprint mem lib p).
Proof.
  pose proof (proj1 (follows_value_data None mem lib p)) as G. unfold q_value_data_fprint.
  destruct ((pv_type p =? 0x1e) || (pv_type p =? 0x1f)).
  - qg. destruct (SSIZE_MAX <? a); qg. apply qgrows_shown, grows_string.
  - destruct (pv_type p =? 0x40); [qg; apply qgrows_shown, grows_string|]. now apply qgrows_shown.
Qed.

Lemma qgrows_value class p : qgrows (q_value_fprint mem lib class p).
Proof.
  unfold q_value_fprint. cbv zeta. qg; try apply qgrows_value_data;
    destruct (identifier_name class (pv_type p) (pv_id p)); first [apply qgrows_print|apply qgrows_shown, grows_ret].
Qed.

Lemma qgrows_class class : qgrows (q_class_fprint mem lib class).
Proof. apply qgrows_block, qgrows_shown. exact (proj1 (follows_class None mem lib class)). Qed.

Lemma qgrows_parts {A} label (get : Z -> res A) one : (forall x, qgrows (one x)) -> forall n i, qgrows (q_parts_fprint label get one n i).
Proof. intros H. induction n as [|n IH]; intros i; cbn [q_parts_fprint]; qg; auto. Qed.

Lemma qgrows_section x : qgrows (q_section_fprint mem lib x).
Proof. unfold q_section_fprint. cbv zeta. qg; [apply qgrows_class|]. apply qgrows_parts. intros y. apply qgrows_value. Qed.

Lemma qgrows_set x : qgrows (q_set_fprint mem lib x).
Proof. unfold q_set_fprint. cbv zeta. qg; [apply qgrows_class|]. apply qgrows_parts. intros y. apply qgrows_section. Qed.

Lemma qgrows_information name heading v o cp : qgrows (q_information_fprint mem lib u rd name heading v o cp).
Proof.
  unfold q_information_fprint. qg; [apply qgrows_root|]. destruct a as [k|]; [|apply qgrows_ret].
  destruct o as [t|]; [|apply qgrows_lift]. destruct v as [v|]; [|apply qgrows_lift]. qg. destruct a as [j|]; [|apply qgrows_ret]. qg.
  unfold q_set_stream_fprint. qg. match goal with r : option (mset * Z) |- _ => destruct r as [[x c]|] end; qg. apply qgrows_set.
Qed.
End Info.

Lemma qgrows_turn l : Forall (fun x => qgrows (fst x)) l -> qgrows (in_turn l).
Proof.
  induction 1 as [|[m x] l H _ IH]; cbn [in_turn]; [apply qgrows_ret|]. intros s. destruct (H s) as (a & Ha). cbn [fst] in Ha.
  destruct (m s) as [[[]| | |] s1]; cbn [snd] in *; eauto.
  destruct (IH s1) as (b & Hb). exists (a ++ b). now rewrite Hb, Ha, app_assoc.
Qed.
