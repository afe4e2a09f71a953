(** Concrete exports. *)
From Coq Require Import ZArith List Bool Lia Arith.
From Verif Require Import Base Spec_IO L_Base M_Table M_Load M_Stream M_Tree M_Open M_Item M_Mount M_Export
  Spec_Stream Spec_Content Spec_Tree Spec_Export L_Stream L_Open L_Open2 L_Export L_Export2 L_Export3
  X_Stream X_File X_Content.
Import ListNotations.
Open Scope Z_scope.

(** Names are ASCII; a separator becomes an underscore.  No call fails. *)
Definition xe_name (l : list Z) (e : endian) : option (list Z) := Some (xf_strip (xf_units e l)).
Definition xe_sanitize (l : list Z) : option (list Z) :=
  Some (map (fun c => if c =? 47 then 95 else c) l).
Definition xe_host (fault : nat -> option Z) : host :=
  {| ho_name := xe_name; ho_sanitize := xe_sanitize; ho_fault := fault |}.
Definition xe_fine : host := xe_host (fun _ => None).

Lemma xe_safe fault e d :
  safe_name (xe_host fault) e d
    (map (fun c => if c =? 47 then 95 else c) (xf_strip (xf_units e (de_name d)))).
Proof. eexists. split; reflexivity. Qed.

(** Deciding that a tree can be exported. *)
Definition the_name (e : endian) (d : dirent) : list Z :=
  map (fun c => if c =? 47 then 95 else c) (xf_strip (xf_units e (de_name d))).

Fixpoint distinct (l : list (list Z)) : bool :=
  match l with
  | [] => true
  | x :: r => negb (existsb (fun y => if list_eq_dec Z.eq_dec x y then true else false) r) && distinct r
  end.

Definition reserved (n : list Z) : bool :=
  existsb (fun y => if list_eq_dec Z.eq_dec n y then true else false)
    [[46]; [46; 46]; [83; 116; 114; 101; 97; 109; 68; 97; 116; 97; 46; 98; 105; 110]].

Definition names_of (e : endian) (t : tree) (subs : list nat) : list (list Z) :=
  map (fun j => match nth_error (tr_nodes t) j with Some n => the_name e (n_entry n) | None => [] end) subs.

Definition names_c (e : endian) (t : tree) : bool :=
  forallb (fun n => negb (reserved (the_name e (n_entry n)))) (tr_nodes t) &&
  forallb (fun n => distinct (names_of e t (n_subs n))) (tr_nodes t).

Definition exportable_c (f : list Z) (v : volume) (t : tree) : bool :=
  names_c (v_byte_order v) t &&
  forallb (fun n => (de_size (n_entry n) =? 0) || readable_c f v (n_entry n)) (tl (tr_nodes t)).

Lemma the_name_only fault e d n : safe_name (xe_host fault) e d n -> n = the_name e d.
Proof. intros (raw & H1 & H2). injection H1 as <-. injection H2 as <-. reflexivity. Qed.

Lemma the_name_plain e d : ~ In 47 (the_name e d).
Proof.
  unfold the_name. rewrite in_map_iff. intros (c & H & _). destruct (c =? 47) eqn:E; lia.
Qed.

Lemma distinct_nth l : distinct l = true -> forall i j x, nth_error l i = Some x -> nth_error l j = Some x -> i = j.
Proof.
  induction l as [|a l IH]; intros H i j x Hi Hj; [destruct i; discriminate|].
  cbn [distinct] in H. apply andb_true_iff in H as [H1 H2].
  assert (Hno : forall m, nth_error l m <> Some a).
  { intros m Hm. apply negb_true_iff in H1. assert (existsb (fun y => if list_eq_dec Z.eq_dec a y then true else false) l = true).
    { apply existsb_exists. exists a. split; [eapply nth_error_In; eauto|].
      destruct (list_eq_dec Z.eq_dec a a); congruence. } congruence. }
  destruct i, j; cbn in *; auto.
  - injection Hi as ->. destruct (Hno _ Hj).
  - injection Hj as ->. destruct (Hno _ Hi).
  - f_equal. eauto.
Qed.

Lemma names_c_plain fault e t : names_c e t = true ->
  forall k j d n, item_sub t k j -> item_entry t j d -> safe_name (xe_host fault) e d n ->
  ~ In 47 n /\
  ~ In n [[46]; [46; 46]; [83; 116; 114; 101; 97; 109; 68; 97; 116; 97; 46; 98; 105; 110]].
Proof.
  intros H k j d n Hs (nd & Hnd & <-) Hn. apply the_name_only in Hn. subst n.
  split; [apply the_name_plain|]. apply andb_true_iff in H as [H _]. rewrite forallb_forall in H.
  specialize (H nd (nth_error_In _ _ Hnd)). apply negb_true_iff in H. intros Hin.
  assert (reserved (the_name e (n_entry nd)) = true); [|congruence].
  apply existsb_exists. eexists. split; [exact Hin|]. destruct (list_eq_dec _ _ _); congruence.
Qed.

Lemma names_c_unique fault e t : names_c e t = true ->
  forall k i j d d' n, item_sub t k i -> item_sub t k j -> item_entry t i d -> item_entry t j d' ->
  safe_name (xe_host fault) e d n -> safe_name (xe_host fault) e d' n -> i = j.
Proof.
  intros H k i j d d' n (nk & Hk & Hi) (nk' & Hk' & Hj) (ni & Hni & <-) (nj & Hnj & <-) H1 H2.
  apply the_name_only in H1. apply the_name_only in H2. rewrite Hk in Hk'. injection Hk' as <-.
  apply andb_true_iff in H as [_ H]. rewrite forallb_forall in H.
  specialize (H nk (nth_error_In _ _ Hk)).
  apply In_nth_error in Hi as (a & Ha). apply In_nth_error in Hj as (b & Hb).
  assert (a = b); [|congruence].
  apply (distinct_nth _ H a b n).
  - unfold names_of. rewrite nth_error_map, Ha. cbn. now rewrite Hni, <- H1.
  - unfold names_of. rewrite nth_error_map, Hb. cbn. now rewrite Hnj, <- H2.
Qed.

Lemma exportable_c_ok f v t : Forall is_byte f -> volume_ok v ->
  (forall k d, item_entry t k d -> dirent_ok d) -> tree_shape t ->
  exportable_c f v t = true -> exportable xe_fine (file_reader f) v t.
Proof.
  intros HB HV HD HT H. apply andb_true_iff in H as [H1 H2].
  split; [exact HT|]. split.
  - intros k j d Hs Hd. split.
    + exists (the_name (v_byte_order v) d). split; [apply xe_safe|].
      exact (names_c_plain (fun _ => None) _ _ H1 k j d _ Hs Hd (xe_safe _ _ _)).
    + rewrite forallb_forall in H2. pose proof (ts_later _ HT _ _ Hs) as Hlt.
      pose proof (HD _ _ Hd) as Hok. destruct Hd as (nd & Hnd & Hdn).
      assert (Hin : In nd (tl (tr_nodes t))).
      { destruct (tr_nodes t) as [|n0 l]; [destruct j; discriminate|]. destruct j as [|j]; [lia|].
        cbn in *. eapply nth_error_In; eauto. }
      specialize (H2 nd Hin). rewrite Hdn in H2. apply orb_true_iff in H2 as [H2|H2]; [left; lia|]. right.
      pose proof H2 as H3. unfold readable_c in H3. destruct (stream_bytes_c f v d) as [s|] eqn:E; [|discriminate].
      exists s. eapply readable_c_ok; eauto.
  - exact (names_c_unique (fun _ => None) _ _ H1).
Qed.

(** The state before the export: an empty disk. *)
Definition xe_start : xstate := {| x_disk := []; x_calls := 0; x_trace := [] |}.

(** "/o" and "x": the export directory. *)
Definition xe_dir : list Z := [47; 111].
Definition xe_leaf : list Z := [120].

(** What [export_file] makes of the file of X_File and of a file with other
    slots. *)
Definition xe_export (ho : host) (f : list Z) : option (res unit * disk) :=
  match open_read xf_una (file_reader f) [] with
  | (Ok o, _) =>
      let (r, w) := export_file ho (file_reader f) (opened_volume o) (o_tree o) xe_dir xe_leaf xe_start in
      Some (r, x_disk w)
  | _ => None
  end.
