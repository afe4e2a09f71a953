(** Lemmas on whole runs of olecfexport. *)
From Coq Require Import String ZArith List Bool Lia.
From Verif Require Import Base Spec_IO M_Table M_Load M_Stream M_Tree M_Open M_Item M_Mount Spec_Stream Spec_Content
  Spec_Tree M_Export Spec_Export M_Getopt Spec_Getopt M_ExportTool Spec_ExportTool L_Base L_Free L_Export L_Export2.
Import ListNotations.
Open Scope Z_scope.

Definition rest_of {A} (x : res A * xstate * list log_line) : xstate := snd (fst x).

Lemma quiet_fst {A} (m : xio A) w : fst (quiet m w) = m w.
Proof. reflexivity. Qed.

Lemma lbind_fst {A B} (m : lio A) (k : A -> lio B) (m' : xio A) (k' : A -> xio B) w :
  fst (m w) = m' w -> (forall a w1, fst (k a w1) = k' a w1) -> fst (lbind m k w) = xbind m' k' w.
Proof.
  intros H1 H2. unfold lbind, xbind. rewrite <- H1. destruct (m w) as [[r w1] l]. cbn [fst].
  destruct r as [a| | |]; try reflexivity. rewrite <- H2. destruct (k a w1). reflexivity.
Qed.

Lemma say_fst {B} x (k : unit -> lio B) w : fst (lbind (say x) k w) = fst (k tt w).
Proof. unfold lbind, say. destruct (k tt w). reflexivity. Qed.

Section Same.
Variables (ho : host) (rd : reader) (v : volume) (t : tree).

Lemma choose_name_same d index dir w : fst (choose_name_log ho v d index dir w) = choose_name ho v d index dir w.
Proof.
  unfold choose_name_log, choose_name. destruct (ho_name _ _ _) as [raw|]; [|reflexivity].
  destruct (ho_sanitize ho raw) as [name|]; [|reflexivity].
  apply lbind_fst; [reflexivity|]. intros [|] w1; [|reflexivity].
  unfold lbind, quiet, xlift, say, xret. destruct (item_name_again _ _); reflexivity.
Qed.

Lemma loop_same one one' dir : (forall k index w, fst (one k index dir w) = one' k index dir w) ->
  forall subs index w, fst (sub_items_loop_log one index subs dir w) = sub_items_loop one' index subs dir w.
Proof.
  intros H. induction subs as [|k subs IH]; intros index w; [reflexivity|].
  cbn [sub_items_loop_log sub_items_loop]. rewrite <- H. destruct (one k index dir w) as [[r w1] l]. cbn [fst].
  destruct r; try reflexivity; rewrite <- IH; destruct (sub_items_loop_log one (index + 1) subs dir w1); reflexivity.
Qed.

Lemma export_item_same : forall fuel k index dir w,
  fst (export_item_log ho rd v t fuel k index dir w) = export_item ho rd v t fuel k index dir w.
Proof.
  induction fuel as [|fuel IH]; intros k index dir w; [reflexivity|].
  rewrite export_item_unfold. cbn [export_item_log].
  apply lbind_fst; [reflexivity|]. intros d w1. rewrite say_fst.
  apply lbind_fst; [apply choose_name_same|]. intros name w2.
  apply lbind_fst; [reflexivity|]. intros u w3. cbv zeta. rewrite say_fst.
  apply lbind_fst; [reflexivity|]. intros [|] w4; [reflexivity|].
  apply lbind_fst; [reflexivity|]. intros u5 w5.
  apply lbind_fst; [reflexivity|]. intros u6 w6.
  apply lbind_fst; [reflexivity|]. intros u7 w7.
  apply lbind_fst; [reflexivity|]. intros subs w8.
  apply loop_same. intros. apply IH.
Qed.

Lemma export_sub_items_same k dir w :
  fst (export_sub_items_log ho rd v t k dir w) = export_sub_items ho rd v t k dir w.
Proof.
  unfold export_sub_items_log, export_sub_items. apply lbind_fst; [reflexivity|]. intros subs w1.
  apply loop_same. intros. apply export_item_same.
Qed.
End Same.

Lemma export_file_same ho rd v o p n w :
  fst (export_file_log ho rd v o p n w) = export_file ho rd v o p n w.
Proof.
  unfold export_file_log, export_file. apply lbind_fst; [reflexivity|]. intros u w1. rewrite say_fst.
  destruct o as [t|]; [apply export_sub_items_same|reflexivity].
Qed.

(** ** The directories in the log *)

Definition tracked (w w' : xstate) (l : list log_line) : Prop :=
  (forall q x, on_disk (x_disk w) q = Some x -> on_disk (x_disk w') q = Some x) /\
  (forall q, In q (created l) <-> on_disk (x_disk w) q = None /\ on_disk (x_disk w') q = Some Directory) /\
  NoDup (created l).

Definition tracks {A} (m : lio A) : Prop := forall w, tracked w (rest_of (m w)) (snd (m w)).

Lemma created_app a b : created (a ++ b) = created a ++ created b.
Proof. apply flat_map_app. Qed.

Lemma tracked_same w w' l : x_disk w' = x_disk w -> created l = [] -> tracked w w' l.
Proof.
  intros H Hl. unfold tracked. rewrite H, Hl. split; [auto|]. split; [|constructor].
  intros q. split; [intros []|]. intros (H1 & H2). congruence.
Qed.

Lemma tracked_trans a b c l l' : tracked a b l -> tracked b c l' -> tracked a c (l ++ l').
Proof.
  intros (A1 & A2 & A3) (B1 & B2 & B3). unfold tracked. rewrite created_app. split; [auto|]. split.
  - intros q. rewrite in_app_iff, A2, B2. split.
    + intros [(H1 & H2)|(H1 & H2)]; [auto|]. split; [|exact H2].
      destruct (on_disk (x_disk a) q) as [x|] eqn:E; [|reflexivity]. apply A1 in E. congruence.
    + intros (H1 & H2). destruct (on_disk (x_disk b) q) as [x|] eqn:E; [|auto].
      left. split; [exact H1|]. rewrite (B1 _ _ E) in H2. congruence.
  - apply L_Free.NoDup_app_intro; auto. intros q H1 H2. apply A2 in H1 as (_ & H1). apply B2 in H2 as (H2 & _). congruence.
Qed.

Lemma lbind_tracked {A B} (m : lio A) (k : A -> lio B) w :
  tracked w (rest_of (m w)) (snd (m w)) ->
  (forall a w1 l, m w = (Ok a, w1, l) -> tracked w1 (rest_of (k a w1)) (snd (k a w1))) ->
  tracked w (rest_of (lbind m k w)) (snd (lbind m k w)).
Proof.
  intros H1 H2. unfold lbind, rest_of in *. destruct (m w) as [[r w1] l]. cbn [fst snd] in *.
  destruct r as [a| | |]; try exact H1. specialize (H2 a w1 l eq_refl).
  destruct (k a w1) as [[r' w2] l']. cbn [fst snd] in *. eapply tracked_trans; eauto.
Qed.

Lemma quiet_tracked {A} (m : xio A) w : x_disk (snd (m w)) = x_disk w ->
  tracked w (rest_of (quiet m w)) (snd (quiet m w)).
Proof. intros H. unfold quiet, rest_of. cbn [fst snd]. apply tracked_same; [exact H|reflexivity]. Qed.

Lemma say_tracked x w : created [x] = [] -> tracked w (rest_of (say x w)) (snd (say x w)).
Proof. intros H. apply tracked_same; [reflexivity|exact H]. Qed.

Lemma loop_tracked one dir : (forall k index w, tracked w (rest_of (one k index dir w)) (snd (one k index dir w))) ->
  forall subs index w, tracked w (rest_of (sub_items_loop_log one index subs dir w))
                                 (snd (sub_items_loop_log one index subs dir w)).
Proof.
  intros H. induction subs as [|k subs IH]; intros index w; cbn [sub_items_loop_log].
  - now apply quiet_tracked.
  - specialize (H k index w). unfold rest_of in *. destruct (one k index dir w) as [[r w1] l]. cbn [fst snd] in H.
    destruct r as [u| | |]; try exact H; specialize (IH (index + 1) w1);
      destruct (sub_items_loop_log one (index + 1) subs dir w1) as [[r' w2] l']; cbn [fst snd] in *.
    + eapply tracked_trans; eauto.
    + change (Unable (index + 1) :: l') with ([Unable (index + 1)] ++ l'). rewrite app_assoc.
      eapply tracked_trans; [|exact IH].
      rewrite <- (app_nil_r l). rewrite <- app_assoc.
      eapply tracked_trans; [exact H|]. now apply tracked_same.
Qed.

(** A directory that is made and put in the log. *)
Lemma mkdir_tracked {B} ho dir name (k : lio B) w :
  (forall w1, tracked w1 (rest_of (k w1)) (snd (k w1))) ->
  tracked w (rest_of ((dl _ <- quiet (make_directory ho dir name); dl _ <- say (Created (path_join dir name)); k) w))
            (snd ((dl _ <- quiet (make_directory ho dir name); dl _ <- say (Created (path_join dir name)); k) w)).
Proof.
  intros H. unfold lbind at 1 3. unfold quiet at 1 2.
  destruct (make_directory ho dir name w) as [[u| | |] w1] eqn:E;
    try (apply tracked_same; [|reflexivity]; cbn [rest_of fst snd];
         unfold make_directory, call in E; destruct (ho_fault _ _); [now inversion E|];
         destruct (dot_name name); [now inversion E|]; destruct (on_disk _ _); now inversion E).
  apply make_directory_ok in E as (_ & Hn & Hs). specialize (H w1).
  unfold lbind, say, rest_of in *. destruct (k w1) as [[r w2] l']. cbn [fst snd app] in *.
  change (Created (path_join dir name) :: l') with ([Created (path_join dir name)] ++ l').
  eapply tracked_trans; [|exact H]. unfold tracked. rewrite Hs. split.
  - intros q x Hq. rewrite on_disk_other; [exact Hq|]. intros ->. congruence.
  - split; [|repeat constructor; intros []]. intros q. cbn [created flat_map app In]. rewrite on_disk_cons.
    destruct (list_eq_dec Z.eq_dec q (path_join dir name)) as [->|Hq]; [intuition auto|].
    split; [intros [HH|[]]; congruence|]. intros (H1 & H2). congruence.
Qed.

Section Tracks.
Variables (ho : host) (rd : reader) (v : volume) (t : tree).

Lemma choose_name_log_tracked d index dir w :
  tracked w (rest_of (choose_name_log ho v d index dir w)) (snd (choose_name_log ho v d index dir w)).
Proof.
  apply tracked_same.
  - unfold rest_of. rewrite choose_name_same. apply choose_name_disk.
  - unfold choose_name_log. destruct (ho_name _ _ _) as [raw|]; [|reflexivity].
    destruct (ho_sanitize ho raw) as [name|]; [|reflexivity].
    unfold lbind, quiet, xlift, say, xret. destruct (file_exists ho dir name w) as [[[|]| | |] w1]; try reflexivity.
    destruct (item_name_again _ _); reflexivity.
Qed.

(** The data file. *)
Definition store (d : dirent) (target : list Z) : xio unit :=
  dx _ <- open_write ho target;
  dx _ <- copy_item ho rd v d target;
  close_file ho.

Lemma store_disk d target w : on_disk (x_disk w) target = None ->
  (forall q, q <> target -> on_disk (x_disk (snd (store d target w))) q = on_disk (x_disk w) q) /\
  on_disk (x_disk (snd (store d target w))) target <> Some Directory /\
  (forall u w', store d target w = (Ok u, w') -> exists l, on_disk (x_disk w') target = Some (Data l) /\
     forall s, item_data rd v d s -> l = s).
Proof.
  intros Hn. unfold store.
  destruct (open_write_disk ho target w) as [(u & Ho & Hd)|(Ho & Hd)];
    destruct (open_write ho target w) as [r w1] eqn:E1; cbn [fst snd] in *; subst r.
  2:{ assert (E : store d target w = (Err, w1)) by (unfold store, xbind; now rewrite E1).
      unfold store in E. rewrite E. cbn [snd]. rewrite Hd. split; [auto|]. split; [congruence|].
      intros u' w' H'. discriminate H'. }
  rewrite (xbind_Ok _ _ _ _ _ E1).
  destruct (copy_item_data ho rd v d target w1) as (l & Hl & Hs); [rewrite Hd; apply on_disk_same|].
  assert (Hoth : forall q, q <> target -> on_disk (x_disk (snd (copy_item ho rd v d target w1))) q = on_disk (x_disk w) q).
  { intros q Hq. rewrite copy_item_other by exact Hq. rewrite Hd. now apply on_disk_other. }
  unfold xbind. destruct (copy_item ho rd v d target w1) as [[c| | |] w2] eqn:E2; cbn [fst snd] in *;
    try (split; [exact Hoth|]; split; [congruence|intros u' w' H'; discriminate H']).
  rewrite close_file_disk. split; [exact Hoth|]. split; [congruence|].
  intros u' w' H'. exists l.
  replace (x_disk w') with (x_disk w2); [split; [exact Hl|]|].
  - intros s HI. apply (Hs s HI). destruct c. reflexivity.
  - pose proof (close_file_disk ho w2) as Hc. rewrite H' in Hc. symmetry. exact Hc.
Qed.

Lemma store_tracked d target w : on_disk (x_disk w) target = None ->
  tracked w (rest_of (quiet (store d target) w)) (snd (quiet (store d target) w)).
Proof.
  intros Hn. unfold quiet, rest_of. cbn [fst snd].
  destruct (store_disk d target w Hn) as (H1 & H2 & _).
  set (w1 := snd (store d target w)) in *. split; [|split; [|constructor]].
  - intros q x Hq. rewrite H1; [exact Hq|]. intros ->. congruence.
  - intros q. split; [intros []|]. intros (Ha & Hb).
    destruct (list_eq_dec Z.eq_dec q target) as [->|Hq]; [contradiction|]. rewrite H1 in Hb by exact Hq. congruence.
Qed.

(** The item in the order of its steps. *)
Lemma lbind_assoc_store {B} d target (k : lio B) w :
  (dl _ <- quiet (open_write ho target);
   dl _ <- quiet (if 0 <? de_size d
                  then copy_loop ho rd v (Z.to_nat (de_size d / BUFFER_SIZE) + 2) d target 0 (de_size d)
                  else xret tt);
   dl _ <- quiet (close_file ho); k) w = (dl _ <- quiet (store d target); k) w.
Proof.
  fold (copy_item ho rd v d target). unfold store, lbind, quiet, xbind.
  destruct (open_write ho target w) as [[u| | |] w1]; try reflexivity.
  destruct (copy_item ho rd v d target w1) as [[u1| | |] w2]; try reflexivity.
  destruct (close_file ho w2) as [[u2| | |] w3]; try reflexivity.
  destruct (k w3) as [x l]. reflexivity.
Qed.

Lemma export_item_log_unfold fuel k index dir w :
  export_item_log ho rd v t (S fuel) k index dir w =
  (dl d <- quiet (xlift (node_value t k));
   dl _ <- say (Processing index dir);
   dl name <- choose_name_log ho v d index dir;
   dl _ <- quiet (make_directory ho dir name);
   dl _ <- say (Created (path_join dir name));
   (dl there <- quiet (file_exists ho (path_join dir name) stream_data_name);
     if there then say (Skipping (data_path (path_join dir name)))
     else
       dl _ <- quiet (store d (data_path (path_join dir name)));
       dl subs <- quiet (xlift (sub_nodes t k));
       sub_items_loop_log (export_item_log ho rd v t fuel) 0 subs (path_join dir name))) w.
Proof.
  cbn [export_item_log]. rewrite data_path_join || idtac.
  assert (E : forall {A B} (m : lio A) (k1 k2 : A -> lio B) w, (forall a w1, k1 a w1 = k2 a w1) -> lbind m k1 w = lbind m k2 w).
  { intros A B m k1 k2 w0 H. unfold lbind. destruct (m w0) as [[r w1] l]. destruct r; try reflexivity. now rewrite H. }
  apply E. intros d w1. apply E. intros [] w2. apply E. intros name w3. apply E. intros [] w4. cbv zeta.
  apply E. intros [] w5. apply E. intros [|] w6; [reflexivity|]. rewrite <- lbind_assoc_store. reflexivity.
Qed.

Lemma export_item_tracked : forall fuel k index dir w,
  tracked w (rest_of (export_item_log ho rd v t fuel k index dir w)) (snd (export_item_log ho rd v t fuel k index dir w)).
Proof.
  induction fuel as [|fuel IH]; intros k index dir w; [now apply quiet_tracked|].
  rewrite export_item_log_unfold.
  apply lbind_tracked; [now apply quiet_tracked|]. intros d w1 l1 _.
  apply lbind_tracked; [now apply say_tracked|]. intros u2 w2 l2 _.
  apply lbind_tracked; [apply choose_name_log_tracked|]. intros name w3 l3 _.
  apply mkdir_tracked. intros w4.
  apply lbind_tracked; [apply quiet_tracked; apply file_exists_disk|].
  intros [|] w5 l5 H5; [now apply say_tracked|].
  injection H5 as H5 _. apply file_exists_false in H5 as (_ & Hno & Hx).
  apply lbind_tracked; [apply store_tracked; rewrite Hx; exact Hno|]. intros u6 w6 l6 _.
  apply lbind_tracked; [now apply quiet_tracked|]. intros subs w7 l7 _.
  apply loop_tracked. intros. apply IH.
Qed.

Lemma export_sub_items_tracked k dir w :
  tracked w (rest_of (export_sub_items_log ho rd v t k dir w)) (snd (export_sub_items_log ho rd v t k dir w)).
Proof.
  unfold export_sub_items_log. apply lbind_tracked; [now apply quiet_tracked|]. intros subs w1 l1 _.
  apply loop_tracked. intros. apply export_item_tracked.
Qed.
End Tracks.

Lemma export_file_tracked ho rd v o p n w :
  tracked w (rest_of (export_file_log ho rd v o p n w)) (snd (export_file_log ho rd v o p n w)).
Proof.
  unfold export_file_log.
  apply (mkdir_tracked ho p n (match o with
    | None => quiet (xret tt)
    | Some t => export_sub_items_log ho rd v t O (path_join p n)
    end)).
  intros w1. destruct o as [t|]; [apply export_sub_items_tracked|now apply quiet_tracked].
Qed.
