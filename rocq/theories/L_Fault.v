(** Lemmas on reading with an I/O layer that fails now and then. *)
From Coq Require Import ZArith List Bool Lia ZifyBool.
From Verif Require Import Base Spec_IO M_Header M_Table M_Load M_Stream M_Tree M_Open
  Spec_Stream Spec_Load Spec_Tree Spec_Open Spec_Content L_Base L_Stream L_Open L_Open2 Spec_Fault.
Import ListNotations.
Open Scope Z_scope.

(** * Answers *)
Definition got (rd : reader) (t : trace) (off n : Z) : option (list Z) :=
  match rd t off n with
  | Some l => if zlen l =? n then Some l else None
  | None => None
  end.

Lemma read_at_got rd off n t : read_at rd off n t = (Ok (got rd t off n), t ++ [(off, n)]).
Proof. reflexivity. Qed.

Lemma read_exact_got rd off n t :
  read_exact rd off n t = (match got rd t off n with Some l => Ok l | None => Err end, t ++ [(off, n)]).
Proof. unfold read_exact, ibind. rewrite read_at_got. destruct (got rd t off n); reflexivity. Qed.

(** [rd0] delivers what [rd] delivers. *)
Definition weaker (rd rd0 : reader) : Prop :=
  forall t off n l, 0 <= off -> 0 < n -> got rd t off n = Some l -> got rd0 t off n = Some l.

Definition agree (rd rd0 : reader) (off n : Z) : Prop := forall t, got rd t off n = got rd0 t off n.

Lemma got_full rd t off n l : got rd t off n = Some l <-> rd t off n = Some l /\ zlen l = n.
Proof.
  unfold got. destruct (rd t off n) as [x|]; [|split; [discriminate|intros [H _]; discriminate H]].
  destruct (zlen x =? n) eqn:E; split.
  - intros [= <-]. split; [reflexivity|lia].
  - intros [[= <-] _]. reflexivity.
  - discriminate.
  - intros [[= <-] H]. lia.
Qed.

Lemma sound_weaker rd rd0 f : io_sound rd f -> io_sound rd0 f -> io_total rd0 f -> weaker rd rd0.
Proof.
  intros HS HS0 HT0 t off n l H1 H2 H. apply got_full in H as [H H3]. destruct (HS _ _ _ _ H1 H2 H H3) as [H4 ->].
  destruct (HT0 t off n H1 H2 H4) as (l0 & G1 & G2). destruct (HS0 _ _ _ _ H1 H2 G1 G2) as [_ E].
  apply got_full. rewrite <- E. auto.
Qed.

Lemma always_agree rd rd0 f off n :
  io_sound rd f -> io_sound rd0 f -> io_total rd0 f -> 0 <= off -> 0 < n ->
  (off + n <= zlen f -> always_read rd off n) -> agree rd rd0 off n.
Proof.
  intros HS HS0 HT0 H1 H2 HA t. destruct (Z_le_gt_dec (off + n) (zlen f)) as [Hi|Ho].
  - destruct (HA Hi t) as (l & G1 & G2). assert (G : got rd t off n = Some l) by (apply got_full; auto).
    rewrite G. symmetry. now apply (sound_weaker rd rd0 f HS HS0 HT0).
  - assert (N : forall r, io_sound r f -> got r t off n = None).
    { intros r Hr. destruct (got r t off n) as [l|] eqn:E; [|reflexivity]. apply got_full in E as [E1 E2].
      destruct (Hr _ _ _ _ H1 H2 E1 E2) as [E3 _]. lia. }
    now rewrite (N rd HS), (N rd0 HS0).
Qed.

Lemma sector_offset_request id ss : sector_offset id ss = fst (request ss id).
Proof. reflexivity. Qed.

Lemma sector_offset_pos id ss : 0 < ss -> 0 <= sector_offset id ss.
Proof. intros H. unfold sector_offset, u32. pose proof (Z.mod_pos_bound (id + 1) TWO32 ltac:(reflexivity)). nia. Qed.

(** * Reading that stops at the first failure *)
Section Careful.
Variables (rd rd0 : reader) (Hw : weaker rd rd0).

Lemma read_exact_careful off n t l t' :
  0 <= off -> 0 < n -> read_exact rd off n t = (Ok l, t') -> read_exact rd0 off n t = (Ok l, t').
Proof.
  intros H1 H2. rewrite !read_exact_got. destruct (got rd t off n) as [x|] eqn:E; [|discriminate].
  now rewrite (Hw _ _ _ _ H1 H2 E).
Qed.

Lemma ibind_ok {A B} (m : io A) (k : A -> io B) t b t' :
  ibind m k t = (Ok b, t') -> exists a t1, m t = (Ok a, t1) /\ k a t1 = (Ok b, t').
Proof. unfold ibind. destruct (m t) as [[a| | |] t1]; try discriminate. eauto. Qed.

Lemma header_careful msat t r t' : header_read rd msat t = (Ok r, t') -> header_read rd0 msat t = (Ok r, t').
Proof.
  unfold header_read. intros H. apply ibind_ok in H as (d & t1 & H1 & H). apply read_exact_careful in H1; [|lia|lia].
  unfold ibind. now rewrite H1.
Qed.

Lemma msat_loop_careful e ss entries fuel : 0 < ss -> forall msat i id depth t r t',
  msat_loop fuel rd e ss entries msat i id depth t = (Ok r, t') ->
  msat_loop fuel rd0 e ss entries msat i id depth t = (Ok r, t').
Proof.
  intros Hss. induction fuel as [|fuel IH]; intros msat i id depth t r t' H; [exact H|]. cbn [msat_loop] in H |- *.
  destruct (id =? END_OF_CHAIN); [exact H|]. destruct (MAX_TABLE_DEPTH <? depth); [exact H|].
  destruct (zlen msat <=? i); [exact H|]. apply ibind_ok in H as (s & t1 & H1 & H).
  apply read_exact_careful in H1; [|now apply sector_offset_pos|exact Hss]. unfold ibind at 1. rewrite H1.
  apply ibind_ok in H as ([[m i'] p] & t2 & H2 & H). unfold ibind at 1. rewrite H2.
  apply ibind_ok in H as (id' & t3 & H3 & H). unfold ibind. rewrite H3. now apply IH.
Qed.

Lemma read_msat_careful e ss msat id n t r t' : 0 < ss ->
  read_msat rd e ss msat id n t = (Ok r, t') -> read_msat rd0 e ss msat id n t = (Ok r, t').
Proof.
  intros Hss H. unfold read_msat in H |- *. destruct (_ || _); [exact H|]. destruct (_ <? _); [exact H|].
  destruct (_ && _); [exact H|]. destruct (_ =? _); [exact H|]. cbn zeta in H |- *. destruct (ss / 4 =? 0); [exact H|].
  apply ibind_ok in H as (m & t1 & H1 & H). unfold ibind. rewrite H1. now apply msat_loop_careful.
Qed.

Lemma dir_loop_careful e ss entries sat fuel : 0 < ss -> forall acc i id vis depth t r t',
  dir_loop fuel rd e ss entries sat acc i id vis depth t = (Ok r, t') ->
  dir_loop fuel rd0 e ss entries sat acc i id vis depth t = (Ok r, t').
Proof.
  intros Hss. induction fuel as [|fuel IH]; intros acc i id vis depth t r t' H; [exact H|]. cbn [dir_loop] in H |- *.
  destruct (_ || _); [exact H|]. destruct (_ <? _); [exact H|]. destruct (existsb _ _); [exact H|].
  apply ibind_ok in H as (s & t1 & H1 & H).
  apply read_exact_careful in H1; [|now apply sector_offset_pos|exact Hss]. unfold ibind at 1. rewrite H1.
  apply ibind_ok in H as ([m i'] & t2 & H2 & H). unfold ibind at 1. rewrite H2.
  apply ibind_ok in H as (id' & t3 & H3 & H). unfold ibind. rewrite H3. now apply IH.
Qed.

Lemma read_directory_careful e ss sat root t r t' : 0 < ss ->
  read_directory rd e ss sat root t = (Ok r, t') -> read_directory rd0 e ss sat root t = (Ok r, t').
Proof.
  intros Hss H. unfold read_directory in H |- *. destruct (_ || _); [exact H|]. destruct (_ =? _); [exact H|].
  now apply dir_loop_careful.
Qed.

(** * Reading that goes on after a failure *)
Lemma sat_loop_agree e ss entries msat : (forall id, In id (used_ids msat) -> agree rd rd0 (sector_offset id ss) ss) ->
  forall sat i t, sat_loop rd e ss entries msat sat i t = sat_loop rd0 e ss entries msat sat i t.
Proof.
  induction msat as [|id msat IH]; intros HA sat i t; [reflexivity|]. cbn [sat_loop].
  cbn [used_ids filter] in HA. change FREE with UNUSED in HA. destruct (id =? UNUSED) eqn:E; cbn [negb] in HA.
  - now apply IH.
  - destruct (zlen sat <=? i); [reflexivity|]. unfold ibind at 1 3. rewrite !read_at_got.
    rewrite <- (HA id (or_introl eq_refl) t). destruct (got rd t (sector_offset id ss) ss) as [s|]; [|reflexivity].
    unfold ibind, ilift. destruct (sat_sector_loop _ _ _ _ _ _) as [[sat' i']| | |]; try reflexivity.
    apply IH. intros x Hx. apply HA. now right.
Qed.

Lemma read_sat_agree e ss msat sat n t :
  (forall id, In id (used_ids msat) -> agree rd rd0 (sector_offset id ss) ss) ->
  read_sat rd e ss msat sat n t = read_sat rd0 e ss msat sat n t.
Proof.
  intros HA. unfold read_sat. destruct (_ || _); [reflexivity|]. cbn zeta.
  match goal with |- context [match ?x with Ok _ => _ | _ => _ end] => destruct x as [s1| | |]; [|reflexivity..] end.
  now apply sat_loop_agree.
Qed.

Lemma ssat_loop_agree e ss entries sat first n :
  Forall is_u32 sat -> is_u32 first ->
  (forall id k, nth_sector sat first k id -> id <> EOC -> id <> FREE -> agree rd rd0 (sector_offset id ss) ss) ->
  forall fuel ssat i id k sector_index depth t, nth_sector sat first k id ->
    ssat_loop fuel rd e ss entries sat ssat i id n sector_index depth t =
    ssat_loop fuel rd0 e ss entries sat ssat i id n sector_index depth t.
Proof.
  intros Hsat Hf HA. induction fuel as [|fuel IH]; intros ssat i id k si depth t Hk; [reflexivity|]. cbn [ssat_loop].
  destruct (id =? END_OF_CHAIN) eqn:E1; [reflexivity|]. destruct (_ <? depth); [reflexivity|].
  destruct (n <=? si); [reflexivity|]. destruct (id =? UNUSED) eqn:E2; [eapply IH; eauto|].
  unfold ibind at 1 3. rewrite !read_at_got.
  assert (HI : agree rd rd0 (sector_offset id ss) ss).
  { apply (HA id k Hk); [change EOC with END_OF_CHAIN|change FREE with UNUSED]; lia. }
  rewrite <- (HI t). destruct (got rd t (sector_offset id ss) ss) as [s|]; [|reflexivity].
  unfold ibind, ilift. destruct (ssat_sector_loop _ _ _ _ _ _) as [[[s' i'] ok]| | |]; try reflexivity.
  destruct (negb ok); [reflexivity|]. destruct (table_next sat id) as [id'| | |] eqn:E3; try reflexivity.
  eapply IH. econstructor; [exact Hk|]. apply table_next_ok in E3; [exact (proj1 E3)|].
  apply (nth_sector_u32 sat first k id Hsat Hf Hk).
Qed.

Lemma read_ssat_agree e ss sat ssat id n t : Forall is_u32 sat -> is_u32 id ->
  (forall x k, nth_sector sat id k x -> x <> EOC -> x <> FREE -> agree rd rd0 (sector_offset x ss) ss) ->
  read_ssat rd e ss sat ssat id n t = read_ssat rd0 e ss sat ssat id n t.
Proof.
  intros Hsat Hf HA. unfold read_ssat. destruct (_ || _); [reflexivity|]. cbn zeta.
  match goal with |- context [match ?x with Ok _ => _ | _ => _ end] => destruct x as [s1| | |]; [|reflexivity..] end.
  eapply ssat_loop_agree; [exact Hsat|exact Hf|exact HA|constructor].
Qed.
End Careful.

(** * Opening *)
Section Open.
Variables (u : una) (rd rd0 : reader) (f : list Z).
Variables (Hu : una_ok u) (HB : io_bytes rd) (HS : io_sound rd f).
Variables (HB0 : io_bytes rd0) (HS0 : io_sound rd0 f) (HT0 : io_total rd0 f).

Lemma tables_agree o id : 0 < fh_sector_size (o_header o) -> tables_read rd f o -> table_sector o id ->
  agree rd rd0 (sector_offset id (fh_sector_size (o_header o))) (fh_sector_size (o_header o)).
Proof.
  intros Hss HR HI. apply (always_agree rd rd0 f); auto.
  - now apply sector_offset_pos.
  - intros H. apply (HR id HI). exact H.
Qed.

Lemma open_same o t : open_read u rd [] = (Ok o, t) -> tables_read rd f o -> open_read u rd0 [] = (Ok o, t).
Proof.
  intros HO HR. pose proof (sound_weaker rd rd0 f HS HS0 HT0) as Hw.
  destruct (opened_header u rd Hu HB o t HO) as (HF & Hss & _).
  pose proof (vo_sat _ (opened_volume_ok u rd Hu HB o t HO)) as HV. cbn [opened_volume v_sat] in HV.
  pose proof (fun id => tables_agree o id ltac:(lia) HR) as HA.
  unfold open_read in HO |- *. apply ibind_ok in HO as (m0 & t0 & H0 & HO). unfold ibind at 1. rewrite H0.
  apply ibind_ok in HO as ([h m1] & t1 & H1 & HO). apply (header_careful rd rd0 Hw) in H1. unfold ibind at 1. rewrite H1.
  unfold open_tables in HO |- *. cbn zeta in HO |- *.
  apply ibind_ok in HO as (msat & t2 & H2 & HO). apply ibind_ok in HO as (s0 & t3 & H3 & HO).
  apply ibind_ok in HO as (sat & t4 & H4 & HO). apply ibind_ok in HO as (s1 & t5 & H5 & HO).
  apply ibind_ok in HO as (ssat & t6 & H6 & HO). apply ibind_ok in HO as (l & t7 & H7 & HO).
  apply ibind_ok in HO as (tr & t8 & H8 & HO). unfold iret in HO. apply pair_equal_spec in HO as [HO E].
  assert (Eo : forall A (a b : A), Ok a = Ok b -> a = b) by congruence. apply Eo in HO. clear Eo. subst o t. cbn [o_header o_msat o_sat o_ssat o_entries o_tree] in *.
  apply (read_msat_careful rd rd0 Hw) in H2; [|lia]. unfold ibind at 1. rewrite H2. unfold ibind at 1. rewrite H3.
  rewrite (read_sat_agree rd rd0) in H4; [|intros id Hid; apply HA; left; exact Hid].
  unfold ibind at 1. rewrite H4. unfold ibind at 1. rewrite H5.
  rewrite (read_ssat_agree rd rd0) in H6; [|exact HV|now apply hf_ssat|intros x k G1 G2 G3; apply HA; right; eauto].
  unfold ibind at 1. rewrite H6. apply (read_directory_careful rd rd0 Hw) in H7; [|lia]. unfold ibind at 1. rewrite H7.
  unfold ibind. rewrite H8. reflexivity.
Qed.
End Open.

(** * What is read depends on what is asked for *)
Definition local {A} (m : reader -> io A) : Prop :=
  forall rd0 t r t', m rd0 t = (r, t') ->
    exists q, t' = t ++ q /\
      forall rd, (forall x, In x q -> agree rd rd0 (fst x) (snd x)) -> m rd t = (r, t').

Lemma local_const {A} (m : io A) : (forall t, snd (m t) = t) -> local (fun _ => m).
Proof.
  intros Hm rd0 t r t' H. exists []. pose proof (Hm t) as E. rewrite H in E. cbn [snd] in E. rewrite app_nil_r.
  split; [auto|]. intros rd _. exact H.
Qed.

Lemma local_lift {A} (r : res A) : local (fun _ => ilift r).
Proof. apply local_const. reflexivity. Qed.

Lemma local_ret {A} (a : A) : local (fun _ => iret a).
Proof. apply local_const. reflexivity. Qed.

Lemma local_err {A} : local (fun _ => @ierr A).
Proof. apply local_const. reflexivity. Qed.

Lemma local_bind {A B} (m : reader -> io A) (k : reader -> A -> io B) :
  local m -> (forall a, local (fun rd => k rd a)) -> local (fun rd => ibind (m rd) (k rd)).
Proof.
  intros Hm Hk rd0 t r t' H. unfold ibind in H. destruct (m rd0 t) as [x t1] eqn:E.
  destruct (Hm rd0 t x t1 E) as (q1 & -> & H1).
  destruct x as [a| | |].
  - destruct (Hk a rd0 _ _ _ H) as (q2 & -> & H2). exists (q1 ++ q2). split; [now rewrite app_assoc|].
    intros rd HA. unfold ibind. rewrite H1; [|intros x Hx; apply HA, in_or_app; now left].
    apply H2. intros x Hx. apply HA, in_or_app. now right.
  - apply pair_equal_spec in H as [<- <-]. exists q1. split; [reflexivity|]. intros rd HA. unfold ibind. now rewrite H1.
  - apply pair_equal_spec in H as [<- <-]. exists q1. split; [reflexivity|]. intros rd HA. unfold ibind. now rewrite H1.
  - apply pair_equal_spec in H as [<- <-]. exists q1. split; [reflexivity|]. intros rd HA. unfold ibind. now rewrite H1.
Qed.

Lemma local_read_at off n : local (fun rd => read_at rd off n).
Proof.
  intros rd0 t r t' H. rewrite read_at_got in H. apply pair_equal_spec in H as [<- <-]. exists [(off, n)].
  split; [reflexivity|]. intros rd HA. rewrite read_at_got. pose proof (HA (off, n) (or_introl eq_refl) t) as E. cbn [fst snd] in E. now rewrite E.
Qed.

Lemma local_read_exact off n : local (fun rd => read_exact rd off n).
Proof.
  unfold read_exact. apply (local_bind (fun rd => read_at rd off n)); [apply local_read_at|].
  intros [l|]; [apply local_ret|apply local_err].
Qed.

Lemma local_header msat : local (fun rd => header_read rd msat).
Proof.
  unfold header_read. apply (local_bind (fun rd => read_exact rd 0 512)); [apply local_read_exact|].
  intros a. apply local_lift.
Qed.

Lemma local_msat_loop e ss entries fuel : forall msat i id depth,
  local (fun rd => msat_loop fuel rd e ss entries msat i id depth).
Proof.
  induction fuel as [|fuel IH]; intros msat i id depth; cbn [msat_loop]; [apply local_lift|].
  destruct (id =? END_OF_CHAIN); [apply local_ret|]. destruct (_ <? depth); [apply local_err|].
  destruct (_ <=? _); [apply local_ret|].
  apply (local_bind (fun rd => read_exact rd _ _)); [apply local_read_exact|]. intros s.
  apply (local_bind (fun _ => ilift _)); [apply local_lift|]. intros [[m' i'] p].
  apply (local_bind (fun _ => ilift _)); [apply local_lift|]. intros id'. apply IH.
Qed.

Lemma local_read_msat e ss msat id n : local (fun rd => read_msat rd e ss msat id n).
Proof.
  unfold read_msat. destruct (_ || _); [apply local_err|]. destruct (_ <? _); [apply local_err|].
  destruct (_ && _); [apply local_ret|]. destruct (_ =? _); [apply local_err|]. cbn zeta.
  destruct (ss / 4 =? 0); [apply local_err|].
  apply (local_bind (fun _ => ilift _)); [apply local_lift|]. intros m1. apply local_msat_loop.
Qed.

Lemma local_sat_loop e ss entries msat : forall sat i, local (fun rd => sat_loop rd e ss entries msat sat i).
Proof.
  induction msat as [|id msat IH]; intros sat i; cbn [sat_loop]; [apply local_ret|].
  destruct (id =? UNUSED); [apply IH|]. destruct (_ <=? _); [apply local_ret|].
  apply (local_bind (fun rd => read_at rd _ _)); [apply local_read_at|]. intros [s|]; [|apply local_ret].
  apply (local_bind (fun _ => ilift _)); [apply local_lift|]. intros [s' i']. apply IH.
Qed.

Lemma local_read_sat e ss msat sat n : local (fun rd => read_sat rd e ss msat sat n).
Proof.
  unfold read_sat. destruct (_ || _); [apply local_err|]. cbn zeta.
  match goal with |- context [match ?x with Ok _ => _ | _ => _ end] => destruct x as [s1| | |]; [|apply local_ret..] end.
  apply local_sat_loop.
Qed.

Lemma local_ssat_loop e ss entries sat n fuel : forall ssat i id si depth,
  local (fun rd => ssat_loop fuel rd e ss entries sat ssat i id n si depth).
Proof.
  induction fuel as [|fuel IH]; intros ssat i id si depth; cbn [ssat_loop]; [apply local_lift|].
  destruct (id =? END_OF_CHAIN); [apply local_ret|]. destruct (_ <? depth); [apply local_ret|].
  destruct (n <=? si); [apply local_ret|]. destruct (id =? UNUSED); [apply IH|].
  apply (local_bind (fun rd => read_at rd _ _)); [apply local_read_at|]. intros [s|]; [|apply local_ret].
  apply (local_bind (fun _ => ilift _)); [apply local_lift|]. intros [[s' i'] ok].
  destruct (negb ok); [apply local_ret|]. destruct (table_next sat id); [apply IH|apply local_ret|apply local_lift..].
Qed.

Lemma local_read_ssat e ss sat ssat id n : local (fun rd => read_ssat rd e ss sat ssat id n).
Proof.
  unfold read_ssat. destruct (_ || _); [apply local_err|]. cbn zeta.
  match goal with |- context [match ?x with Ok _ => _ | _ => _ end] => destruct x as [s1| | |]; [|apply local_ret..] end.
  apply local_ssat_loop.
Qed.

Lemma local_dir_loop e ss entries sat fuel : forall acc i id vis depth,
  local (fun rd => dir_loop fuel rd e ss entries sat acc i id vis depth).
Proof.
  induction fuel as [|fuel IH]; intros acc i id vis depth; cbn [dir_loop]; [apply local_lift|].
  destruct (_ || _); [apply local_ret|]. destruct (_ <? depth); [apply local_err|]. destruct (existsb _ _); [apply local_ret|].
  apply (local_bind (fun rd => read_exact rd _ _)); [apply local_read_exact|]. intros s.
  apply (local_bind (fun _ => ilift _)); [apply local_lift|]. intros [m' i'].
  apply (local_bind (fun _ => ilift _)); [apply local_lift|]. intros id'. apply IH.
Qed.

Lemma local_read_directory e ss sat root : local (fun rd => read_directory rd e ss sat root).
Proof.
  unfold read_directory. destruct (_ || _); [apply local_err|]. destruct (_ =? _); [apply local_err|]. apply local_dir_loop.
Qed.

Lemma local_open u : local (fun rd => open_read u rd).
Proof.
  unfold open_read. apply (local_bind (fun _ => ilift _)); [apply local_lift|]. intros m0.
  apply (local_bind (fun rd => header_read rd m0)); [apply local_header|]. intros [h m1]. unfold open_tables. cbn zeta.
  apply (local_bind (fun rd => read_msat rd _ _ _ _ _)); [apply local_read_msat|]. intros msat.
  apply (local_bind (fun _ => ilift _)); [apply local_lift|]. intros s0.
  apply (local_bind (fun rd => read_sat rd _ _ _ _ _)); [apply local_read_sat|]. intros sat.
  apply (local_bind (fun _ => ilift _)); [apply local_lift|]. intros s1.
  apply (local_bind (fun rd => read_ssat rd _ _ _ _ _ _)); [apply local_read_ssat|]. intros ssat.
  apply (local_bind (fun rd => read_directory rd _ _ _ _)); [apply local_read_directory|]. intros l.
  apply (local_bind (fun _ => ilift _)); [apply local_lift|]. intros tr. apply local_ret.
Qed.

Lemma local_stream_loop v d fuel : forall id index so size cap acc,
  local (fun rd => stream_loop fuel rd v d id index so size cap acc).
Proof.
  induction fuel as [|fuel IH]; intros id index so size cap acc; cbn [stream_loop]; [apply local_lift|].
  destruct (size <=? 0); [apply local_ret|]. destruct (id =? END_OF_CHAIN); [apply local_err|]. cbn zeta.
  apply (local_bind (fun _ => ilift _)); [apply local_lift|]. intros base.
  match goal with |- local (fun rd => if ?c then _ else _) => destruct c end; [apply local_lift|].
  apply (local_bind (fun rd => read_exact rd _ _)); [apply local_read_exact|]. intros data.
  apply (local_bind (fun _ => ilift _)); [apply local_lift|]. intros id'.
  destruct (index =? INT_MAX); [apply local_lift|]. apply IH.
Qed.

Lemma local_stream_read v d c size cap : local (fun rd => stream_read_buffer rd v d c size cap).
Proof.
  unfold stream_read_buffer. destruct (negb _); [apply local_err|]. destruct (c <? 0); [apply local_err|].
  destruct (_ <? size); [apply local_err|]. destruct (_ <=? c); [apply local_ret|]. cbn zeta.
  match goal with |- local (fun rd => ibind (io_read_stream rd v d c ?s cap) _) => generalize s end. intros n.
  apply (local_bind (fun rd => io_read_stream rd v d c n cap)).
  - unfold io_read_stream. destruct (c <? 0); [apply local_err|]. destruct (_ <? n); [apply local_err|]. cbn zeta.
    destruct (_ || _); [apply local_err|]. apply (local_bind (fun _ => ilift _)); [apply local_lift|]. intros id.
    apply local_stream_loop.
  - intros data. destruct (_ =? _); [apply local_ret|apply local_err].
Qed.
