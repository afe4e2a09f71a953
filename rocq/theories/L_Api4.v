(** Lemmas on C programs: what is left when they end, and files that have
    nothing to do with each other. *)
From Coq Require Import ZArith List Bool Lia Arith.
From Verif Require Import Base Spec_IO M_Header M_Table M_Load M_Stream M_Tree M_Open M_Item M_File M_Prop
  Spec_Stream Spec_Load Spec_Open Spec_Tree Spec_Item Spec_File
  L_Base L_Stream L_Stream2 L_Stream3 L_Tree L_Tree2 L_Tree3 L_Open L_Open2 L_Item L_Session L_File L_Prop3
  M_Api Spec_Api L_Api L_Api2 L_Api3.
Import ListNotations.
Open Scope Z_scope.

(** * Handles the library made *)
Definition made (x : fstate) : Z := if fs_created x then 1 else 0.
Definition made_in (c : option (fstate * option nat)) : Z := match c with Some (x, _) => made x | None => 0 end.
Fixpoint all_made (m : heap (fstate * option nat)) : Z :=
  match m with [] => 0 | c :: m' => made_in c + all_made m' end.

Lemma all_made_app m c : all_made (m ++ [c]) = all_made m + made_in c.
Proof. induction m as [|d m IH]; cbn; [lia|rewrite IH; lia]. Qed.
Lemma all_made_put m : forall p x c, cell m p = Some x -> all_made (put m p c) = all_made m - made_in (Some x) + made_in c.
Proof.
  induction m as [|d m IH]; intros [|p] x c H; cbn [put all_made]; try discriminate H.
  - unfold cell in H. cbn in H. subst d. lia.
  - rewrite (IH p x c H). lia.
Qed.
Lemma all_made_none m : (forall p, cell m p = None) -> all_made m = 0.
Proof.
  induction m as [|d m IH]; intros H; [reflexivity|]. cbn. rewrite IH by (intros p; apply (H (S p))).
  specialize (H 0%nat). unfold cell in H. cbn in H. subst d. reflexivity.
Qed.

Lemma step_made u ev op x w r x' w' : una_ok u -> env_bytes ev -> L_Api.opens op = true \/ op = FClose -> file_inv u x ->
  file_step u ev op x w = (r, x', w') -> w_own w' = w_own w - made x + made x'.
Proof.
  intros Hu HB Ho HI H. destruct Ho as [Ho| ->].
  - assert (Hop : is_open_call op) by (destruct op; try discriminate Ho; exact I).
    destruct (fs_handle x) as [h|] eqn:Eh.
    + rewrite open_call_error in H by (auto; left; congruence). apply pair_equal_spec in H as [H <-].
      apply pair_equal_spec in H as [_ <-]. lia.
    + assert (Hm : made x = 0).
      { unfold file_inv in HI. rewrite Eh in HI. unfold made. destruct HI as (_ & -> & _). reflexivity. }
      rewrite Hm. destruct (open_call_cases u ev op x w Hu HB Hop HI Eh) as [(io' & w1 & _ & E & _ & Hw & _)|(io' & o & t & w1 & h & _ & _ & _ & E & Hw)];
        rewrite E in H; apply pair_equal_spec in H as [H <-]; apply pair_equal_spec in H as [_ <-]; unfold made; cbn [fs_created].
      * lia.
      * destruct op; try discriminate Ho; destruct Hw as (-> & -> & _); lia.
  - cbn [file_step] in H. unfold file_close in H. destruct (fs_handle x) as [h|].
    + cbv zeta in H. apply pair_equal_spec in H as [H <-]. apply pair_equal_spec in H as [_ <-]. unfold made. cbn [fs_created].
      assert (Hb : w_own (if fs_opened x then bfio_close ev w h else w) = w_own w).
      { destruct (fs_opened x); [|reflexivity]. unfold bfio_close. destruct h; [|reflexivity]. destruct (ev_close ev); reflexivity. }
      destruct (fs_created x); cbn [w_own]; rewrite Hb; lia.
    + apply pair_equal_spec in H as [H <-]. apply pair_equal_spec in H as [_ <-]. lia.
Qed.

Section Leak.
Variable lib : clib.
Hypothesis HL : clib_ok lib.
Let u := cl_una lib.

Definition accounted (s : cstate) : Prop := w_own (cs_world s) = all_made (m_files (cs_memory s)).

Ltac quiet H :=
  repeat match goal with |- accounted (snd (match ?x with _ => _ end)) => destruct x end; exact H.

Lemma opening_made ce f op s a : rel s a -> ainv u a -> env_bytes (ce_io ce) -> L_Api.opens op = true -> accounted s ->
  accounted (snd (file_opening lib ce f op s)).
Proof.
  intros R HI HB Ho HA. unfold file_opening, on_file. pose proof (r_files _ _ R f) as HF. destruct (cs_files s f) as [p|]; [|exact HA].
  destruct HF as (x & t & Hc & Ha & _). rewrite Hc. destruct (file_step _ _ _ _ _) as [[r x'] w'] eqn:E.
  pose proof (step_made u _ _ _ _ _ _ _ (co_una _ HL) HB (or_introl Ho) (ai_files _ _ HI _ _ Ha) E) as Hw.
  unfold accounted in *.
  assert (Hp : forall t', w_own w' = all_made (put (m_files (cs_memory s)) p (Some (x', t')))).
  { intros t'. rewrite (all_made_put _ _ _ _ Hc). cbn [made_in]. lia. }
  destruct r; try apply Hp. destruct (file_tree x'); apply Hp.
Qed.

Lemma step_accounted ce c s a : rel s a -> ainv u a -> env_bytes (ce_io ce) -> accounted s -> accounted (snd (c_step lib ce c s)).
Proof.
  intros R HI HB HA. destruct c; cbn [c_step].
  - unfold file_initialize. destruct (cs_files s f); [exact HA|]. destruct (ce_memory ce); [|exact HA].
    unfold accounted in *. cbn. rewrite all_made_app. cbn. lia.
  - unfold c_file_free. pose proof (r_files _ _ R f) as HF. destruct (cs_files s f) as [p|]; [|exact HA].
    destruct HF as (x & t & Hc & Ha & _). rewrite Hc. unfold file_free.
    assert (Hm : forall m, m_files m = m_files (cs_memory s) ->
              all_made (put (m_files m) p None) = all_made (m_files (cs_memory s)) - made x).
    { intros m ->. rewrite (all_made_put _ _ _ _ Hc). cbn [made_in]. lia. }
    unfold accounted in *. destruct (fs_handle x) as [h|] eqn:Eh.
    + destruct (file_close (ce_io ce) (cs_world s) x) as [[r x'] w'] eqn:E. cbn [snd with_world with_file with_memory cs_memory cs_world set_files m_files].
      assert (E2 : file_step u (ce_io ce) FClose x (cs_world s) = (result_of r, x', w')) by (cbn [file_step]; rewrite E; reflexivity).
      pose proof (step_made u _ _ _ _ _ _ _ (co_una _ HL) HB (or_intror eq_refl) (ai_files _ _ HI _ _ Ha) E2) as Hw.
      assert (Hn : made x' = 0).
      { unfold file_close in E. rewrite Eh in E. cbv zeta in E. apply pair_equal_spec in E as [E _].
        apply pair_equal_spec in E as [_ <-]. reflexivity. }
      rewrite Hm by (destruct t; reflexivity). lia.
    + cbn [snd with_world with_file with_memory cs_memory cs_world set_files m_files].
      rewrite Hm by reflexivity. pose proof (ai_files _ _ HI _ _ Ha) as Hi. unfold file_inv in Hi. rewrite Eh in Hi.
      unfold made. destruct Hi as (_ & -> & _). lia.
  - eapply opening_made; eauto.
  - eapply opening_made; eauto.
  - unfold c_file_close, on_file. pose proof (r_files _ _ R f) as HF. destruct (cs_files s f) as [p|]; [|exact HA].
    destruct HF as (x & t & Hc & Ha & _). rewrite Hc. destruct (file_step _ _ _ _ _) as [[r x'] w'] eqn:E.
    pose proof (step_made u _ _ _ _ _ _ _ (co_una _ HL) HB (or_intror eq_refl) (ai_files _ _ HI _ _ Ha) E) as Hw.
    destruct (fs_handle x); [|exact HA]. unfold accounted in *. cbn [snd with_world with_memory cs_memory cs_world].
    replace (m_files (put_file (tree_free (cs_memory s) t) p (x', None))) with (put (m_files (cs_memory s)) p (Some (x', None))) by (destruct t; reflexivity).
    rewrite (all_made_put _ _ _ _ Hc). cbn [made_in]. lia.
  - unfold file_call, on_file. destruct (cs_files s f) as [p|]; [|exact HA]. destruct (cell _ p) as [[x t]|] eqn:Hc; [|exact HA].
    destruct (query_op q) as [op|] eqn:Eq; [|exact HA]. destruct (file_step _ _ _ _ _) as [[r x'] w'] eqn:E.
    assert (Hm : made x' = made x).
    { destruct q; try discriminate Eq; injection Eq as <-; cbn [file_step] in E; try (injection E as <- <- <-; reflexivity).
      destruct (file_set_codepage x codepage) as [r0 x0] eqn:E0. unfold file_set_codepage in E0.
      destruct (existsb _ codepages); injection E0 as <- <-; injection E as <- <- <-; reflexivity. }
    unfold accounted in *. cbn [snd with_memory cs_memory cs_world put_file set_files m_files].
    rewrite (all_made_put _ _ _ _ Hc). cbn [made_in]. lia.
  - unfold file_item, on_file, new_item. quiet HA.
  - unfold file_item, on_file, new_item. quiet HA.
  - unfold file_item, on_file, new_item. quiet HA.
  - unfold item_free. quiet HA.
  - unfold on_item. quiet HA.
  - unfold item_sub, on_item, new_item. quiet HA.
  - unfold item_stream, on_item. quiet HA.
  - unfold item_set, on_item. quiet HA.
  - unfold c_set_free. quiet HA.
  - unfold on_set. quiet HA.
  - unfold on_set. quiet HA.
  - unfold set_section, on_set. quiet HA.
  - exact HA.
  - quiet HA.
  - unfold on_section. quiet HA.
  - unfold section_value. quiet HA.
  - exact HA.
  - quiet HA.
  - exact HA.
  - exact HA.
Qed.

Lemma run_accounted h : forall s a, program_fits h -> rel s a -> ainv u a -> accounted s -> accounted (snd (c_run lib h s)).
Proof.
  induction h as [|[ce c] h IH]; intros s a HP R HI HA; [exact HA|]. inversion HP as [|? ? (P1 & P2 & P3) HP']; subst. cbn [fst snd] in *.
  pose proof (step_accounted ce c s a R HI P1 HA) as HA1. destruct (step_sim lib ce c s a R) as [_ R1].
  destruct (a_step_inv lib HL ce c a HI P1 P2 P3) as [I1 _]. cbn [c_run]. destruct (c_step lib ce c s) as [x s1]. cbn [fst snd] in *.
  specialize (IH _ _ HP' R1 I1 HA1). destruct (c_run lib h s1) as [r s2]. exact IH.
Qed.
End Leak.

Lemma no_leak lib h : clib_ok lib -> program_fits h -> let s := snd (c_run lib h c_start) in
  (forall f, cs_files s f = None) -> (forall i, cs_items s i = None) -> (forall x, cs_sets s x = None) ->
  (forall p, cell (m_files (cs_memory s)) p = None) /\ (forall p, cell (m_trees (cs_memory s)) p = None) /\
  (forall p, cell (m_items (cs_memory s)) p = None) /\ (forall p, cell (m_sets (cs_memory s)) p = None) /\
  w_own (cs_world s) = 0.
Proof.
  intros HL HP s HF HI HS. destruct (run_sim lib h _ _ rel_start) as [_ R]. fold s in R.
  assert (E : forall p, cell (m_files (cs_memory s)) p = None).
  { intros p. destruct (cell _ p) as [x|] eqn:E; [|reflexivity]. destruct (r_own_files _ _ R _ _ E) as (f & Hf). congruence. }
  split; [exact E|]. split.
  { intros p. destruct (cell _ p) as [x|] eqn:Ep; [|reflexivity]. destruct (r_own_trees _ _ R _ _ Ep) as (q & y & Hf). congruence. }
  split.
  { intros p. destruct (cell _ p) as [x|] eqn:Ep; [|reflexivity]. destruct (r_own_items _ _ R _ _ Ep) as (f & Hf). congruence. }
  split.
  { intros p. destruct (cell _ p) as [x|] eqn:Ep; [|reflexivity]. destruct (r_own_sets _ _ R _ _ Ep) as (f & Hf). congruence. }
  pose proof (run_accounted lib HL h c_start a_start HP rel_start (ainv_start _) eq_refl) as HA. fold s in HA.
  unfold accounted in HA. rewrite HA. apply all_made_none. exact E.
Qed.

Lemma owned lib h : let s := snd (c_run lib h c_start) in let m := cs_memory s in
    (forall f g p, cs_files s f = Some p -> cs_files s g = Some p -> f = g) /\
    (forall i j p, cs_items s i = Some p -> cs_items s j = Some p -> i = j) /\
    (forall x y p, cs_sets s x = Some p -> cs_sets s y = Some p -> x = y) /\
    (forall f p, cs_files s f = Some p -> cell (m_files m) p <> None) /\
    (forall i p, cs_items s i = Some p -> cell (m_items m) p <> None) /\
    (forall x p, cs_sets s x = Some p -> cell (m_sets m) p <> None) /\
    (forall p o, cell (m_files m) p = Some o -> exists f, cs_files s f = Some p) /\
    (forall p o, cell (m_items m) p = Some o -> exists i, cs_items s i = Some p) /\
    (forall p o, cell (m_sets m) p = Some o -> exists x, cs_sets s x = Some p) /\
    (forall b t, cell (m_trees m) b = Some t -> exists f p x, cs_files s f = Some p /\ cell (m_files m) p = Some (x, Some b)) /\
    (forall f g p q x y b, cs_files s f = Some p -> cell (m_files m) p = Some (x, Some b) ->
       cs_files s g = Some q -> cell (m_files m) q = Some (y, Some b) -> f = g).
Proof.
  intros s m. destruct (run_sim lib h _ _ rel_start) as [_ R]. fold s in R.
  split; [exact (r_one_file _ _ R)|]. split; [exact (r_one_item _ _ R)|]. split; [exact (r_one_set _ _ R)|].
  split. { intros f p E. pose proof (r_files _ _ R f) as HF. rewrite E in HF. destruct HF as (x & t & H & _). unfold m. congruence. }
  split. { intros f p E. pose proof (r_items _ _ R f) as HF. rewrite E in HF. destruct HF as (x & t & H & _). unfold m. congruence. }
  split. { intros f p E. pose proof (r_sets _ _ R f) as HF. rewrite E in HF. destruct HF as (x & H & _). unfold m. congruence. }
  split; [exact (r_own_files _ _ R)|]. split; [exact (r_own_items _ _ R)|]. split; [exact (r_own_sets _ _ R)|]. split.
  - intros b t Hb. destruct (r_own_trees _ _ R _ _ Hb) as (p & x & Hp). destruct (r_own_files _ _ R _ _ Hp) as (f & Hf). eauto.
  - intros f g p q x y b Hf Hx Hg Hy. assert (p = q) by (eapply r_one_tree; eauto). subst q. eapply r_one_file; eauto.
Qed.

Lemma c_run_app lib h1 h2 : forall s, snd (c_run lib (h1 ++ h2) s) = snd (c_run lib h2 (snd (c_run lib h1 s))).
Proof.
  induction h1 as [|[ce c] h1 IH]; intros s; [reflexivity|]. cbn. destruct (c_step lib ce c s) as [x s1]. specialize (IH s1).
  destruct (c_run lib (h1 ++ h2) s1), (c_run lib h1 s1). exact IH.
Qed.

Lemma freed_null lib h ce :
    (forall f, cs_files (snd (c_run lib (h ++ [(ce, FileFree f)]) c_start)) f = None) /\
    (forall i, cs_items (snd (c_run lib (h ++ [(ce, ItemFree i)]) c_start)) i = None) /\
    (forall x, cs_sets (snd (c_run lib (h ++ [(ce, SetFree x)]) c_start)) x = None).
Proof.
  destruct (run_sim lib h _ _ rel_start) as [_ R].
  split; [intros f|split; [intros f|intros f]]; rewrite c_run_app; cbn [c_run c_step]; set (s := snd (c_run lib h c_start)) in *.
  - unfold c_file_free. pose proof (r_files _ _ R f) as HF. destruct (cs_files s f) as [p|] eqn:E; [|exact E].
    destruct HF as (x & t & -> & _). destruct (file_free _ _ _). cbn. apply upd_same.
  - unfold item_free. pose proof (r_items _ _ R f) as HF. destruct (cs_items s f) as [p|] eqn:E; [|exact E].
    destruct HF as (x & t & -> & _). cbn. apply upd_same.
  - unfold c_set_free. pose proof (r_sets _ _ R f) as HF. destruct (cs_sets s f) as [p|] eqn:E; [|exact E].
    destruct HF as (x & -> & _). cbn. apply upd_same.
Qed.

(** * Files that have nothing to do with each other *)
Lemma open_world u ev w1 w2 s h flags : (forall n, h = User n -> w_open w1 n = w_open w2 n) ->
  fst (file_open_handle u ev w1 s h flags) = fst (file_open_handle u ev w2 s h flags) /\
  (forall m, w_open w1 m = w_open w2 m ->
     w_open (snd (file_open_handle u ev w1 s h flags)) m = w_open (snd (file_open_handle u ev w2 s h flags)) m) /\
  (forall m, h <> User m -> w_open (snd (file_open_handle u ev w1 s h flags)) m = w_open w1 m).
Proof.
  intros Hh. unfold file_open_handle. destruct (fs_handle s); [cbn; auto|].
  destruct (negb (flag_read flags) && _); [cbn; auto|]. destruct (flag_write flags); [cbn; auto|].
  destruct (negb (ev_is_open ev)); [cbn; auto|]. cbv zeta.
  assert (Hb : match h with User n => w_open w1 n | Own => false end = match h with User n => w_open w2 n | Own => false end).
  { destruct h; auto. }
  rewrite Hb. set (b := match h with User n => w_open w2 n | Own => false end) in *.
  assert (Hc : forall v1 v2 m, w_open v1 m = w_open v2 m -> w_open (bfio_close ev v1 h) m = w_open (bfio_close ev v2 h) m).
  { intros v1 v2 m E. unfold bfio_close. destruct h as [n|]; [|exact E]. destruct (ev_close ev); [|exact E]. cbn. rewrite E. reflexivity. }
  assert (Hd : forall v1 m, h <> User m -> w_open (bfio_close ev v1 h) m = w_open v1 m).
  { intros v1 m E. unfold bfio_close. destruct h as [n|]; [|reflexivity]. destruct (ev_close ev); [|reflexivity]. cbn.
    destruct (Nat.eqb_spec m n); [congruence|reflexivity]. }
  assert (He : forall v1 v2 m, w_open v1 m = w_open v2 m ->
     w_open (match h with User n => if b then v1 else set_open v1 n true | Own => v1 end) m =
     w_open (match h with User n => if b then v2 else set_open v2 n true | Own => v2 end) m).
  { intros v1 v2 m E. destruct h as [n|]; [|exact E]. destruct b; [exact E|]. cbn. rewrite E. reflexivity. }
  assert (Hf : forall v1 m, h <> User m -> w_open (match h with User n => if b then v1 else set_open v1 n true | Own => v1 end) m = w_open v1 m).
  { intros v1 m E. destruct h as [n|]; [|reflexivity]. destruct b; [reflexivity|]. cbn.
    destruct (Nat.eqb_spec m n); [congruence|reflexivity]. }
  destruct (negb b && negb (ev_open ev)).
  - destruct (fs_opened s); cbn; auto.
  - destruct (file_open_read u (ev_reader ev) (fs_io s) (fs_data s)) as [r io1]. destruct r; cbn [fst snd]; auto.
    destruct (negb b && (negb b || fs_opened s)); cbn [fst snd]; split; auto. split; auto.
    intros m E. rewrite Hd by exact E. auto.
Qed.

Lemma close_world ev w1 w2 s :
  fst (file_close ev w1 s) = fst (file_close ev w2 s) /\
  (forall m, w_open w1 m = w_open w2 m -> w_open (snd (file_close ev w1 s)) m = w_open (snd (file_close ev w2 s)) m) /\
  (forall m, fs_handle s <> Some (User m) -> w_open (snd (file_close ev w1 s)) m = w_open w1 m).
Proof.
  unfold file_close. destruct (fs_handle s) as [h|]; [|cbn; auto]. cbv zeta. cbn [fst snd].
  split; [reflexivity|]. split.
  - intros m E. assert (Hb : w_open (if fs_opened s then bfio_close ev w1 h else w1) m = w_open (if fs_opened s then bfio_close ev w2 h else w2) m).
    { destruct (fs_opened s); [|exact E]. unfold bfio_close. destruct h as [n|]; [|exact E]. destruct (ev_close ev); [|exact E]. cbn. rewrite E. reflexivity. }
    destruct (fs_created s); exact Hb.
  - intros m E. assert (Hb : w_open (if fs_opened s then bfio_close ev w1 h else w1) m = w_open w1 m).
    { destruct (fs_opened s); [|reflexivity]. unfold bfio_close. destruct h as [n|]; [|reflexivity]. destruct (ev_close ev); [|reflexivity]. cbn.
      destruct (Nat.eqb_spec m n); [congruence|reflexivity]. }
    destruct (fs_created s); exact Hb.
Qed.

Lemma opens_world u ev op w1 w2 s : L_Api.opens op = true -> (forall n fl, op = FOpenHandle n fl -> w_open w1 n = w_open w2 n) ->
  fst (file_step u ev op s w1) = fst (file_step u ev op s w2) /\
  (forall m, w_open w1 m = w_open w2 m -> w_open (snd (file_step u ev op s w1)) m = w_open (snd (file_step u ev op s w2)) m) /\
  (forall m, (forall fl, op <> FOpenHandle m fl) -> w_open (snd (file_step u ev op s w1)) m = w_open w1 m).
Proof.
  intros Ho Hn. destruct op; try discriminate Ho; cbn [file_step].
  - unfold file_open. cbv zeta.
    destruct (open_world u ev {| w_open := w_open w1; w_own := w_own w1 + 1 |} {| w_open := w_open w2; w_own := w_own w2 + 1 |} s Own flags)
      as (E1 & E2 & E3); [discriminate|]. cbn [w_open] in *.
    destruct (file_open_handle u ev {| w_open := w_open w1; w_own := w_own w1 + 1 |} s Own flags) as [[r1 s1] v1],
      (file_open_handle u ev {| w_open := w_open w2; w_own := w_own w2 + 1 |} s Own flags) as [[r2 s2] v2]. cbn [fst snd] in *.
    apply pair_equal_spec in E1 as [<- <-].
    assert (E4 : forall m, (forall fl, FOpen flags <> FOpenHandle m fl) -> w_open v1 m = w_open w1 m) by (intros m _; apply E3; discriminate).
    destruct r1 as [[]| | |]; cbn [fst snd w_open]; auto.
  - destruct (open_world u ev w1 w2 s (User n) flags) as (E1 & E2 & E3).
    { intros k [= <-]. eauto. }
    destruct (file_open_handle u ev w1 s (User n) flags) as [[r1 s1] v1], (file_open_handle u ev w2 s (User n) flags) as [[r2 s2] v2]. cbn [fst snd] in *.
    apply pair_equal_spec in E1 as [<- <-]. split; [reflexivity|]. split; [exact E2|]. intros m Hm. apply E3. intros [= ->]. exact (Hm flags eq_refl).
Qed.

(** The handle of a file after it was opened. *)
Lemma opens_handle u ev op s w r s' w' n : L_Api.opens op = true -> file_step u ev op s w = (r, s', w') -> fs_handle s' = Some (User n) ->
  fs_handle s = Some (User n) \/ exists fl, op = FOpenHandle n fl.
Proof.
  intros Ho H Hs.
  assert (HH : forall h flags v q t v', file_open_handle u ev v s h flags = (q, t, v') -> fs_handle t = Some (User n) ->
     fs_handle s = Some (User n) \/ h = User n).
  { intros h flags v q t v' E Et. unfold file_open_handle in E. destruct (fs_handle s) as [k|] eqn:Ek.
    { apply pair_equal_spec in E as [E _]. apply pair_equal_spec in E as [_ <-]. left. congruence. }
    destruct (negb (flag_read flags) && _); [apply pair_equal_spec in E as [E _]; apply pair_equal_spec in E as [_ <-]; congruence|].
    destruct (flag_write flags); [apply pair_equal_spec in E as [E _]; apply pair_equal_spec in E as [_ <-]; congruence|].
    destruct (negb (ev_is_open ev)); [apply pair_equal_spec in E as [E _]; apply pair_equal_spec in E as [_ <-]; congruence|]. cbv zeta in E.
    destruct (_ && negb (ev_open ev)).
    - destruct (fs_opened s); apply pair_equal_spec in E as [E _]; apply pair_equal_spec in E as [_ <-]; cbn in Et; congruence.
    - destruct (file_open_read _ _ _ _) as [r1 io1]. destruct r1; [|destruct (_ && _)|..]; apply pair_equal_spec in E as [E _];
        apply pair_equal_spec in E as [_ <-]; cbn in Et; try congruence. right. congruence. }
  destruct op; try discriminate Ho; cbn [file_step] in H.
  - unfold file_open in H. cbv zeta in H. destruct (file_open_handle _ _ _ _ _ _) as [[q t] v'] eqn:E.
    specialize (HH _ _ _ _ _ _ E). left.
    destruct q as [[]| | |]; apply pair_equal_spec in H as [H _]; apply pair_equal_spec in H as [_ <-]; cbn in Hs;
      destruct (HH Hs) as [?|?]; congruence.
  - destruct (file_open_handle _ _ _ _ _ _) as [[q t] v'] eqn:E. apply pair_equal_spec in H as [H _]; apply pair_equal_spec in H as [_ <-].
    destruct (HH _ _ _ _ _ _ E Hs) as [?|[= ->]]; eauto.
Qed.

Section Apart.
Variable lib : clib.
Variable H : home.

(** Everything is at home. *)
Record settled (a : astate) : Prop := {
  sd_items : forall i g k c, as_items a i = Some (Some (g, k, c)) -> g = hm_item H i;
  sd_sections : forall c x i, as_sections a c = Some (Some (x, i)) -> hm_set H x = hm_section H c;
  sd_values : forall v x i j, as_values a v = Some (Some (x, i, j)) -> hm_set H x = hm_value H v;
  sd_handles : forall f x n, as_files a f = Some x -> fs_handle x = Some (User n) -> hm_handle H n = f
}.

Record agree (f : nat) (a b : astate) : Prop := {
  ag_file : as_files a f = as_files b f;
  ag_items : forall i, hm_item H i = f -> as_items a i = as_items b i;
  ag_sets : forall i, hm_set H i = f -> as_sets a i = as_sets b i;
  ag_sections : forall i, hm_section H i = f -> as_sections a i = as_sections b i;
  ag_values : forall i, hm_value H i = f -> as_values a i = as_values b i;
  ag_open : forall n, hm_handle H n = f -> w_open (as_world a) n = w_open (as_world b) n
}.

Lemma agree_refl f a : agree f a a.
Proof. constructor; auto. Qed.
Lemma agree_trans f a b c : agree f a b -> agree f b c -> agree f a c.
Proof.
  intros [A1 A2 A3 A4 A5 A6] [B1 B2 B3 B4 B5 B6]. constructor.
  - congruence.
  - intros i Hi. rewrite (A2 i Hi). auto.
  - intros i Hi. rewrite (A3 i Hi). auto.
  - intros i Hi. rewrite (A4 i Hi). auto.
  - intros i Hi. rewrite (A5 i Hi). auto.
  - intros i Hi. rewrite (A6 i Hi). auto.
Qed.
Lemma agree_sym f a b : agree f a b -> agree f b a.
Proof. intros []. constructor; intros; symmetry; auto. Qed.

Lemma upd_agree {A} (m1 m2 : nat -> A) i x j : m1 j = m2 j -> upd m1 i x j = upd m2 i x j.
Proof. unfold upd. destruct (Nat.eqb j i); auto. Qed.

(** The same change on both sides. *)
Lemma agree_file f a b g x : agree f a b -> agree f (a_file a g x) (a_file b g x).
Proof. intros []. constructor; cbn; auto. apply upd_agree. auto. Qed.
Lemma agree_item f a b g x : agree f a b -> agree f (a_item a g x) (a_item b g x).
Proof. intros []. constructor; cbn; auto. intros. apply upd_agree. auto. Qed.
Lemma agree_set f a b g x : agree f a b -> agree f (a_set a g x) (a_set b g x).
Proof. intros []. constructor; cbn; auto. intros. apply upd_agree. auto. Qed.
Lemma agree_section f a b g x : agree f a b -> agree f (a_section a g x) (a_section b g x).
Proof. intros []. constructor; cbn; auto. intros. apply upd_agree. auto. Qed.
Lemma agree_value f a b g x : agree f a b -> agree f (a_value a g x) (a_value b g x).
Proof. intros []. constructor; cbn; auto. intros. apply upd_agree. auto. Qed.
Lemma agree_kill f a b g : agree f a b -> agree f (kill_items a g) (kill_items b g).
Proof. intros [A1 A2 A3 A4 A5 A6]. constructor; cbn; auto. intros i Hi. rewrite (A2 i Hi). reflexivity. Qed.
Lemma agree_kill_parts f a b g : agree f a b -> agree f (kill_parts a g) (kill_parts b g).
Proof.
  intros [A1 A2 A3 A4 A5 A6]. constructor; cbn; auto; intros i Hi; [rewrite (A4 i Hi)|rewrite (A5 i Hi)]; reflexivity.
Qed.
Lemma agree_world f a b v w : agree f a b -> (forall n, hm_handle H n = f -> w_open v n = w_open w n) ->
  agree f (a_world a v) (a_world b w).
Proof. intros [A1 A2 A3 A4 A5 A6] Hw. constructor; cbn; auto. Qed.

(** A change elsewhere. *)
Lemma away_file f a g x : g <> f -> agree f a (a_file a g x).
Proof. intros N. constructor; cbn; auto. unfold upd. destruct (Nat.eqb_spec f g); congruence. Qed.
Lemma away_item f a i x : hm_item H i <> f -> agree f a (a_item a i x).
Proof. intros N. constructor; cbn; auto. intros j Hj. unfold upd. destruct (Nat.eqb_spec j i); congruence. Qed.
Lemma away_set f a i x : hm_set H i <> f -> agree f a (a_set a i x).
Proof. intros N. constructor; cbn; auto. intros j Hj. unfold upd. destruct (Nat.eqb_spec j i); congruence. Qed.
Lemma away_section f a i x : hm_section H i <> f -> agree f a (a_section a i x).
Proof. intros N. constructor; cbn; auto. intros j Hj. unfold upd. destruct (Nat.eqb_spec j i); congruence. Qed.
Lemma away_value f a i x : hm_value H i <> f -> agree f a (a_value a i x).
Proof. intros N. constructor; cbn; auto. intros j Hj. unfold upd. destruct (Nat.eqb_spec j i); congruence. Qed.
Lemma away_kill f a g : settled a -> g <> f -> agree f a (kill_items a g).
Proof.
  intros S N. constructor; cbn; auto. intros i Hi. destruct (as_items a i) as [[[[g' k] c]|]|] eqn:E; auto.
  pose proof (sd_items _ S _ _ _ _ E). destruct (Nat.eqb_spec g' g); [congruence|reflexivity].
Qed.
Lemma away_kill_parts f a x : settled a -> hm_set H x <> f -> agree f a (kill_parts a x).
Proof.
  intros S N. constructor; cbn; auto; intros i Hi.
  - destruct (as_sections a i) as [[[y k]|]|] eqn:E; auto. pose proof (sd_sections _ S _ _ _ E).
    destruct (Nat.eqb_spec y x); [congruence|reflexivity].
  - destruct (as_values a i) as [[[[y k] j]|]|] eqn:E; auto. pose proof (sd_values _ S _ _ _ _ E).
    destruct (Nat.eqb_spec y x); [congruence|reflexivity].
Qed.
Lemma away_world f a w : (forall n, hm_handle H n = f -> w_open w n = w_open (as_world a) n) -> agree f a (a_world a w).
Proof. intros Hw. constructor; cbn; auto. intros n Hn. symmetry. auto. Qed.
Lemma away_set_open f a n b : hm_handle H n <> f -> agree f a (a_world a (set_open (as_world a) n b)).
Proof.
  intros N. apply away_world. intros m Hm. cbn. destruct (Nat.eqb_spec m n); [congruence|reflexivity].
Qed.

(** ** Staying settled *)
Lemma settled_start : settled a_start.
Proof. constructor; cbn; discriminate. Qed.
Lemma settled_world a w : settled a -> settled (a_world a w).
Proof. intros []. constructor; auto. Qed.
Lemma settled_file a f x : settled a -> (forall y n, x = Some y -> fs_handle y = Some (User n) -> hm_handle H n = f) -> settled (a_file a f x).
Proof.
  intros [S1 S2 S3 S4] Hx. constructor; cbn; auto. intros g y n. unfold upd. destruct (Nat.eqb_spec g f) as [->|N]; [|apply S4].
  apply Hx.
Qed.
Lemma settled_item a i x : settled a -> (forall g k c, x = Some (Some (g, k, c)) -> g = hm_item H i) -> settled (a_item a i x).
Proof.
  intros [S1 S2 S3 S4] Hx. constructor; cbn; auto. intros j g k c. unfold upd. destruct (Nat.eqb_spec j i) as [->|N]; [|apply S1]. apply Hx.
Qed.
Lemma settled_set a i x : settled a -> settled (a_set a i x).
Proof. intros []. constructor; auto. Qed.
Lemma settled_section a i x : settled a -> (forall y k, x = Some (Some (y, k)) -> hm_set H y = hm_section H i) -> settled (a_section a i x).
Proof.
  intros [S1 S2 S3 S4] Hx. constructor; cbn; auto. intros j g k. unfold upd. destruct (Nat.eqb_spec j i) as [->|N]; [|apply S2]. apply Hx.
Qed.
Lemma settled_value a i x : settled a -> (forall y k z, x = Some (Some (y, k, z)) -> hm_set H y = hm_value H i) -> settled (a_value a i x).
Proof.
  intros [S1 S2 S3 S4] Hx. constructor; cbn; auto. intros j g k z. unfold upd. destruct (Nat.eqb_spec j i) as [->|N]; [|apply S3]. apply Hx.
Qed.
Lemma settled_kill a f : settled a -> settled (kill_items a f).
Proof.
  intros [S1 S2 S3 S4]. constructor; cbn; auto. intros i g k c. destruct (as_items a i) as [[[[g' k'] c']|]|] eqn:E; try discriminate.
  destruct (Nat.eqb g' f); [discriminate|]. intros [= <- <- <-]. eauto.
Qed.
Lemma settled_kill_parts a f : settled a -> settled (kill_parts a f).
Proof.
  intros [S1 S2 S3 S4]. constructor; cbn; auto.
  - intros i g k. destruct (as_sections a i) as [[[g' k']|]|] eqn:E; try discriminate.
    destruct (Nat.eqb g' f); [discriminate|]. intros [= <- <-]. eauto.
  - intros i g k c. destruct (as_values a i) as [[[[g' k'] c']|]|] eqn:E; try discriminate.
    destruct (Nat.eqb g' f); [discriminate|]. intros [= <- <- <-]. eauto.
Qed.

Lemma query_handle ev q op x w r x' w' u : query_op q = Some op -> file_step u ev op x w = (r, x', w') -> fs_handle x' = fs_handle x.
Proof.
  intros Eq E. destruct q; try discriminate Eq; injection Eq as <-; cbn [file_step] in E; try (injection E as <- <- <-; reflexivity).
  destruct (file_set_codepage x codepage) as [r0 x0] eqn:E0. unfold file_set_codepage in E0.
  destruct (existsb _ codepages); injection E0 as <- <-; injection E as <- <- <-; reflexivity.
Qed.

Lemma query_world ev q op x v w u : query_op q = Some op -> fst (file_step u ev op x v) = fst (file_step u ev op x w).
Proof.
  intros Eq. destruct q; try discriminate Eq; injection Eq as <-; cbn [file_step]; try reflexivity.
  destruct (file_set_codepage x codepage). reflexivity.
Qed.

Lemma close_no_handle ev x w r x' w' u n : file_step u ev FClose x w = (r, x', w') -> fs_handle x' = Some (User n) -> False.
Proof.
  cbn [file_step]. unfold file_close. destruct (fs_handle x) as [h|] eqn:E.
  - cbv zeta. intros E1 E2. apply pair_equal_spec in E1 as [E1 _]. apply pair_equal_spec in E1 as [_ <-]. discriminate.
  - intros E1 E2. apply pair_equal_spec in E1 as [E1 _]. apply pair_equal_spec in E1 as [_ <-]. congruence.
Qed.

Lemma step_settled ce c a : settled a -> at_home H c -> settled (snd (a_step lib ce c a)).
Proof.
  intros S HC. destruct c; cbn [a_step at_home] in *; unfold a_on_file, a_file_item, a_on_file, a_new_item.
  - destruct (as_files a f); [exact S|]. destruct (ce_memory ce); [|exact S]. apply settled_file; [exact S|].
    intros y n [= <-]. discriminate.
  - destruct (as_files a f); [|exact S]. destruct (file_free _ _ _). apply settled_world, settled_file; [apply settled_kill; exact S|]. discriminate.
  - destruct (as_files a f) as [x|] eqn:Ef; [|exact S]. destruct (file_step _ _ _ _ _) as [[r x'] w'] eqn:E.
    apply settled_world, settled_file; [exact S|]. intros y n [= <-] Hn.
    destruct (opens_handle _ _ (FOpen flags) _ _ _ _ _ _ eq_refl E Hn) as [Hx|(fl & Hx)]; [|discriminate]. eapply sd_handles; eauto.
  - destruct (as_files a f) as [x|] eqn:Ef; [|exact S]. destruct (file_step _ _ _ _ _) as [[r x'] w'] eqn:E.
    apply settled_world, settled_file; [exact S|]. intros y m [= <-] Hn.
    destruct (opens_handle _ _ (FOpenHandle n flags) _ _ _ _ _ _ eq_refl E Hn) as [Hx|(fl & [= -> _])]; [|exact HC]. eapply sd_handles; eauto.
  - destruct (as_files a f) as [x|] eqn:Ef; [|exact S]. destruct (file_step _ _ _ _ _) as [[r x'] w'] eqn:E.
    destruct (fs_handle x); [|exact S]. apply settled_world, settled_file; [apply settled_kill; exact S|]. intros y n [= <-] Hn.
    destruct (close_no_handle _ _ _ _ _ _ _ _ E Hn).
  - destruct (as_files a f) as [x|] eqn:Ef; [|exact S]. destruct (query_op q) eqn:Eq; [|exact S].
    destruct (file_step _ _ _ _ _) as [[r x'] w'] eqn:E. apply settled_file; [exact S|]. intros y n [= <-] Hn.
    rewrite (query_handle _ _ _ _ _ _ _ _ _ Eq E) in Hn. eapply sd_handles; eauto.
  - destruct (as_files a f); [|exact S]. destruct (as_items a i); [exact S|]. destruct (get_root_item _) as [[k|]| | |]; try exact S.
    destruct (ce_memory ce); [|exact S]. destruct (node_value _ k); try exact S. apply settled_item; [exact S|]. intros g k' c [= <- _ _]. auto.
  - destruct (as_files a f); [|exact S]. destruct (as_items a i); [exact S|]. destruct (item_by_utf8_path _ _ _ _) as [[k|]| | |]; try exact S.
    destruct (ce_memory ce); [|exact S]. destruct (node_value _ k); try exact S. apply settled_item; [exact S|]. intros g k' c [= <- _ _]. auto.
  - destruct (as_files a f); [|exact S]. destruct (as_items a i); [exact S|]. destruct (item_by_utf16_path _ _ _ _) as [[k|]| | |]; try exact S.
    destruct (ce_memory ce); [|exact S]. destruct (node_value _ k); try exact S. apply settled_item; [exact S|]. intros g k' c [= <- _ _]. auto.
  - apply settled_item; [exact S|]. discriminate.
  - destruct (as_items a i); exact S.
  - destruct (as_items a i) as [o|] eqn:Ei; [|exact S]. destruct (as_items a j); [exact S|].
    destruct (tree_found _ _ _ _ _) as [[k|]| | |]; try exact S. destruct (ce_memory ce); [|exact S].
    destruct (node_value (a_tree a o) k) eqn:En; try exact S. apply settled_item; [exact S|]. intros g k' c [= <- _ _].
    destruct o as [[[f k1] c1]|]; [|cbn in En; rewrite freed_node_value in En; discriminate]. rewrite HC. eapply sd_items; eauto.
  - destruct (as_items a i) as [[[[f k] c]|]|] eqn:Ei; [|exact S..]. destruct (a_stream a _) as [[[d v] cp]|]; [|exact S].
    destruct (item_step _ _ _ _ _) as [r c']. apply settled_item; [exact S|]. intros g k' c1 [= <- _ _]. eapply sd_items; eauto.
  - destruct (as_items a i) as [o|] eqn:Ei; [|exact S]. destruct (as_sets a x); [exact S|]. destruct (negb _); [exact S|].
    destruct o as [[[f k] c]|]; [|exact S]. destruct (a_stream a _) as [[[d v] cp]|]; [|exact S].
    destruct (fst (get_set _ _ _ _ _ _ _)) as [[y c']| | |]; cbn [snd]; try exact S.
    + apply settled_set, settled_item; [exact S|]. intros g k' c1 [= <- _ _]. eapply sd_items; eauto.
    + apply settled_item; [exact S|]. intros g k' c1 [= <- _ _]. eapply sd_items; eauto.
  - destruct (as_sets a x); [|exact S]. apply settled_set, settled_kill_parts, S.
  - destruct (as_sets a x); exact S.
  - destruct (as_sets a x); exact S.
  - destruct (as_sets a x); [|exact S]. destruct (as_sections a c); [exact S|]. destruct (get_section _ _); try exact S.
    apply settled_section; [exact S|]. intros y k [= <- _]. auto.
  - apply settled_section; [exact S|]. discriminate.
  - destruct (as_sections a c) as [o|]; [|exact S]. destruct (size <? 16); [exact S|]. destruct (a_part a o); exact S.
  - destruct (as_sections a c) as [o|]; [|exact S]. destruct (a_part a o); exact S.
  - destruct (as_sections a c) as [o|] eqn:Ec; [|exact S]. destruct (as_values a v) eqn:Ev; [exact S|].
    destruct o as [[p k]|]; [|exact S]. destruct (a_part a _); [|exact S]. destruct (get_property _ _); try exact S.
    apply settled_value; [exact S|]. intros y k' z [= <- _ _]. rewrite HC. eapply sd_sections; eauto.
  - apply settled_value; [exact S|]. discriminate.
  - destruct (as_values a v) as [o|]; [|exact S]. destruct (a_part_value a o); exact S.
  - apply settled_world. exact S.
  - apply settled_world. exact S.
Qed.

(** ** A call for another file *)
Lemma step_away ce c a f : settled a -> at_home H c -> home_of H c <> f -> agree f a (snd (a_step lib ce c a)).
Proof.
  intros S HC N. pose proof (agree_refl f a) as R.
  destruct c; cbn [a_step at_home home_of] in *; unfold a_on_file, a_file_item, a_on_file, a_new_item.
  - destruct (as_files a f0); [exact R|]. destruct (ce_memory ce); [|exact R]. apply away_file. exact N.
  - destruct (as_files a f0) as [x|] eqn:Ef; [|exact R]. destruct (file_free _ _ _) as [r w'] eqn:E. cbn [snd].
    eapply agree_trans; [apply away_kill; eauto|]. eapply agree_trans; [apply away_file; exact N|]. apply away_world.
    intros n Hn. cbn. unfold file_free in E. destruct (fs_handle x) eqn:Eh; [|injection E as _ <-; reflexivity].
    pose proof (proj2 (proj2 (close_world (ce_io ce) (as_world a) (as_world a) x)) n) as Hc.
    destruct (file_close _ _ _) as [[r1 x1] w1]. injection E as _ <-. apply Hc. intros E1. apply N. rewrite <- Hn. symmetry.
    eapply sd_handles; eauto.
  - destruct (as_files a f0) as [x|] eqn:Ef; [|exact R].
    pose proof (proj2 (proj2 (opens_world (cl_una lib) (ce_io ce) (FOpen flags) (as_world a) (as_world a) x eq_refl (fun _ _ _ => eq_refl)))) as Hw.
    destruct (file_step _ _ _ _ _) as [[r x'] w'] eqn:E. cbn [snd] in *.
    eapply agree_trans; [apply away_file; exact N|]. apply away_world. intros n Hn. apply Hw. discriminate.
  - destruct (as_files a f0) as [x|] eqn:Ef; [|exact R].
    pose proof (proj2 (proj2 (opens_world (cl_una lib) (ce_io ce) (FOpenHandle n flags) (as_world a) (as_world a) x eq_refl (fun _ _ _ => eq_refl)))) as Hw.
    destruct (file_step _ _ _ _ _) as [[r x'] w'] eqn:E. cbn [snd] in *.
    eapply agree_trans; [apply away_file; exact N|]. apply away_world. intros m Hm. apply Hw. intros fl [= -> _]. congruence.
  - destruct (as_files a f0) as [x|] eqn:Ef; [|exact R].
    pose proof (proj2 (proj2 (close_world (ce_io ce) (as_world a) (as_world a) x))) as Hc. cbn [file_step].
    destruct (file_close _ _ _) as [[r1 x1] w1]. cbn [snd] in *. destruct (fs_handle x) eqn:Eh; [|exact R]. cbn [snd].
    eapply agree_trans; [apply away_kill; eauto|]. eapply agree_trans; [apply away_file; exact N|]. apply away_world.
    intros n Hn. apply Hc. intros E1. apply N. rewrite <- Hn. symmetry. rewrite <- Eh in E1. eapply sd_handles; eauto.
  - destruct (as_files a f0) as [x|] eqn:Ef; [|exact R]. destruct (query_op q); [|exact R].
    destruct (file_step _ _ _ _ _) as [[r x'] w']. apply away_file. exact N.
  - destruct (as_files a f0); [|exact R]. destruct (as_items a i); [exact R|]. destruct (get_root_item _) as [[k|]| | |]; try exact R.
    destruct (ce_memory ce); [|exact R]. destruct (node_value _ k); try exact R. apply away_item. congruence.
  - destruct (as_files a f0); [|exact R]. destruct (as_items a i); [exact R|]. destruct (item_by_utf8_path _ _ _ _) as [[k|]| | |]; try exact R.
    destruct (ce_memory ce); [|exact R]. destruct (node_value _ k); try exact R. apply away_item. congruence.
  - destruct (as_files a f0); [|exact R]. destruct (as_items a i); [exact R|]. destruct (item_by_utf16_path _ _ _ _) as [[k|]| | |]; try exact R.
    destruct (ce_memory ce); [|exact R]. destruct (node_value _ k); try exact R. apply away_item. congruence.
  - apply away_item. exact N.
  - destruct (as_items a i); exact R.
  - destruct (as_items a i) as [o|]; [|exact R]. destruct (as_items a j); [exact R|].
    destruct (tree_found _ _ _ _ _) as [[k|]| | |]; try exact R. destruct (ce_memory ce); [|exact R].
    destruct (node_value (a_tree a o) k); try exact R. apply away_item. congruence.
  - destruct (as_items a i) as [[[[g k] c]|]|]; [|exact R..]. destruct (a_stream a _) as [[[d v] cp]|]; [|exact R].
    destruct (item_step _ _ _ _ _) as [r c']. apply away_item. exact N.
  - destruct (as_items a i) as [o|]; [|exact R]. destruct (as_sets a x); [exact R|]. destruct (negb _); [exact R|].
    destruct o as [[[g k] c]|]; [|exact R]. destruct (a_stream a _) as [[[d v] cp]|]; [|exact R].
    destruct (fst (get_set _ _ _ _ _ _ _)) as [[y c']| | |]; cbn [snd]; try exact R.
    + eapply agree_trans; [apply away_item; exact N|]. apply away_set. congruence.
    + apply away_item. exact N.
  - destruct (as_sets a x); [|exact R]. cbn [snd]. eapply agree_trans; [apply away_kill_parts; eauto|]. apply away_set. exact N.
  - destruct (as_sets a x); exact R.
  - destruct (as_sets a x); exact R.
  - destruct (as_sets a x); [|exact R]. destruct (as_sections a c); [exact R|]. destruct (get_section _ _); try exact R.
    apply away_section. congruence.
  - apply away_section. exact N.
  - destruct (as_sections a c) as [o|]; [|exact R]. destruct (size <? 16); [exact R|]. destruct (a_part a o); exact R.
  - destruct (as_sections a c) as [o|]; [|exact R]. destruct (a_part a o); exact R.
  - destruct (as_sections a c) as [o|]; [|exact R]. destruct (as_values a v); [exact R|].
    destruct o as [[p k]|]; [|exact R]. destruct (a_part a _); [|exact R]. destruct (get_property _ _); try exact R.
    apply away_value. congruence.
  - apply away_value. exact N.
  - destruct (as_values a v) as [o|]; [|exact R]. destruct (a_part_value a o); exact R.
  - apply away_set_open. exact N.
  - apply away_set_open. exact N.
Qed.

(** ** A call for this file *)
Definition alike (f : nat) (x y : answer * astate) : Prop := fst x = fst y /\ agree f (snd x) (snd y).

Lemma alike_mk f r a b : agree f a b -> alike f (r, a) (r, b).
Proof. split; auto. Qed.

Lemma tree_alike f a b o : agree f a b -> (forall g k c, o = Some (g, k, c) -> g = f) ->
  a_tree a o = a_tree b o /\ a_order a o = a_order b o /\ a_stream a o = a_stream b o.
Proof.
  intros R Ho. destruct o as [[[g k] c]|]; [|auto]. rewrite (Ho g k c eq_refl).
  unfold a_stream, a_entry, a_tree, a_order. rewrite (ag_file _ _ _ R). auto.
Qed.

Lemma file_item_alike f ce lookup i a b : agree f a b -> hm_item H i = f ->
  alike f (a_file_item ce f lookup i a) (a_file_item ce f lookup i b).
Proof.
  intros R Hi. unfold a_file_item, a_on_file, a_new_item. rewrite <- (ag_file _ _ _ R), <- (ag_items _ _ _ R i Hi).
  destruct (as_files a f); [|apply alike_mk, R]. destruct (as_items a i); [apply alike_mk, R|].
  destruct (lookup _) as [[k|]| | |]; try (apply alike_mk, R).
  destruct (ce_memory ce); [|apply alike_mk, R]. destruct (node_value _ k); try (apply alike_mk, R). apply alike_mk, agree_item, R.
Qed.

Lemma step_alike ce c a b f : settled a -> at_home H c -> home_of H c = f -> agree f a b ->
  alike f (a_step lib ce c a) (a_step lib ce c b).
Proof.
  intros S HC HF R. pose proof (fun r => alike_mk f r _ _ R) as K.
  assert (HO : forall i o, as_items a i = Some o -> hm_item H i = f -> forall g k c, o = Some (g, k, c) -> g = f).
  { intros i o E Hi g k c' ->. rewrite <- Hi. eapply sd_items; eauto. }
  assert (HW : forall op, L_Api.opens op = true -> (forall n fl, op = FOpenHandle n fl -> hm_handle H n = f) ->
     alike f (a_on_file a f (fun x => match file_step (cl_una lib) (ce_io ce) op x (as_world a) with
                  (r, x', w') => (of_file r, a_world (a_file a f (Some x')) w') end))
             (a_on_file b f (fun x => match file_step (cl_una lib) (ce_io ce) op x (as_world b) with
                  (r, x', w') => (of_file r, a_world (a_file b f (Some x')) w') end))).
  { intros op Ho Hn. unfold a_on_file. rewrite <- (ag_file _ _ _ R). destruct (as_files a f) as [x|]; [|apply K].
    destruct (opens_world (cl_una lib) (ce_io ce) op (as_world a) (as_world b) x Ho) as (E1 & E2 & _).
    { intros n fl E. apply (ag_open _ _ _ R). eauto. }
    destruct (file_step _ _ op x (as_world a)) as [[r1 x1] v1], (file_step _ _ op x (as_world b)) as [[r2 x2] v2]. cbn [fst snd] in *.
    apply pair_equal_spec in E1 as [<- <-]. apply alike_mk. apply agree_world; [apply agree_file, R|].
    intros n E. apply E2. apply (ag_open _ _ _ R). exact E. }
  destruct c; cbn [at_home home_of] in *; cbn [a_step].
  - subst f0. rewrite <- (ag_file _ _ _ R). destruct (as_files a f); [apply K|]. destruct (ce_memory ce); [|apply K].
    apply alike_mk, agree_file, R.
  - subst f0. rewrite <- (ag_file _ _ _ R). destruct (as_files a f) as [x|]; [|apply K].
    destruct (close_world (ce_io ce) (as_world a) (as_world b) x) as (E1 & E2 & _). unfold file_free.
    destruct (fs_handle x).
    + destruct (file_close (ce_io ce) (as_world a) x) as [[r1 x1] v1], (file_close (ce_io ce) (as_world b) x) as [[r2 x2] v2]. cbn [fst snd] in *.
      apply pair_equal_spec in E1 as [<- <-]. apply alike_mk, agree_world; [apply agree_file, agree_kill, R|].
      intros n E. apply E2, (ag_open _ _ _ R), E.
    + apply alike_mk, agree_world; [apply agree_file, agree_kill, R|]. apply (ag_open _ _ _ R).
  - subst f0. apply HW; [reflexivity|discriminate].
  - rewrite HF in *. apply HW; [reflexivity|]. intros m fl [= <- _]. exact HC.
  - subst f0. unfold a_on_file. rewrite <- (ag_file _ _ _ R). destruct (as_files a f) as [x|]; [|apply K].
    destruct (close_world (ce_io ce) (as_world a) (as_world b) x) as (E1 & E2 & _). cbn [file_step].
    destruct (file_close (ce_io ce) (as_world a) x) as [[r1 x1] v1], (file_close (ce_io ce) (as_world b) x) as [[r2 x2] v2]. cbn [fst snd] in *.
    apply pair_equal_spec in E1 as [<- <-]. destruct (fs_handle x); [|apply K].
    apply alike_mk, agree_world; [apply agree_file, agree_kill, R|]. intros n E. apply E2, (ag_open _ _ _ R), E.
  - subst f0. unfold a_on_file. rewrite <- (ag_file _ _ _ R). destruct (as_files a f) as [x|]; [|apply K].
    destruct (query_op q) as [op|] eqn:Eq; [|apply K].
    pose proof (query_world (ce_io ce) q op x (as_world a) (as_world b) (cl_una lib) Eq) as E1.
    destruct (file_step _ _ op x (as_world a)) as [[r1 x1] v1], (file_step _ _ op x (as_world b)) as [[r2 x2] v2]. cbn [fst snd] in *.
    apply pair_equal_spec in E1 as [<- <-]. apply alike_mk, agree_file, R.
  - rewrite HF in *. apply file_item_alike; auto.
  - rewrite HF in *. apply file_item_alike; auto.
  - rewrite HF in *. apply file_item_alike; auto.
  - apply alike_mk, agree_item, R.
  - rewrite <- (ag_items _ _ _ R i HF). destruct (as_items a i) as [o|] eqn:Ei; [|apply K].
    destruct (tree_alike f a b o R (HO i o Ei HF)) as (E1 & E2 & _).
    replace (a_item_value lib b o q) with (a_item_value lib a o q); [apply K|]. unfold a_item_value, a_entry. rewrite E1, E2. reflexivity.
  - rewrite <- (ag_items _ _ _ R i HF), <- (ag_items _ _ _ R j) by congruence.
    destruct (as_items a i) as [o|] eqn:Ei; [|apply K]. destruct (as_items a j); [apply K|].
    destruct (tree_alike f a b o R (HO i o Ei HF)) as (E1 & E2 & _). rewrite <- E1, <- E2. unfold a_new_item.
    destruct (tree_found _ _ _ _ _) as [[k|]| | |]; try apply K. destruct (ce_memory ce); [|apply K].
    destruct (node_value (a_tree a o) k); try apply K. apply alike_mk, agree_item, R.
  - rewrite <- (ag_items _ _ _ R i HF). destruct (as_items a i) as [o|] eqn:Ei; [|apply K].
    destruct (tree_alike f a b o R (HO i o Ei HF)) as (_ & _ & E3).
    destruct o as [[[g k] c]|]; [|apply K]. rewrite <- E3. destruct (a_stream a _) as [[[d v] cp]|]; [|apply K].
    destruct (item_step _ _ _ _ _) as [r c']. apply alike_mk, agree_item, R.
  - rewrite <- (ag_items _ _ _ R i HF), <- (ag_sets _ _ _ R x) by congruence.
    destruct (as_items a i) as [o|] eqn:Ei; [|apply K]. destruct (as_sets a x); [apply K|]. destruct (negb _); [apply K|].
    destruct (tree_alike f a b o R (HO i o Ei HF)) as (_ & _ & E3).
    destruct o as [[[g k] c]|]; [|apply K]. rewrite <- E3. destruct (a_stream a _) as [[[d v] cp]|]; [|apply K].
    destruct (fst (get_set _ _ _ _ _ _ _)) as [[y c']| | |]; try apply K.
    + apply alike_mk, agree_set, agree_item, R.
    + apply alike_mk, agree_item, R.
  - rewrite <- (ag_sets _ _ _ R x HF). destruct (as_sets a x); [|apply K]. apply alike_mk, agree_set, agree_kill_parts, R.
  - rewrite <- (ag_sets _ _ _ R x HF). destruct (as_sets a x); apply K.
  - rewrite <- (ag_sets _ _ _ R x HF). destruct (as_sets a x); apply K.
  - rewrite <- (ag_sets _ _ _ R x HF), <- (ag_sections _ _ _ R c) by congruence. destruct (as_sets a x); [|apply K].
    destruct (as_sections a c); [apply K|]. destruct (get_section _ _); try apply K. apply alike_mk, agree_section, R.
  - apply alike_mk, agree_section, R.
  - rewrite <- (ag_sections _ _ _ R c HF). destruct (as_sections a c) as [o|] eqn:Ec; [|apply K]. destruct (size <? 16); [apply K|].
    assert (E : a_part a o = a_part b o).
    { destruct o as [[x i]|]; [|reflexivity]. cbn. rewrite <- (ag_sets _ _ _ R x); [reflexivity|]. rewrite <- HF. eapply sd_sections; eauto. }
    rewrite <- E. destruct (a_part a o); apply K.
  - rewrite <- (ag_sections _ _ _ R c HF). destruct (as_sections a c) as [o|] eqn:Ec; [|apply K].
    assert (E : a_part a o = a_part b o).
    { destruct o as [[x i]|]; [|reflexivity]. cbn. rewrite <- (ag_sets _ _ _ R x); [reflexivity|]. rewrite <- HF. eapply sd_sections; eauto. }
    rewrite <- E. destruct (a_part a o); apply K.
  - rewrite <- (ag_sections _ _ _ R c HF), <- (ag_values _ _ _ R v) by congruence. destruct (as_sections a c) as [o|] eqn:Ec; [|apply K].
    destruct (as_values a v); [apply K|].
    assert (E : a_part a o = a_part b o).
    { destruct o as [[x i]|]; [|reflexivity]. cbn. rewrite <- (ag_sets _ _ _ R x); [reflexivity|]. rewrite <- HF. eapply sd_sections; eauto. }
    destruct o as [[p k]|]; [|apply K]. rewrite <- E. destruct (a_part a _); [|apply K]. destruct (get_property _ _); try apply K.
    apply alike_mk, agree_value, R.
  - apply alike_mk, agree_value, R.
  - rewrite <- (ag_values _ _ _ R v HF). destruct (as_values a v) as [o|] eqn:Ec; [|apply K].
    assert (E : a_part_value a o = a_part_value b o).
    { destruct o as [[[x i] j]|]; [|reflexivity]. cbn. rewrite <- (ag_sets _ _ _ R x); [reflexivity|]. rewrite <- HF. eapply sd_values; eauto. }
    rewrite <- E. destruct (a_part_value a o); apply K.
  - apply alike_mk, agree_world; [exact R|]. intros m Hm. cbn. destruct (Nat.eqb m n); [reflexivity|]. apply (ag_open _ _ _ R), Hm.
  - apply alike_mk, agree_world; [exact R|]. intros m Hm. cbn. destruct (Nat.eqb m n); [reflexivity|]. apply (ag_open _ _ _ R), Hm.
Qed.

Lemma run_apart f h : forall a b, Forall (fun x => at_home H (snd x)) h -> settled a -> agree f a b ->
  answers_for H f h (fst (a_run lib h a)) = fst (a_run lib (only H f h) b) /\ agree f (snd (a_run lib h a)) (snd (a_run lib (only H f h) b)).
Proof.
  unfold answers_for, only. induction h as [|[ce c] h IH]; intros a b HF S R; [auto|]. inversion HF as [|? ? HC HF']; subst. cbn [fst snd] in *.
  pose proof (step_settled ce c a S HC) as S1. cbn [a_run filter snd]. destruct (Nat.eqb_spec (home_of H c) f) as [Hf|Hf].
  - destruct (step_alike ce c a b f S HC Hf R) as [E R1]. cbn [a_run]. destruct (a_step lib ce c a) as [x a1], (a_step lib ce c b) as [y b1].
    cbn [fst snd] in *. destruct (IH a1 b1 HF' S1 R1) as [E1 R2]. destruct (a_run lib h a1) as [r a2].
    destruct (a_run lib (filter _ h) b1) as [r' b2]. cbn [fst snd combine filter map] in *.
    destruct (Nat.eqb_spec (home_of H c) f) as [_|N]; [|congruence]. cbn [map snd]. rewrite E1, E. auto.
  - pose proof (step_away ce c a f S HC Hf) as R1. destruct (a_step lib ce c a) as [x a1]. cbn [fst snd] in *.
    destruct (IH a1 b HF' S1 (agree_trans _ _ _ _ (agree_sym _ _ _ R1) R)) as [E1 R2]. destruct (a_run lib h a1) as [r a2].
    cbn [fst snd combine filter map] in *. destruct (Nat.eqb_spec (home_of H c) f) as [N|_]; [congruence|]. auto.
Qed.

Lemma apart f h : Forall (fun x => at_home H (snd x)) h ->
  answers_for H f h (fst (c_run lib h c_start)) = fst (c_run lib (only H f h) c_start).
Proof. intros HF. rewrite !(answers_same lib). apply run_apart; [exact HF|apply settled_start|apply agree_refl]. Qed.
End Apart.
