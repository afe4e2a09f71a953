(** Lemmas on the file object. *)
From Coq Require Import ZArith List Bool Lia.
From Verif Require Import Base Spec_IO Spec_Load Spec_Tree M_Table M_Header M_Load M_Stream M_Tree M_Open M_Item M_File
  Spec_File L_Base L_Header L_Tree L_Open L_Open2.
Import ListNotations.
Open Scope Z_scope.

Definition data_of (o : opened) : fdata :=
  {| fd_msat := o_msat o; fd_sat := o_sat o; fd_ssat := o_ssat o; fd_tree := o_tree o |}.

(** The io_handle holds the header of [o] and, if there is a tree, the start of
    its short sectors. *)
Definition io_shows (io : io_state) (o : opened) : Prop :=
  let h := o_header o in
  io_major io = fh_major_format_version h /\ io_minor io = fh_minor_format_version h /\
  io_sector_size io = fh_sector_size h /\ io_short_sector_size io = fh_short_sector_size h /\
  io_minimum_size io = fh_sector_stream_minimum_data_size h /\
  io_byte_order io = Some (fh_byte_order h) /\
  (forall tr, o_tree o = Some tr -> io_start io = tr_container_start tr).

Lemma open_tables_lists u rd h m t :
  open_tables u rd h m t =
  match open_lists rd h m t with
  | (Ok (msat, sat, ssat, l), t') =>
      match create_tree u (fh_byte_order h) l with
      | Ok tr => (Ok {| o_header := h; o_msat := msat; o_sat := sat; o_ssat := ssat;
                        o_entries := l; o_tree := tr |}, t')
      | Err => (Err, t') | Undef => (Undef, t') | NoFuel => (NoFuel, t')
      end
  | (Err, t') => (Err, t') | (Undef, t') => (Undef, t') | (NoFuel, t') => (NoFuel, t')
  end.
Proof.
  unfold open_tables, open_lists, ibind.
  destruct (read_msat _ _ _ _ _ _ t) as [[a| | |] t1]; auto.
  destruct (ilift (table_initialize 0) t1) as [[b| | |] t2]; auto.
  destruct (read_sat _ _ _ _ _ _ t2) as [[c| | |] t3]; auto.
  destruct (ilift (table_initialize 0) t3) as [[d| | |] t4]; auto.
  destruct (read_ssat _ _ _ _ _ _ _ t4) as [[x| | |] t5]; auto.
  destruct (read_directory _ _ _ _ _ t5) as [[l| | |] t6]; auto.
Qed.

Lemma stored_start_tree u e l tr : create_tree u e l = Ok (Some tr) ->
  stored_start l = Some (tr_container_start tr).
Proof.
  unfold create_tree, stored_start. destruct l as [|d l]; [discriminate|].
  destruct (find_root (d :: l)) as [root|]; [|discriminate].
  destruct (de_sub root =? UNUSED); [discriminate|]. unfold rbind.
  destruct (process_entry _ _ _ _ _ _ _ _); intros [= <-]. reflexivity.
Qed.

Definition io_kept (io io' : io_state) : Prop :=
  io_codepage io' = io_codepage io /\ io_abort io' = io_abort io.

Lemma file_open_read_ok u rd io : una_ok u -> io_bytes rd ->
  exists r t, open_read u rd [] = (r, t) /\ io_kept io (snd (file_open_read u rd io None)) /\
    match r with
    | Ok o => fst (file_open_read u rd io None) = Ok (data_of o) /\
              io_shows (snd (file_open_read u rd io None)) o
    | Err => fst (file_open_read u rd io None) = Err
    | _ => False
    end.
Proof.
  intros Hu HB. destruct (open_read_cases u rd Hu HB) as (r & t & HO & Hd & _).
  exists r, t. split; [exact HO|]. revert HO Hd. unfold open_read, file_open_read, ibind.
  destruct (ilift (table_initialize 109) []) as [[m0| | |] t0];
    try (intros [= <- <-]; cbn; intuition (unfold io_kept; auto); fail).
  destruct (header_read rd m0 t0) as [[[h m1]| | |] t1]; try (intros [= <- <-]; cbn; intuition (unfold io_kept; auto); fail).
  rewrite open_tables_lists.
  destruct (open_lists rd h m1 t1) as [[[[[msat sat] ssat] l]| | |] t2];
    try (intros [= <- <-]; cbn; intuition (unfold io_kept; auto); fail).
  destruct (create_tree u (fh_byte_order h) l) as [tr| | |] eqn:E; intros [= <- <-] Hd; cbn in Hd; try contradiction;
    cbn [fst snd]; (split; [destruct (stored_start l); split; reflexivity|]); auto.
  split; [reflexivity|]. unfold io_shows. cbn.
  destruct tr as [tr|].
  - rewrite (stored_start_tree _ _ _ _ E). cbn. repeat split; auto. intros tr' [= <-]. reflexivity.
  - destruct (stored_start l); cbn; repeat split; auto; discriminate.
Qed.

(** ** The invariant *)
Definition file_inv (u : una) (s : fstate) : Prop :=
  match fs_handle s with
  | None => fs_data s = None /\ fs_created s = false /\ fs_opened s = false
  | Some h =>
      (exists rd o t, io_bytes rd /\ open_read u rd [] = (Ok o, t) /\
         fs_data s = Some (data_of o) /\ io_shows (fs_io s) o) /\
      match h with Own => fs_created s = true /\ fs_opened s = true | User _ => fs_created s = false end
  end.

Lemma new_inv u : file_inv u new_file.
Proof. repeat split. Qed.

(** What an open call does to a closed file: nothing but the io_handle
    changes if it fails. *)
Lemma open_handle_cases u ev w s h flags : una_ok u -> env_bytes ev ->
  fs_handle s = None -> fs_data s = None -> fs_opened s = false ->
  (exists io', io_kept (fs_io s) io' /\
    exists w', file_open_handle u ev w s h flags =
      (Err, {| fs_io := io'; fs_handle := None; fs_created := fs_created s; fs_opened := false; fs_data := None |}, w') /\
      w_own w' = w_own w /\
      (ev_close ev = true \/ (exists n, h = User n /\ w_open w n = true) -> forall n, w_open w' n = w_open w n) /\
      (flag_read flags = true /\ flag_write flags = false /\ ev_is_open ev = true /\
       (ev_open ev = true \/ exists n, h = User n /\ w_open w n = true) ->
       (exists t, open_read u (ev_reader ev) [] = (Err, t)) /\ io' = snd (file_open_read u (ev_reader ev) (fs_io s) None)) /\
      (io' = fs_io s \/
       (io' = snd (file_open_read u (ev_reader ev) (fs_io s) None) /\ exists t, open_read u (ev_reader ev) [] = (Err, t)))) \/
  (exists io' o t w', io_kept (fs_io s) io' /\ io_shows io' o /\ open_read u (ev_reader ev) [] = (Ok o, t) /\
     flag_read flags = true /\ flag_write flags = false /\ ev_is_open ev = true /\
     file_open_handle u ev w s h flags =
      (Ok tt, {| fs_io := io'; fs_handle := Some h; fs_created := fs_created s;
                 fs_opened := match h with User n => negb (w_open w n) | Own => true end;
                 fs_data := Some (data_of o) |}, w') /\
     w_own w' = w_own w /\
     (forall n, w_open w' n = match h with User m => if Nat.eqb n m then true else w_open w n | Own => w_open w n end)).
Proof.
  intros Hu HB Hh Hd Ho. destruct s as [io h0 cr op da]; cbn in Hh, Hd, Ho; subst.
  unfold file_open_handle; cbn -[file_open_read flag_read flag_write bfio_close].
  assert (Hsame : exists w', w' = w /\ w_own w' = w_own w /\ forall n, w_open w' n = w_open w n) by (exists w; auto).
  destruct (flag_write flags) eqn:Fw.
  { left. exists io. split; [split; reflexivity|]. exists w.
    split; [destruct (flag_read flags); reflexivity|]. split; [reflexivity|]. split; [auto|]. split; [intros (H1 & H2 & H3); congruence|auto]. }
  destruct (flag_read flags) eqn:Fr; cbn -[file_open_read flag_read flag_write bfio_close].
  2:{ left. exists io. split; [split; reflexivity|]. exists w.
      split; [reflexivity|]. split; [reflexivity|]. split; [auto|]. split; [intros (H1 & H2 & H3); congruence|auto]. }
  destruct (ev_is_open ev) eqn:Fi; cbn -[file_open_read flag_read flag_write bfio_close].
  2:{ left. exists io. split; [split; reflexivity|]. exists w.
      split; [reflexivity|]. split; [reflexivity|]. split; [auto|]. split; [intros (H1 & H2 & H3 & H4); congruence|auto]. }
  set (was := match h with User n => w_open w n | Own => false end).
  destruct (negb was && negb (ev_open ev)) eqn:Fo.
  { left. exists io. split; [split; reflexivity|]. exists w.
    split; [reflexivity|]. split; [reflexivity|]. split; [auto|]. split; [|auto].
    intros (_ & _ & _ & [H|(n & -> & H)]); apply andb_true_iff in Fo as [F1 F2]; unfold was in *; [rewrite H in F2|rewrite H in F1]; discriminate. }
  destruct (file_open_read_ok u (ev_reader ev) io Hu HB) as (r & t & HO & Hk & Hr).
  destruct (file_open_read u (ev_reader ev) io None) as [r' io'] eqn:Er; cbn in Hk, Hr.
  destruct r as [o| | |]; try contradiction.
  - right. destruct Hr as [-> Hs]. exists io', o, t.
    eexists. split; [exact Hk|]. split; [exact Hs|]. split; [exact HO|]. do 3 (split; [reflexivity|]).
    split; [|split].
    + f_equal. f_equal. rewrite orb_false_r. unfold was. destruct h; reflexivity.
    + destruct h; [|reflexivity]. destruct was; reflexivity.
    + intros m. destruct h as [k|]; [|reflexivity]. destruct was eqn:Ew; cbn.
      * destruct (Nat.eqb m k) eqn:Em; [|reflexivity]. apply PeanoNat.Nat.eqb_eq in Em. subst. exact Ew.
      * destruct (Nat.eqb m k); reflexivity.
  - left. subst r'. exists io'. split; [exact Hk|]. rewrite orb_false_r.
    destruct was eqn:Ew; cbn.
    + exists w. split; [destruct h; reflexivity|]. split; [reflexivity|]. split; [auto|]. split; [intros _; eauto|right; eauto].
    + eexists. split; [reflexivity|]. split; [destruct h; cbn; [destruct (ev_close ev)|]; reflexivity|]. split; [|split; [intros _; eauto|right; eauto]].
      intros Hc m. destruct h as [k|]; [|reflexivity]. cbn. destruct Hc as [->|(k' & [= <-] & Hw)]; [|unfold was in Ew; congruence].
      cbn. destruct (Nat.eqb m k) eqn:Em; [|reflexivity].
      apply PeanoNat.Nat.eqb_eq in Em. subst. unfold was in Ew. congruence.
Qed.

(** ** Single calls *)

(** The calls that change neither the object nor the handles. *)
Definition quiet (op : file_op) : bool :=
  match op with
  | FOpen _ | FOpenHandle _ _ | FClose | FSetCodepage _ | FSignalAbort
  | UserOpen _ | UserClose _ => false
  | _ => true
  end.

Lemma quiet_step u ev op s w : quiet op = true ->
  snd (fst (file_step u ev op s w)) = s /\ snd (file_step u ev op s w) = w.
Proof.
  destruct op; try discriminate; intros _; cbn; auto; destruct (file_tree s); auto.
  destruct (file_volume s) as [v|]; auto. destruct (node_value t k); auto.
  destruct (item_step (ev_reader ev) v a op cursor). auto.
Qed.

Lemma world_eta w w' : w_own w' = w_own w -> (forall n, w_open w' n = w_open w n) ->
  w_own w' = w_own w /\ forall n, w_open w' n = w_open w n.
Proof. auto. Qed.

Definition same_world (w w' : world) : Prop :=
  w_own w' = w_own w /\ forall n, w_open w' n = w_open w n.

Lemma open_not_closed u ev w s h flags : fs_handle s <> None ->
  file_open_handle u ev w s h flags = (Err, s, w).
Proof. unfold file_open_handle. destruct (fs_handle s); congruence. Qed.

Lemma open_bad_flags u ev w s h flags : flag_write flags = true \/ flag_read flags = false ->
  file_open_handle u ev w s h flags = (Err, s, w).
Proof.
  unfold file_open_handle. intros [H|H]; rewrite H; destruct (fs_handle s); try reflexivity; cbn [negb andb].
  - rewrite andb_false_r. reflexivity.
  - destruct (flag_write flags); reflexivity.
Qed.

Lemma own_restored (w : world) : {| w_open := w_open w; w_own := w_own w + 1 - 1 |} = w.
Proof. destruct w; cbn. f_equal. lia. Qed.

Lemma open_call_error u ev op s w : is_open_call op ->
  fs_handle s <> None \/ flag_write (open_flags op) = true \/ flag_read (open_flags op) = false ->
  file_step u ev op s w = (FError, s, w).
Proof.
  intros Hop H. destruct op; try contradiction; cbn [file_step open_flags] in *; unfold file_open.
  - replace (file_open_handle u ev _ s Own flags) with (@Err unit, s, {| w_open := w_open w; w_own := w_own w + 1 |})
      by (destruct H as [H|H]; symmetry; [now apply open_not_closed|now apply open_bad_flags]).
    cbn [w_open w_own]. rewrite own_restored. reflexivity.
  - destruct H as [H|H]; [rewrite open_not_closed by auto|rewrite open_bad_flags by auto]; reflexivity.
Qed.

Lemma close_call u ev s w : fs_handle s <> None ->
  exists r w', file_step u ev FClose s w = (r, new_file, w') /\ (r = FDone \/ r = FError) /\
    (ev_close ev = true -> r = FDone).
Proof.
  intros H. cbn. unfold file_close. destruct (fs_handle s) as [h|]; [|congruence].
  do 2 eexists. split; [reflexivity|]. destruct (fs_opened s), (ev_close ev); cbn; auto. split; auto. discriminate.
Qed.

Lemma close_closed u ev s w : fs_handle s = None -> file_step u ev FClose s w = (FError, s, w).
Proof. intros H. cbn. unfold file_close. rewrite H. reflexivity. Qed.

(** ** Open calls on a closed file *)
Lemma open_call_cases u ev op s w : una_ok u -> env_bytes ev -> is_open_call op ->
  file_inv u s -> fs_handle s = None ->
  (exists io' w', io_kept (fs_io s) io' /\
     file_step u ev op s w =
       (FError, {| fs_io := io'; fs_handle := None; fs_created := false; fs_opened := false; fs_data := None |}, w') /\
     (ev_close ev = true -> same_world w w') /\ w_own w' = w_own w /\
     (io' = fs_io s \/
      (io' = snd (file_open_read u (ev_reader ev) (fs_io s) None) /\ exists t, open_read u (ev_reader ev) [] = (Err, t)))) \/
  (exists io' o t w' h, io_kept (fs_io s) io' /\ io_shows io' o /\ open_read u (ev_reader ev) [] = (Ok o, t) /\
     file_step u ev op s w =
       (FDone, {| fs_io := io'; fs_handle := Some h;
                  fs_created := match h with Own => true | User _ => false end;
                  fs_opened := match h with User n => negb (w_open w n) | Own => true end;
                  fs_data := Some (data_of o) |}, w') /\
     match op with
     | FOpen _ => h = Own /\ w_own w' = w_own w + 1 /\ (forall n, w_open w' n = w_open w n)
     | FOpenHandle m _ => h = User m /\ w_own w' = w_own w /\
                          (forall n, w_open w' n = if Nat.eqb n m then true else w_open w n)
     | _ => True
     end).
Proof.
  intros Hu HB Hop Hi Hh. unfold file_inv in Hi. rewrite Hh in Hi. destruct Hi as (Hd & Hc & Ho).
  destruct op as [flags|m flags| | | | | | | | | | | | | | | |]; try contradiction; cbn [file_step].
  - unfold file_open. set (w1 := {| w_open := w_open w; w_own := w_own w + 1 |}).
    destruct (open_handle_cases u ev w1 s Own flags Hu HB Hh Hd Ho) as [(io' & Hk & w' & -> & E1 & E2 & _ & E3)|(io' & o & t & w' & Hk & Hs & HO & _ & _ & _ & -> & E1 & E2)].
    + left. exists io'. eexists. split; [exact Hk|]. cbn [result_of fs_created]. rewrite Hc. split; [reflexivity|].
      unfold same_world. cbn [w_own w_open]. rewrite E1. unfold w1; cbn [w_own]. split; [|split; [lia|exact E3]].
      intros Hcl. split; [lia|]. intros n. rewrite E2 by auto. reflexivity.
    + right. exists io', o, t, w', Own. do 3 (split; [assumption|]). cbn. split; [reflexivity|].
      split; [reflexivity|]. rewrite E1. split; [reflexivity|]. intros n. rewrite E2. reflexivity.
  - destruct (open_handle_cases u ev w s (User m) flags Hu HB Hh Hd Ho) as [(io' & Hk & w' & -> & E1 & E2 & _ & E3)|(io' & o & t & w' & Hk & Hs & HO & _ & _ & _ & -> & E1 & E2)].
    + left. exists io', w'. split; [exact Hk|]. cbn [result_of]. rewrite Hc. split; [reflexivity|].
      split; [|split; [exact E1|exact E3]]. intros Hcl. split; [exact E1|]. apply E2. auto.
    + right. exists io', o, t, w', (User m). do 3 (split; [assumption|]). cbn. rewrite Hc. auto.
Qed.

(** ** The invariant is kept *)
Lemma file_step_inv u ev op s w : una_ok u -> env_bytes ev -> file_inv u s ->
  file_inv u (snd (fst (file_step u ev op s w))).
Proof.
  intros Hu HB Hi. destruct (quiet op) eqn:Q.
  { destruct (quiet_step u ev op s w Q) as [-> _]. exact Hi. }
  assert (Hopen : is_open_call op -> file_inv u (snd (fst (file_step u ev op s w)))).
  { intros Hop. destruct (fs_handle s) as [h|] eqn:Hh.
    - rewrite open_call_error by (auto; left; congruence). exact Hi.
    - destruct (open_call_cases u ev op s w Hu HB Hop Hi Hh) as [(io' & w' & _ & -> & _)|(io' & o & t & w' & h & _ & Hs & HO & -> & Hw)].
      + cbn. auto.
      + cbn. split; [exists (ev_reader ev), o, t; auto|].
        destruct op; try contradiction; destruct Hw as [-> _]; auto. }
  destruct op; try discriminate; try (apply Hopen; exact I).
  - destruct (fs_handle s) eqn:Hh.
    + destruct (close_call u ev s w) as (r & w' & -> & _); [congruence|]. apply new_inv.
    + rewrite close_closed by auto. exact Hi.
  - cbn. unfold file_set_codepage. destruct (existsb _ _); [|exact Hi].
    unfold file_inv in *; cbn. destruct (fs_handle s); [|exact Hi].
    destruct Hi as [(rd & o & t & H1 & H2 & H3 & H4) Hx]. split; [|exact Hx]. exists rd, o, t. auto.
  - unfold file_inv in *; cbn. destruct (fs_handle s); [|exact Hi].
    destruct Hi as [(rd & o & t & H1 & H2 & H3 & H4) Hx]. split; [|exact Hx]. exists rd, o, t. auto.
  - exact Hi.
  - exact Hi.
Qed.

(** ** Histories *)
Definition envs_bytes (h : list (env * file_op)) : Prop := Forall (fun x => env_bytes (fst x)) h.

Lemma file_run_length u h : forall s w, length (fst (fst (file_run u h s w))) = length h.
Proof.
  induction h as [|[ev op] h IH]; intros s w; [reflexivity|]. cbn.
  destruct (file_step u ev op s w) as [[r s1] w1]. specialize (IH s1 w1).
  destruct (file_run u h s1 w1) as [[rs s2] w2]. cbn in *. lia.
Qed.

Section Histories.
  Variable u : una.
  Hypothesis Hu : una_ok u.

  Lemma file_run_inv h : forall s w, envs_bytes h -> file_inv u s -> file_inv u (snd (fst (file_run u h s w))).
  Proof.
    induction h as [|[ev op] h IH]; intros s w Hb Hi; [exact Hi|]. inversion Hb; subst. cbn.
    pose proof (file_step_inv u ev op s w Hu H1 Hi) as Hi1.
    destruct (file_step u ev op s w) as [[r s1] w1]. cbn in Hi1. specialize (IH s1 w1 H2 Hi1).
    destruct (file_run u h s1 w1) as [[rs s2] w2]. exact IH.
  Qed.

  Definition is_open (s : fstate) : bool := match fs_handle s with Some _ => true | None => false end.

  (** The tracked state is the state of the object. *)
  Definition agrees (st : bool * Z) (s : fstate) : Prop :=
    fst st = is_open s /\ snd st = io_codepage (fs_io s).

  Lemma step_agrees ev op s w st : env_bytes ev -> file_inv u s -> agrees st s ->
    agrees (track st (op, fst (fst (file_step u ev op s w)))) (snd (fst (file_step u ev op s w))).
  Proof.
    intros HB Hi [A1 A2]. destruct (quiet op) eqn:Q.
    { destruct (quiet_step u ev op s w Q) as [-> _]. destruct op; try discriminate; split; auto. }
    assert (Hopen : is_open_call op ->
      agrees (track st (op, fst (fst (file_step u ev op s w)))) (snd (fst (file_step u ev op s w)))).
    { intros Hop. destruct (fs_handle s) as [h|] eqn:Hh.
      - rewrite open_call_error by (auto; left; congruence). cbn [fst snd]. destruct op; try contradiction; split; auto.
      - destruct (open_call_cases u ev op s w Hu HB Hop Hi Hh) as [(io' & w' & [Hk _] & -> & _)|(io' & o & t & w' & h & [Hk _] & Hs & HO & -> & Hw)].
        + cbn [fst snd]. unfold agrees, is_open in *; rewrite Hh in A1. cbn. rewrite Hk. destruct op; try contradiction; auto.
        + cbn [fst snd]. unfold agrees, is_open in *. cbn. rewrite Hk. destruct op; try contradiction; auto. }
    destruct op; try discriminate; try (apply Hopen; exact I).
    - destruct (fs_handle s) eqn:Hh.
      + destruct (close_call u ev s w) as (r & w' & -> & _); [congruence|]. cbn. rewrite A1. unfold is_open. rewrite Hh.
        split; reflexivity.
      + rewrite close_closed by auto. cbn. rewrite A1. unfold is_open. rewrite Hh.
        split; [rewrite A1; reflexivity|exact A2].
    - cbn. unfold file_set_codepage. destruct (existsb _ _); cbn; split; auto.
    - cbn. split; auto.
    - cbn. split; auto.
    - cbn. split; auto.
  Qed.

  Lemma run_agrees h : forall s w st, envs_bytes h -> file_inv u s -> agrees st s ->
    agrees (fold_left track (events h (fst (fst (file_run u h s w)))) st) (snd (fst (file_run u h s w))).
  Proof.
    induction h as [|[ev op] h IH]; intros s w st Hb Hi HA; [exact HA|]. inversion Hb; subst. cbn.
    pose proof (file_step_inv u ev op s w Hu H1 Hi) as Hi1.
    pose proof (step_agrees ev op s w st H1 Hi HA) as HA1.
    destruct (file_step u ev op s w) as [[r s1] w1]. cbn in Hi1, HA1. specialize (IH s1 w1 _ H2 Hi1 HA1).
    destruct (file_run u h s1 w1) as [[rs s2] w2]. exact IH.
  Qed.

  Lemma tracked_agrees h w rs s w' : envs_bytes h -> file_run u h new_file w = (rs, s, w') ->
    file_inv u s /\ fst (tracked (events h rs)) = is_open s /\ snd (tracked (events h rs)) = io_codepage (fs_io s).
  Proof.
    intros Hb E. pose proof (file_run_inv h new_file w Hb (new_inv u)) as Hi.
    pose proof (run_agrees h new_file w (false, 1252) Hb (new_inv u) (conj eq_refl eq_refl)) as HA.
    rewrite E in Hi, HA. split; [exact Hi|exact HA].
  Qed.
End Histories.

(** ** Objects that cannot be told apart *)
Definition io_like (a b : io_state) : Prop :=
  io_major a = io_major b /\ io_minor a = io_minor b /\ io_sector_size a = io_sector_size b /\
  io_short_sector_size a = io_short_sector_size b /\ io_minimum_size a = io_minimum_size b /\
  io_byte_order a = io_byte_order b /\ io_codepage a = io_codepage b.

Definition like (a b : fstate) : Prop :=
  io_like (fs_io a) (fs_io b) /\ fs_handle a = fs_handle b /\ fs_created a = fs_created b /\
  fs_opened a = fs_opened b /\ fs_data a = fs_data b /\
  (file_tree a <> None -> io_start (fs_io a) = io_start (fs_io b)).

(** The effect on the io_handle does not depend on it. *)
Lemma open_read_effect u rd : exists r (g : io_state -> io_state),
  (forall io, file_open_read u rd io None = (r, g io)) /\
  ((r <> Ok (match r with Ok x => x | _ => {| fd_msat := []; fd_sat := []; fd_ssat := []; fd_tree := None |} end) /\
    forall io, g io = io) \/
   (forall a b, io_codepage a = io_codepage b -> io_like (g a) (g b) /\
      (forall fd, r = Ok fd -> fd_tree fd <> None -> io_start (g a) = io_start (g b)))).
Proof.
  unfold file_open_read.
  destruct ((dio msat0 <- ilift (table_initialize 109); header_read rd msat0) []) as [[[h m1]| | |] t1];
    try (eexists; exists (fun io => io); split; [reflexivity|left; split; [discriminate|reflexivity]]).
  destruct (open_lists rd h m1 t1) as [[[[[msat sat] ssat] l]| | |] t2];
    try (eexists; exists (fun io => io_set_header io h); split; [reflexivity|right; intros a b E; split; [repeat split; auto|discriminate]]).
  destruct (create_tree u (fh_byte_order h) l) as [tr| | |] eqn:E.
  1: eexists; exists (fun io => match stored_start l with Some start => io_set_start (io_set_header io h) start
                              | None => io_set_header io h end); split; [reflexivity|right].
  1: { intros a b Ec. split; [destruct (stored_start l); repeat split; auto|].
       intros fd [= <-] Ht. cbn in Ht. destruct tr as [tr|]; [|congruence].
       rewrite (stored_start_tree _ _ _ _ E). reflexivity. }
  all: eexists; exists (fun io => match stored_start l with Some start => io_set_start (io_set_header io h) start
                              | None => io_set_header io h end); split; [reflexivity|right];
       intros a b Ec; (split; [destruct (stored_start l); repeat split; auto|discriminate]).
Qed.

Lemma like_io_codepage a b : io_like a b -> io_codepage a = io_codepage b.
Proof. intros H. apply H. Qed.

(** An open call gives the same on objects in the same state that differ in
    what the io_handle holds. *)
Lemma open_handle_same u ev w a b h flags :
  fs_handle a = fs_handle b -> fs_created a = fs_created b -> fs_opened a = fs_opened b ->
  fs_data a = fs_data b -> io_codepage (fs_io a) = io_codepage (fs_io b) ->
  exists r w' a' b', file_open_handle u ev w a h flags = (r, a', w') /\
    file_open_handle u ev w b h flags = (r, b', w') /\
    (r = Ok tt -> like a' b') /\ (like a b -> like a' b') /\
    fs_handle a' = fs_handle b' /\ fs_created a' = fs_created b' /\ fs_opened a' = fs_opened b' /\
    fs_data a' = fs_data b' /\ io_codepage (fs_io a') = io_codepage (fs_io b').
Proof.
  destruct a as [ioa ha ca oa da], b as [iob hb cb ob db]; cbn [fs_handle fs_created fs_opened fs_data fs_io].
  intros -> -> -> -> Ec.
  assert (Hr : forall (r : res unit), r <> Ok tt -> forall w' : world,
    exists (r0 : res unit) (w0 : world) (a' b' : fstate),
      (r, {| fs_io := ioa; fs_handle := hb; fs_created := cb; fs_opened := ob; fs_data := db |}, w') = (r0, a', w0) /\
      (r, {| fs_io := iob; fs_handle := hb; fs_created := cb; fs_opened := ob; fs_data := db |}, w') = (r0, b', w0) /\
      (r0 = Ok tt -> like a' b') /\
      (like {| fs_io := ioa; fs_handle := hb; fs_created := cb; fs_opened := ob; fs_data := db |}
            {| fs_io := iob; fs_handle := hb; fs_created := cb; fs_opened := ob; fs_data := db |} -> like a' b') /\
      fs_handle a' = fs_handle b' /\ fs_created a' = fs_created b' /\ fs_opened a' = fs_opened b' /\
      fs_data a' = fs_data b' /\ io_codepage (fs_io a') = io_codepage (fs_io b')).
  { intros r Hne w'. do 4 eexists. split; [reflexivity|]. split; [reflexivity|]. split; [congruence|]. cbn. auto 12. }
  unfold file_open_handle; cbn [fs_handle fs_created fs_opened fs_data fs_io].
  destruct hb as [hb|]; [apply Hr; discriminate|].
  destruct (negb (flag_read flags) && negb (flag_write flags)); [apply Hr; discriminate|].
  destruct (flag_write flags); [apply Hr; discriminate|].
  destruct (negb (ev_is_open ev)); [apply Hr; discriminate|].
  set (was := match h with User n => w_open w n | Own => false end).
  destruct (negb was && negb (ev_open ev)).
  { destruct ob; [|apply Hr; discriminate]. do 4 eexists. split; [reflexivity|]. split; [reflexivity|].
    split; [discriminate|]. split; [|cbn; auto 12]. intros (H1 & _ & _ & _ & _ & H6). repeat split; try apply H1; auto. }
  destruct db as [fd|].
  { cbn [file_open_read]. destruct (negb was && (negb was || ob)); do 4 eexists; (split; [reflexivity|]); (split; [reflexivity|]);
      (split; [discriminate|]); (split; [|cbn; auto 12]); intros (H1 & _ & _ & _ & _ & H6); repeat split; try apply H1; auto. }
  destruct (open_read_effect u (ev_reader ev)) as (r & g & Hg & Hd). rewrite !Hg.
  assert (Hcp : io_codepage (g ioa) = io_codepage (g iob)).
  { destruct Hd as [[_ Hd]|Hd]; [now rewrite !Hd|]. apply like_io_codepage, Hd, Ec. }
  assert (Hlike : io_like ioa iob -> io_like (g ioa) (g iob)).
  { intros HL. destruct Hd as [[_ Hd]|Hd]; [now rewrite !Hd|]. apply Hd, Ec. }
  destruct r as [fd| | |].
  - destruct Hd as [[Hd _]|Hd]; [congruence|]. destruct (Hd ioa iob Ec) as [L1 L2].
    assert (HLL : forall o, like {| fs_io := g ioa; fs_handle := Some h; fs_created := cb; fs_opened := o; fs_data := Some fd |}
                       {| fs_io := g iob; fs_handle := Some h; fs_created := cb; fs_opened := o; fs_data := Some fd |}).
    { intros o. repeat split; try apply L1. cbn. intros Ht. apply (L2 fd); auto. }
    do 4 eexists. split; [reflexivity|]. split; [reflexivity|]. split; [auto|]. split; [auto|]. cbn. auto 12.
  - destruct (negb was && (negb was || ob)); do 4 eexists; (split; [reflexivity|]); (split; [reflexivity|]);
      (split; [discriminate|]); (split; [|cbn; auto 12]); intros (H1 & _ & _ & _ & _ & H6); repeat split; try apply (Hlike H1);
      cbn; congruence.
  - apply Hr; discriminate.
  - apply Hr; discriminate.
Qed.

Lemma like_refl a : like a a.
Proof. repeat split. Qed.

Lemma like_volume a b : like a b -> file_tree a = file_tree b /\
  (file_tree a <> None -> file_volume a = file_volume b) /\ file_endian a = file_endian b.
Proof.
  intros ((H1 & H2 & H3 & H4 & H5 & H6 & H7) & _ & _ & _ & Hd & Hs). unfold file_tree, file_volume, file_endian in *.
  rewrite <- Hd, <- H6. split; [reflexivity|]. split; [|reflexivity]. intros Ht. specialize (Hs Ht).
  destruct (fs_data a) as [fd|]; [|reflexivity]. destruct (io_byte_order (fs_io a)); [|reflexivity].
  f_equal. f_equal; congruence.
Qed.

Lemma like_step u ev op a b w : like a b ->
  exists r w' a' b', file_step u ev op a w = (r, a', w') /\ file_step u ev op b w = (r, b', w') /\ like a' b'.
Proof.
  intros HL. pose proof HL as ((H1 & H2 & H3 & H4 & H5 & H6 & H7) & Hh & Hc & Ho & Hd & Hs).
  destruct (like_volume a b HL) as (Ht & Hv & He).
  assert (HS : forall (r : file_result) (w' : world), exists r0 w0 a' b', (r, a, w') = (r0, a', w0) /\ (r, b, w') = (r0, b', w0) /\ like a' b')
    by (intros; do 4 eexists; eauto).
  destruct op; cbn [file_step].
  - unfold file_open. destruct (open_handle_same u ev {| w_open := w_open w; w_own := w_own w + 1 |} a b Own flags Hh Hc Ho Hd H7)
      as (r & w' & a' & b' & -> & -> & L1 & L2 & L3 & L4 & L5 & L6 & L7). specialize (L2 HL).
    destruct r as [[]| | |]; do 4 eexists; (split; [reflexivity|]); (split; [reflexivity|]); auto.
    destruct L2 as (I1 & I2 & I3 & I4 & I5 & I6). repeat split; try apply I1; auto.
  - destruct (open_handle_same u ev w a b (User n) flags Hh Hc Ho Hd H7)
      as (r & w' & a' & b' & -> & -> & L1 & L2 & _). specialize (L2 HL). do 4 eexists. eauto.
  - unfold file_close. rewrite <- Hh, <- Hc, <- Ho. destruct (fs_handle a); [|apply HS].
    do 4 eexists. split; [reflexivity|]. split; [reflexivity|]. apply like_refl.
  - rewrite H3. apply HS.
  - rewrite H4. apply HS.
  - rewrite H1, H2. apply HS.
  - rewrite H7. apply HS.
  - unfold file_set_codepage. destruct (existsb _ _); [|apply HS]. do 4 eexists. split; [reflexivity|]. split; [reflexivity|].
    repeat split; auto.
  - do 4 eexists. split; [reflexivity|]. split; [reflexivity|]. repeat split; auto.
  - apply HS.
  - rewrite Ht. apply HS.
  - rewrite Ht, He. apply HS.
  - rewrite Ht, He. apply HS.
  - rewrite <- Ht. destruct (file_tree a); apply HS.
  - rewrite <- Ht. destruct (file_tree a); apply HS.
  - rewrite <- Ht. destruct (file_tree a) as [t|] eqn:E; [|apply HS]. rewrite <- Hv by discriminate.
    destruct (file_volume a) as [v|]; [|apply HS]. destruct (node_value t k); try apply HS.
    destruct (item_step (ev_reader ev) v a0 op cursor). apply HS.
  - apply HS.
  - apply HS.
Qed.

Lemma like_run u h : forall a b w, like a b ->
  exists rs w' a' b', file_run u h a w = (rs, a', w') /\ file_run u h b w = (rs, b', w') /\ like a' b'.
Proof.
  induction h as [|[ev op] h IH]; intros a b w HL.
  - do 4 eexists. cbn. eauto.
  - cbn. destruct (like_step u ev op a b w HL) as (r & w1 & a1 & b1 & -> & -> & HL1).
    destruct (IH a1 b1 w1 HL1) as (rs & w2 & a2 & b2 & -> & -> & HL2). do 4 eexists. eauto.
Qed.

(** An open call on two closed objects with the same codepage. *)
Lemma open_call_same u ev op a b w : is_open_call op -> file_inv u a -> file_inv u b ->
  fs_handle a = None -> fs_handle b = None -> io_codepage (fs_io a) = io_codepage (fs_io b) ->
  exists r w' a' b', file_step u ev op a w = (r, a', w') /\ file_step u ev op b w = (r, b', w') /\
    (r = FDone -> like a' b').
Proof.
  intros Hop Ha Hb Ea Eb Ec. unfold file_inv in *. rewrite Ea in Ha. rewrite Eb in Hb.
  destruct Ha as (Da & Ca & Oa), Hb as (Db & Cb & Ob).
  destruct op as [flags|m flags| | | | | | | | | | | | | | | |]; try contradiction; cbn [file_step].
  - unfold file_open. destruct (open_handle_same u ev {| w_open := w_open w; w_own := w_own w + 1 |} a b Own flags)
      as (r & w' & a' & b' & -> & -> & L1 & L2 & _); try congruence.
    destruct r as [[]| | |]; do 4 eexists; (split; [reflexivity|]); (split; [reflexivity|]); try discriminate.
    intros _. destruct (L1 eq_refl) as (I1 & I2 & I3 & I4 & I5 & I6). repeat split; try apply I1; auto.
  - destruct (open_handle_same u ev w a b (User m) flags)
      as (r & w' & a' & b' & -> & -> & L1 & L2 & _); try congruence.
    do 4 eexists. split; [reflexivity|]. split; [reflexivity|]. intros E. apply L1. destruct r as [[]| | |]; try discriminate. reflexivity.
Qed.

(** ** The handles *)
Definition handles_inv (cur : option nat) (own : bool) (view : nat -> bool) (c0 : Z) (s : fstate) (w : world) : Prop :=
  match fs_handle s with
  | None => cur = None /\ own = false /\ (forall n, w_open w n = view n) /\ w_own w = c0
  | Some (User m) => cur = Some m /\ own = false /\ (forall n, n <> m -> w_open w n = view n) /\
      w_open w m = true /\ fs_opened s = negb (view m) /\ w_own w = c0
  | Some Own => cur = None /\ own = true /\ (forall n, w_open w n = view n) /\ w_own w = c0 + 1
  end.

Definition polite_step (cur : option nat) (op : file_op) : Prop :=
  match op with UserOpen n | UserClose n => cur <> Some n | _ => True end.

Lemma handles_inv_s cur own view c0 s s' w : fs_handle s' = fs_handle s -> fs_opened s' = fs_opened s ->
  handles_inv cur own view c0 s w -> handles_inv cur own view c0 s' w.
Proof. unfold handles_inv. intros -> ->. auto. Qed.

Lemma handles_step u ev op s w cur own view c0 : una_ok u -> env_bytes ev -> ev_close ev = true ->
  file_inv u s -> polite_step cur op -> handles_inv cur own view c0 s w ->
  let x := (op, fst (fst (file_step u ev op s w))) in
  handles_inv (use cur x) (use_own own x) (fun n => user_view n (view n) x) c0
    (snd (fst (file_step u ev op s w))) (snd (file_step u ev op s w)).
Proof.
  intros Hu HB Hcl Hi Hp HI x.
  destruct (quiet op) eqn:Q.
  { destruct (quiet_step u ev op s w Q) as [-> ->].
    unfold x. destruct op; try discriminate; exact HI. }
  assert (Hopen : is_open_call op ->
    handles_inv (use cur x) (use_own own x) (fun n => user_view n (view n) x) c0
      (snd (fst (file_step u ev op s w))) (snd (file_step u ev op s w))).
  { intros Hop. unfold x. destruct (fs_handle s) as [h|] eqn:Hh.
    - rewrite open_call_error by (auto; left; congruence). cbn [fst snd].
      destruct op; try contradiction; exact HI.
    - destruct (open_call_cases u ev op s w Hu HB Hop Hi Hh) as [(io' & w' & _ & -> & Hw & _)|(io' & o & t & w' & h & _ & Hs & HO & -> & Hw)].
      + destruct (Hw Hcl) as [W1 W2]. unfold handles_inv in *. rewrite Hh in HI. cbn [fst snd fs_handle].
        destruct HI as (I1 & I2 & I3 & I4). destruct op; try contradiction; cbn; rewrite W1; repeat split; auto; intros; rewrite W2; apply I3.
      + unfold handles_inv in *. rewrite Hh in HI. cbn [fst snd fs_handle fs_opened].
        destruct HI as (I1 & I2 & I3 & I4).
        destruct op; try contradiction; destruct Hw as (-> & W1 & W2); cbn.
        * repeat split; [intros; rewrite W2; apply I3|lia].
        * repeat split; [intros k Hk; rewrite W2; destruct (Nat.eqb k n) eqn:E; [apply PeanoNat.Nat.eqb_eq in E; congruence|apply I3]| | |lia].
          -- rewrite W2, PeanoNat.Nat.eqb_refl. reflexivity.
          -- rewrite I3. reflexivity. }
  destruct op; try discriminate; try (apply Hopen; exact I); unfold x; clear x Hopen.
  - (* close *)
    cbn [file_step]. unfold file_close, handles_inv in *.
    destruct (fs_handle s) as [[m|]|] eqn:Hh; cbn -[bfio_close].
    + unfold file_inv in Hi. rewrite Hh in Hi. destruct Hi as [_ Hc]. rewrite Hc. cbn -[bfio_close].
      destruct HI as (I1 & I2 & I3 & I4 & I5 & I6). rewrite I5. repeat split; auto.
      * intros n. destruct (view m) eqn:Ev; cbn; [|rewrite Hcl; cbn].
        -- destruct (PeanoNat.Nat.eq_dec n m) as [->|Hne]; [congruence|auto].
        -- destruct (Nat.eqb n m) eqn:E; [apply PeanoNat.Nat.eqb_eq in E; congruence|apply PeanoNat.Nat.eqb_neq in E; auto].
      * destruct (view m); cbn; [|rewrite Hcl; cbn]; exact I6.
    + unfold file_inv in Hi. rewrite Hh in Hi. destruct Hi as [_ [Hc Ho]]. rewrite Hc, Ho. cbn.
      destruct HI as (I1 & I2 & I3 & I4). repeat split; auto. lia.
    + rewrite Hh. destruct HI as (I1 & I2 & I3 & I4). auto.
  - cbn [file_step]. unfold file_set_codepage. destruct (existsb _ _); cbn; [|exact HI].
    eapply handles_inv_s; [| |exact HI]; reflexivity.
  - cbn. eapply handles_inv_s; [| |exact HI]; reflexivity.
  - cbn [file_step fst snd use use_own]. cbn in Hp. unfold handles_inv in *. unfold user_view, set_open; cbn.
    destruct (fs_handle s) as [[m|]|].
    + destruct HI as (I1 & I2 & I3 & I4 & I5 & I6). assert (n <> m) by congruence. repeat split; auto.
      * intros k Hk. destruct (Nat.eqb k n); auto.
      * destruct (Nat.eqb m n) eqn:E; auto.
      * destruct (Nat.eqb m n) eqn:E; [apply PeanoNat.Nat.eqb_eq in E; congruence|exact I5].
    + destruct HI as (I1 & I2 & I3 & I4). repeat split; auto. intros k. destruct (Nat.eqb k n); auto.
    + destruct HI as (I1 & I2 & I3 & I4). repeat split; auto. intros k. destruct (Nat.eqb k n); auto.
  - cbn [file_step fst snd use use_own]. cbn in Hp. unfold handles_inv in *. unfold user_view, set_open; cbn.
    destruct (fs_handle s) as [[m|]|].
    + destruct HI as (I1 & I2 & I3 & I4 & I5 & I6). assert (n <> m) by congruence. repeat split; auto.
      * intros k Hk. destruct (Nat.eqb k n); auto.
      * destruct (Nat.eqb m n) eqn:E; [apply PeanoNat.Nat.eqb_eq in E; congruence|auto].
      * destruct (Nat.eqb m n) eqn:E; [apply PeanoNat.Nat.eqb_eq in E; congruence|exact I5].
    + destruct HI as (I1 & I2 & I3 & I4). repeat split; auto. intros k. destruct (Nat.eqb k n); auto.
    + destruct HI as (I1 & I2 & I3 & I4). repeat split; auto. intros k. destruct (Nat.eqb k n); auto.
Qed.

Lemma handles_run u h : una_ok u -> forall s w cur own view c0, envs_bytes h ->
  Forall (fun x => ev_close (fst x) = true) h -> file_inv u s ->
  let '(rs, s', w') := file_run u h s w in
  polite cur (events h rs) -> handles_inv cur own view c0 s w ->
  handles_inv (fold_left use (events h rs) cur) (fold_left use_own (events h rs) own)
    (fun n => fold_left (user_view n) (events h rs) (view n)) c0 s' w'.
Proof.
  intros Hu. induction h as [|[ev op] h IH]; intros s w cur own view c0 Hb Hc Hi.
  - cbn. auto.
  - inversion Hb as [|? ? Hb1 Hb2]; subst. inversion Hc as [|? ? Hc1 Hc2]; subst. cbn [file_run].
    pose proof (file_step_inv u ev op s w Hu Hb1 Hi) as Hi1.
    pose proof (handles_step u ev op s w cur own view c0 Hu Hb1 Hc1 Hi) as HS.
    destruct (file_step u ev op s w) as [[r s1] w1]. cbn [fst snd] in *.
    specialize (IH s1 w1 (use cur (op, r)) (use_own own (op, r)) (fun n => user_view n (view n) (op, r)) c0 Hb2 Hc2 Hi1).
    destruct (file_run u h s1 w1) as [[rs s2] w2]. cbn. intros [Hp1 Hp2] HI. apply IH; auto.
Qed.

(** ** Which open calls succeed *)
Lemma flag_read_odd flags : flag_read flags = Z.odd flags.
Proof. reflexivity. Qed.
Lemma flag_write_odd flags : flag_write flags = Z.odd (flags / 2).
Proof. unfold flag_write. rewrite <- Z.bit0_odd. change 2 with (2 ^ 1) at 1. rewrite Z.div_pow2_bits; [reflexivity|lia|lia]. Qed.

Lemma open_call_able u ev op s w : una_ok u -> env_bytes ev -> is_open_call op -> file_inv u s ->
  fs_handle s = None -> can_open ev op w ->
  (fst (fst (file_step u ev op s w)) = FDone /\ exists o t, open_read u (ev_reader ev) [] = (Ok o, t)) \/
  (fst (fst (file_step u ev op s w)) = FError /\ (exists t, open_read u (ev_reader ev) [] = (Err, t)) /\
   fs_io (snd (fst (file_step u ev op s w))) = snd (file_open_read u (ev_reader ev) (fs_io s) None)).
Proof.
  intros Hu HB Hop Hi Hh (F1 & F2 & F3 & F4). rewrite <- flag_read_odd in F1. rewrite <- flag_write_odd in F2.
  unfold file_inv in Hi. rewrite Hh in Hi. destruct Hi as (Hd & Hc & Ho).
  destruct op as [flags|m flags| | | | | | | | | | | | | | | |]; try contradiction; cbn [file_step open_flags] in *.
  - unfold file_open. set (w1 := {| w_open := w_open w; w_own := w_own w + 1 |}).
    destruct (open_handle_cases u ev w1 s Own flags Hu HB Hh Hd Ho) as [(io' & Hk & w' & -> & E1 & E2 & E4 & E3)|(io' & o & t & w' & Hk & Hs & HO & _ & _ & _ & -> & E1 & E2)].
    + right. destruct E4 as [E4 E5]; [destruct F4 as [F4|[]]; auto 6|]. cbn. auto.
    + left. cbn. eauto.
  - destruct (open_handle_cases u ev w s (User m) flags Hu HB Hh Hd Ho) as [(io' & Hk & w' & -> & E1 & E2 & E4 & E3)|(io' & o & t & w' & Hk & Hs & HO & _ & _ & _ & -> & E1 & E2)].
    + right. destruct E4 as [E4 E5]; [do 3 (split; [assumption|]); destruct F4 as [F4|F4]; eauto|]. cbn. auto.
    + left. cbn. eauto.
Qed.

(** ** What is visible of the header *)
Lemma open_read_header u rd io data e : rd [] 0 512 = Some data -> zlen data = 512 -> Forall is_byte data ->
  header_acceptable data e ->
  let io' := snd (file_open_read u rd io None) in let h := decoded e data in
  io_major io' = fh_major_format_version h /\ io_minor io' = fh_minor_format_version h /\
  io_sector_size io' = fh_sector_size h /\ io_short_sector_size io' = fh_short_sector_size h.
Proof.
  intros Hr Hl Hb Ha. cbn zeta. unfold file_open_read.
  assert (E : (dio msat0 <- ilift (table_initialize 109); header_read rd msat0) [] =
              (Ok (decoded e data, msat_of e data), [(0, 512)])).
  { change ((dio msat0 <- ilift (table_initialize 109); header_read rd msat0) []) with (header_read rd (zeros 109) []).
    unfold header_read, read_exact, read_at, ibind. rewrite Hr. cbn [app]. rewrite Hl. cbn [Z.eqb Pos.eqb].
    unfold iret, ilift. rewrite (header_read_data_ok e data (zeros 109) Hb eq_refl Ha). reflexivity. }
  rewrite E.
  destruct (open_lists rd _ _ _) as [[[[[msat sat] ssat] l]| | |] t2]; [|cbn; auto..].
  destruct (create_tree u _ l); destruct (stored_start l); cbn; auto.
Qed.

(** ** Queries *)
Definition shows (s : fstate) (o : opened) : Prop :=
  fs_handle s <> None /\ fs_data s = Some (data_of o) /\ io_shows (fs_io s) o.

Lemma shows_step u ev op s w o : shows s o -> op <> FClose -> shows (snd (fst (file_step u ev op s w))) o.
Proof.
  intros HS Hne. destruct (quiet op) eqn:Q.
  { destruct (quiet_step u ev op s w Q) as [-> _]. exact HS. }
  destruct op; try discriminate; try congruence; try (rewrite open_call_error by (cbn; auto; left; apply HS); exact HS).
  - cbn. unfold file_set_codepage. destruct (existsb _ _); exact HS.
  - exact HS.
  - exact HS.
  - exact HS.
Qed.

Lemma shows_run u h : forall s w o, shows s o -> Forall (fun x => snd x <> FClose) h ->
  shows (snd (fst (file_run u h s w))) o.
Proof.
  induction h as [|[ev op] h IH]; intros s w o HS Hne; [exact HS|]. inversion Hne; subst. cbn.
  pose proof (shows_step u ev op s w o HS H1) as HS1. destruct (file_step u ev op s w) as [[r s1] w1].
  cbn in HS1. specialize (IH s1 w1 o HS1 H2). destruct (file_run u h s1 w1) as [[rs s2] w2]. exact IH.
Qed.

Lemma shows_volume s o t : shows s o -> o_tree o = Some t -> file_volume s = Some (opened_volume o).
Proof.
  intros (_ & Hd & H1 & H2 & H3 & H4 & H5 & H6 & H7) Ht. unfold file_volume, opened_volume. rewrite Hd, H6, H3, H4, H5, Ht.
  rewrite (H7 t Ht). reflexivity.
Qed.

Lemma shows_answer u s o ev q w r : shows s o ->
  fh_sector_size (o_header o) <= 4294967295 -> fh_short_sector_size (o_header o) <= 4294967295 ->
  answer u o ev q = Some r -> file_step u ev q s w = (r, s, w).
Proof.
  intros HS Hss Hsss. pose proof HS as (_ & Hd & H1 & H2 & H3 & H4 & H5 & H6 & H7).
  assert (Ht : file_tree s = o_tree o) by (unfold file_tree; now rewrite Hd).
  assert (He : file_endian s = fh_byte_order (o_header o)) by (unfold file_endian; now rewrite H6).
  destruct q; cbn [answer]; try discriminate; cbn [file_step].
  - intros [= <-]. rewrite H3. unfold get_size32. destruct (4294967295 <? fh_sector_size (o_header o)) eqn:E; [|reflexivity].
    apply Z.ltb_lt in E. lia.
  - intros [= <-]. rewrite H4. unfold get_size32. destruct (4294967295 <? fh_short_sector_size (o_header o)) eqn:E; [|reflexivity].
    apply Z.ltb_lt in E. lia.
  - intros [= <-]. rewrite H1, H2. reflexivity.
  - intros [= <-]. reflexivity.
  - intros [= <-]. rewrite Ht. reflexivity.
  - intros [= <-]. rewrite Ht, He. reflexivity.
  - intros [= <-]. rewrite Ht, He. reflexivity.
  - rewrite Ht. destruct (o_tree o); [|discriminate]. intros [= <-]. reflexivity.
  - rewrite Ht. destruct (o_tree o); [|discriminate]. intros [= <-]. reflexivity.
  - rewrite Ht. destruct (o_tree o) as [t|] eqn:Eo; [|discriminate]. rewrite (shows_volume s o t HS Eo).
    destruct (node_value t k); try discriminate. destruct (item_step _ _ _ _ _). intros [= <-]. reflexivity.
Qed.

Lemma file_run_app u h1 h2 s w :
  file_run u (h1 ++ h2) s w =
  let '(rs1, s1, w1) := file_run u h1 s w in
  let '(rs2, s2, w2) := file_run u h2 s1 w1 in (rs1 ++ rs2, s2, w2).
Proof.
  revert s w. induction h1 as [|[ev op] h1 IH]; intros s w; cbn.
  - destruct (file_run u h2 s w) as [[rs2 s2] w2]. reflexivity.
  - destruct (file_step u ev op s w) as [[r s1] w1]. rewrite IH.
    destruct (file_run u h1 s1 w1) as [[rs1 s2] w2]. destruct (file_run u h2 s2 w2) as [[rs2 s3] w3]. reflexivity.
Qed.

(** The state after a successful open call and any calls but close. *)
Lemma opened_history u h1 ev op h2 w rs s w' : una_ok u -> envs_bytes (h1 ++ (ev, op) :: h2) ->
  file_run u (h1 ++ (ev, op) :: h2) new_file w = (rs, s, w') -> is_open_call op ->
  nth_error rs (length h1) = Some FDone -> Forall (fun x => snd x <> FClose) h2 ->
  exists o t, open_read u (ev_reader ev) [] = (Ok o, t) /\ shows s o.
Proof.
  intros Hu Hb HR Hop Hr Hc. apply Forall_app in Hb as [Hb1 Hb2]. inversion Hb2 as [|? ? Hb3 Hb4]; subst. cbn in Hb3.
  rewrite file_run_app in HR. pose proof (file_run_length u h1 new_file w) as Hlen.
  pose proof (file_run_inv u Hu h1 new_file w Hb1 (new_inv u)) as Hi.
  destruct (file_run u h1 new_file w) as [[rs1 s1] w1]. cbn [fst snd] in Hlen, Hi. cbn [file_run] in HR.
  destruct (fs_handle s1) as [h|] eqn:Hh.
  - rewrite open_call_error in HR by (auto; left; congruence).
    destruct (file_run u h2 s1 w1) as [[rs2 s2] w2]. injection HR as <- <- <-.
    rewrite nth_error_app2, Hlen, PeanoNat.Nat.sub_diag in Hr by lia. discriminate.
  - destruct (open_call_cases u ev op s1 w1 Hu Hb3 Hop Hi Hh) as [(io' & w3 & _ & Es & _)|(io' & o & t & w3 & h & _ & Hs & HO & Es & _)];
      rewrite Es in HR.
    + destruct (file_run u h2 _ w3) as [[rs2 s2] w2]. injection HR as <- <- <-.
      rewrite nth_error_app2, Hlen, PeanoNat.Nat.sub_diag in Hr by lia. discriminate.
    + exists o, t. split; [exact HO|].
      set (s3 := {| fs_io := io'; fs_handle := Some h; fs_created := _; fs_opened := _; fs_data := _ |}) in HR.
      assert (H3 : shows s3 o) by (split; [discriminate|split; [reflexivity|exact Hs]]).
      pose proof (shows_run u h2 s3 w3 o H3 Hc) as H4.
      destruct (file_run u h2 s3 w3) as [[rs2 s2] w2]. injection HR as <- <- <-. exact H4.
Qed.
