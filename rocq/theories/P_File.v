(** Properties of the file object: C15 (getters), C16, C31-C34, C51 and C69. *)
From Coq Require Import ZArith List Bool Lia ZifyBool.
From Verif Require Import Base Spec_IO Spec_Stream Spec_Load Spec_Open Spec_Tree M_Table M_Header M_Load
  M_Stream M_Tree M_Open M_Item M_File Spec_File Spec_Item L_Base L_Header L_Tree L_Item L_Open L_Open2 L_File P_Open X_File.
Import ListNotations.
Open Scope Z_scope.

(** ** Concrete cases *)
Definition good_env (f : list Z) : env :=
  {| ev_is_open := true; ev_open := true; ev_close := true; ev_reader := file_reader f |}.
Definition xf_env : env := good_env (xf_file Little).
(** A file that ends after its header. *)
Definition cut_env : env := good_env (slice (xf_file Little) 0 512).
Definition no_world : world := {| w_open := fun _ => false; w_own := 0 |}.

Lemma xf_env_bytes : env_bytes xf_env.
Proof. exact (xf_reader_bytes Little). Qed.
Lemma cut_env_bytes : env_bytes cut_env.
Proof. apply file_reader_bytes, xf_bytes_ok. vm_compute. reflexivity. Qed.

Definition results (h : list (env * file_op)) : list file_result :=
  fst (fst (file_run xf_una h new_file no_world)).

(** C31 *)
Theorem C31_two_states :
  forall u h w rs s w',
    una_ok u -> envs_bytes h -> file_run u h new_file w = (rs, s, w') ->
    (fst (tracked (events h rs)) = true ->
       (forall ev op, is_open_call op -> file_step u ev op s w' = (FError, s, w')) /\
       (forall ev, exists r w2, file_step u ev FClose s w' = (r, new_file, w2) /\ (r = FDone \/ r = FError) /\
          (ev_close ev = true -> r = FDone))) /\
    (fst (tracked (events h rs)) = false ->
       (forall ev, file_step u ev FClose s w' = (FError, s, w')) /\
       (forall ev op, env_bytes ev -> is_open_call op -> can_open ev op w' ->
          (fst (fst (file_step u ev op s w')) = FDone <-> exists o t, open_read u (ev_reader ev) [] = (Ok o, t)) /\
          (fst (fst (file_step u ev op s w')) = FError <-> exists t, open_read u (ev_reader ev) [] = (Err, t)))) /\
    (forall ev op, is_open_call op -> Z.odd (open_flags op) = false \/ Z.odd (open_flags op / 2) = true ->
       file_step u ev op s w' = (FError, s, w')).
Proof.
  intros u h w rs s w' Hu Hb HR. destruct (tracked_agrees u Hu h w rs s w' Hb HR) as (Hi & Ho & _).
  rewrite Ho. unfold is_open. split; [|split].
  - destruct (fs_handle s) eqn:Hh; [|discriminate]. intros _. split.
    + intros ev op Hop. apply open_call_error; [exact Hop|left; congruence].
    + intros ev. destruct (close_call u ev s w') as (r & w2 & H); [congruence|]. eauto.
  - destruct (fs_handle s) eqn:Hh; [discriminate|]. intros _. split; [intros; now apply close_closed|].
    intros ev op HB Hop Hc.
    destruct (open_call_able u ev op s w' Hu HB Hop Hi Hh Hc) as [(-> & o & t & HO)|(-> & (t & HO) & _)]; rewrite HO.
    + split; split; eauto; try discriminate. intros (t' & ?). discriminate.
    + split; split; eauto; try discriminate. intros (o' & t' & ?). discriminate.
  - intros ev op Hop Hf. apply open_call_error; [exact Hop|right]. rewrite flag_read_odd, flag_write_odd. tauto.
Qed.
Print Assumptions C31_two_states.

(** After a close, whatever its result, no history of calls distinguishes the
    object from a new one. *)
Theorem C31_close_resets :
  forall u h w rs s w' ev h2,
    una_ok u -> envs_bytes h -> file_run u h new_file w = (rs, s, w') ->
    fst (tracked (events h rs)) = true ->
    exists r w2, file_step u ev FClose s w' = (r, new_file, w2) /\
      file_run u ((ev, FClose) :: h2) s w' =
      (let '(rs2, s2, w3) := file_run u h2 new_file w2 in (r :: rs2, s2, w3)).
Proof.
  intros u h w rs s w' ev h2 Hu Hb HR Ht.
  destruct (C31_two_states u h w rs s w' Hu Hb HR) as (H & _). destruct (H Ht) as (_ & Hc).
  destruct (Hc ev) as (r & w2 & Hs & _). exists r, w2. split; [exact Hs|]. cbn [file_run]. rewrite Hs. reflexivity.
Qed.
Print Assumptions C31_close_resets.

Example C31_case : results
  [(xf_env, FClose); (xf_env, FOpen 1); (xf_env, FOpenHandle 7 1); (xf_env, FSectorSize); (xf_env, FRootItem);
   (xf_env, FStream 4 0 (OpRead 4)); (xf_env, FClose); (xf_env, FSectorSize); (xf_env, FRootItem); (xf_env, FOpen 2); (xf_env, FOpen 3)]
  = [FError; FDone; FError; FValue 512; FItem (Some O);
     FStreamResult (RData [128; 129; 130; 131]) 4; FDone; FValue 0; FItem None; FError; FError].
Proof. vm_compute. reflexivity. Qed.

(** C32: after an open that fails past the header the getters answer from the
    header of the rejected file. *)
Theorem C32_stale_header :
  forall u h w rs s w' ev op data e,
    una_ok u -> envs_bytes h -> file_run u h new_file w = (rs, s, w') ->
    fst (tracked (events h rs)) = false ->
    env_bytes ev -> is_open_call op -> can_open ev op w' ->
    ev_reader ev [] 0 512 = Some data -> zlen data = 512 -> header_acceptable data e ->
    fst (fst (file_step u ev op s w')) = FError ->
    let s1 := snd (fst (file_step u ev op s w')) in
    forall ev1 w1,
      fst (fst (file_step u ev1 FSectorSize s1 w1)) = FValue (fh_sector_size (decoded e data)) /\
      fst (fst (file_step u ev1 FShortSectorSize s1 w1)) = FValue (fh_short_sector_size (decoded e data)) /\
      fst (fst (file_step u ev1 FFormatVersion s1 w1)) =
        FVersion (fh_major_format_version (decoded e data)) (fh_minor_format_version (decoded e data)) /\
      fst (fst (file_step u ev1 FRootItem s1 w1)) = FItem None /\
      fst (fst (file_step u ev1 FClose s1 w1)) = FError.
Proof.
  intros u h w rs s w' ev op data e Hu Hb HR Ht HB Hop Hc Hr Hl Ha Hf s1 ev1 w1.
  destruct (tracked_agrees u Hu h w rs s w' Hb HR) as (Hi & Ho & _). rewrite Ho in Ht. unfold is_open in Ht.
  destruct (fs_handle s) eqn:Hh; [discriminate|].
  assert (Hby : Forall is_byte data) by (eapply HB; eauto).
  pose proof (decoded_fine e data Hby Ha) as HF.
  destruct (open_call_able u ev op s w' Hu HB Hop Hi Hh Hc) as [(E & _)|(_ & _ & Eio)]; [congruence|].
  destruct (open_call_cases u ev op s w' Hu HB Hop Hi Hh) as [(io' & w3 & _ & Es & _)|(io' & o & t & w3 & x & _ & _ & _ & Es & _)];
    [|rewrite Es in Hf; discriminate].
  fold s1 in Eio. assert (Es1 : s1 = {| fs_io := io'; fs_handle := None; fs_created := false; fs_opened := false; fs_data := None |})
    by (unfold s1; rewrite Es; reflexivity).
  destruct (open_read_header u (ev_reader ev) (fs_io s) data e Hr Hl Hby Ha) as (E1 & E2 & E3 & E4). rewrite <- Eio in *.
  destruct (hf_ss _ HF) as (a & Hra & Ea). destruct (hf_sss _ HF) as (b & Hrb & Eb).
  assert (2 ^ a <= 2 ^ 15) by (apply Z.pow_le_mono_r; lia). assert (2 ^ b <= 2 ^ 15) by (apply Z.pow_le_mono_r; lia).
  change (2 ^ 15) with 32768 in *.
  cbn [file_step fst snd]. rewrite E1, E2, E3, E4. unfold get_size32, value_of.
  destruct (4294967295 <? fh_sector_size (decoded e data)) eqn:G1; [lia|].
  destruct (4294967295 <? fh_short_sector_size (decoded e data)) eqn:G2; [lia|].
  do 3 (split; [reflexivity|]). rewrite Es1. split; reflexivity.
Qed.
Print Assumptions C32_stale_header.

Theorem C32_stale_header_refuted :
  exists h : list (env * file_op), results h = [FError; FValue 512; FVersion 3 62; FError].
Proof. exists [(cut_env, FOpen 1); (cut_env, FSectorSize); (cut_env, FFormatVersion); (cut_env, FClose)]. vm_compute. reflexivity. Qed.
Print Assumptions C32_stale_header_refuted.

(** Otherwise a failed open leaves nothing behind: two objects with any
    histories, both closed and with the same codepage, open any file with the
    same result and after that answer every history of calls alike. *)
Theorem C32_next_open :
  forall u h1 h2 w1 w2 rs1 rs2 s1 s2 w1' w2' ev op w,
    una_ok u -> envs_bytes h1 -> envs_bytes h2 ->
    file_run u h1 new_file w1 = (rs1, s1, w1') -> file_run u h2 new_file w2 = (rs2, s2, w2') ->
    fst (tracked (events h1 rs1)) = false -> fst (tracked (events h2 rs2)) = false ->
    snd (tracked (events h1 rs1)) = snd (tracked (events h2 rs2)) ->
    is_open_call op ->
    exists r w' a b, file_step u ev op s1 w = (r, a, w') /\ file_step u ev op s2 w = (r, b, w') /\
      (r = FDone -> forall h, exists rs w'' a' b',
         file_run u h a w' = (rs, a', w'') /\ file_run u h b w' = (rs, b', w'')).
Proof.
  intros u h1 h2 w1 w2 rs1 rs2 s1 s2 w1' w2' ev op w Hu B1 B2 R1 R2 T1 T2 Tc Hop.
  destruct (tracked_agrees u Hu _ _ _ _ _ B1 R1) as (I1 & O1 & C1).
  destruct (tracked_agrees u Hu _ _ _ _ _ B2 R2) as (I2 & O2 & C2).
  rewrite O1 in T1. rewrite O2 in T2. unfold is_open in *.
  destruct (fs_handle s1) eqn:H1; [discriminate|]. destruct (fs_handle s2) eqn:H2; [discriminate|].
  destruct (open_call_same u ev op s1 s2 w Hop I1 I2 H1 H2) as (r & w' & a & b & E1 & E2 & HL); [congruence|].
  exists r, w', a, b. split; [exact E1|]. split; [exact E2|]. intros Hr h.
  destruct (like_run u h a b w' (HL Hr)) as (rs & w'' & a' & b' & X1 & X2 & _). eauto 6.
Qed.
Print Assumptions C32_next_open.

Example C32_case : results
  [(cut_env, FOpen 1); (xf_env, FOpen 1); (xf_env, FStream 4 0 (OpRead 4)); (xf_env, FClose); (xf_env, FSectorSize)]
  = [FError; FDone; FStreamResult (RData [128; 129; 130; 131]) 4; FDone; FValue 0].
Proof. vm_compute. reflexivity. Qed.

(** C33 *)
Theorem C33_handles :
  forall u h w rs s w',
    una_ok u -> envs_bytes h -> Forall (fun x => ev_close (fst x) = true) h ->
    file_run u h new_file w = (rs, s, w') -> polite None (events h rs) ->
    (forall n, w_open w' n =
       match fold_left use (events h rs) None with
       | Some m => if Nat.eqb n m then true else fold_left (user_view n) (events h rs) (w_open w n)
       | None => fold_left (user_view n) (events h rs) (w_open w n)
       end) /\
    w_own w' = w_own w + (if fold_left use_own (events h rs) false then 1 else 0).
Proof.
  intros u h w rs s w' Hu Hb Hc HR Hp.
  pose proof (handles_run u h Hu new_file w None false (w_open w) (w_own w) Hb Hc (new_inv u)) as H. rewrite HR in H.
  assert (H0 : handles_inv None false (w_open w) (w_own w) new_file w) by (cbn; auto).
  specialize (H Hp H0). unfold handles_inv in H. destruct (fs_handle s) as [[m|]|].
  - destruct H as (-> & -> & H3 & H4 & _ & H6). split; [|lia]. intros n. destruct (Nat.eqb n m) eqn:E.
    + apply PeanoNat.Nat.eqb_eq in E. subst. exact H4.
    + apply PeanoNat.Nat.eqb_neq in E. auto.
  - destruct H as (-> & -> & H3 & H4). auto.
  - destruct H as (-> & -> & H3 & H4). split; [auto|lia].
Qed.
Print Assumptions C33_handles.

(** The same for libolecf_file_free at the end of the history. *)
Theorem C33_free :
  forall u h w rs s w' ev,
    una_ok u -> envs_bytes h -> Forall (fun x => ev_close (fst x) = true) h ->
    file_run u h new_file w = (rs, s, w') -> polite None (events h rs) -> ev_close ev = true ->
    exists w2, file_free ev w' s = (Ok tt, w2) /\ w_own w2 = w_own w /\
      forall n, w_open w2 n = fold_left (user_view n) (events h rs) (w_open w n).
Proof.
  intros u h w rs s w' ev Hu Hb Hc HR Hp He.
  pose proof (handles_run u h Hu new_file w None false (w_open w) (w_own w) Hb Hc (new_inv u)) as H. rewrite HR in H.
  assert (H0 : handles_inv None false (w_open w) (w_own w) new_file w) by (cbn; auto).
  specialize (H Hp H0). destruct (tracked_agrees u Hu h w rs s w' Hb HR) as (Hi & _).
  unfold handles_inv in H. unfold file_free, file_close, file_inv in *. destruct (fs_handle s) as [[m|]|].
  - destruct H as (_ & _ & H3 & H4 & H5 & H6). destruct Hi as (_ & ->). rewrite H5, He.
    destruct (fold_left (user_view m) (events h rs) (w_open w m)) eqn:E; cbn [negb].
    + eexists. split; [reflexivity|]. split; [exact H6|]. intros n. destruct (PeanoNat.Nat.eq_dec n m) as [->|Hne]; [congruence|auto].
    + eexists. split; [reflexivity|]. cbn. rewrite He. cbn. split; [exact H6|]. intros n. destruct (Nat.eqb n m) eqn:En.
      * apply PeanoNat.Nat.eqb_eq in En. congruence.
      * apply PeanoNat.Nat.eqb_neq in En. auto.
  - destruct H as (_ & _ & H3 & H4). destruct Hi as (_ & -> & ->). rewrite He. eexists. split; [reflexivity|]. cbn.
    split; [lia|exact H3].
  - destruct H as (_ & _ & H3 & H4). eexists. split; [reflexivity|]. split; auto.
Qed.
Print Assumptions C33_free.

Example C33_case :
  let '(rs, s, w) := file_run xf_una
    [(xf_env, UserOpen 2); (cut_env, FOpenHandle 1 1); (xf_env, FOpenHandle 2 1); (xf_env, FClose);
     (xf_env, FOpenHandle 3 1)] new_file no_world in
  rs = [FDone; FError; FDone; FDone; FDone] /\ map (w_open w) [1; 2; 3]%nat = [false; true; true] /\
  polite None (events [(xf_env, UserOpen 2); (cut_env, FOpenHandle 1 1); (xf_env, FOpenHandle 2 1); (xf_env, FClose);
     (xf_env, FOpenHandle 3 1)] rs).
Proof. vm_compute. repeat split; congruence. Qed.

(** The signature check also leaves the handle as it was. *)
Theorem C33_signature_check :
  forall ev w n, ev_close ev = true ->
    w_own (snd (check_signature_handle ev w n)) = w_own w /\
    forall m, w_open (snd (check_signature_handle ev w n)) m = w_open w m.
Proof.
  intros ev w n Hc. unfold check_signature_handle. destruct (ev_is_open ev); [cbn [negb]|cbn; auto].
  destruct (w_open w n) eqn:Ho; [cbn; auto|].
  assert (Hx : forall w1, (w1 = w \/ w1 = set_open w n true) ->
    w_own (bfio_close ev w1 (User n)) = w_own w /\ forall m, w_open (bfio_close ev w1 (User n)) m = w_open w m).
  { intros w1 Hw. cbn. rewrite Hc. destruct Hw as [->| ->]; cbn; (split; [reflexivity|]); intros m;
      destruct (Nat.eqb m n) eqn:E; auto; apply PeanoNat.Nat.eqb_eq in E; congruence. }
  destruct (ev_open ev); cbn [negb]; [|apply Hx; auto].
  destruct (fst (check_signature (ev_reader ev) [])); try (apply Hx; auto).
  rewrite Hc. apply Hx; auto.
Qed.
Print Assumptions C33_signature_check.

(** C34 *)
Theorem C34_set_codepage :
  forall u ev s w c,
    (supported_codepage c -> exists s', file_step u ev (FSetCodepage c) s w = (FDone, s', w)) /\
    (~ supported_codepage c -> file_step u ev (FSetCodepage c) s w = (FError, s, w)).
Proof.
  intros u ev s w c. cbn [file_step]. unfold file_set_codepage, supported_codepage, codepages. cbn [existsb].
  destruct (_ || _) eqn:E; cbn [result_of]; split; intros H; eauto; exfalso; lia.
Qed.
Print Assumptions C34_set_codepage.

Theorem C34_get_codepage :
  forall u h w rs s w' ev,
    una_ok u -> envs_bytes h -> file_run u h new_file w = (rs, s, w') ->
    file_step u ev FGetCodepage s w' = (FValue (snd (tracked (events h rs))), s, w').
Proof.
  intros u h w rs s w' ev Hu Hb HR. destruct (tracked_agrees u Hu h w rs s w' Hb HR) as (_ & _ & ->). reflexivity.
Qed.
Print Assumptions C34_get_codepage.

(** Closing a file sets the codepage back. *)
Example C34_case : results
  [(xf_env, FSetCodepage 932); (xf_env, FSetCodepage 65001); (xf_env, FOpen 1); (xf_env, FGetCodepage);
   (xf_env, FClose); (xf_env, FGetCodepage)]
  = [FDone; FError; FDone; FValue 932; FDone; FValue 1252].
Proof. vm_compute. reflexivity. Qed.

(** C51 *)
Theorem C51_answers :
  forall u h1 ev op h2 w rs s w',
    una_ok u -> envs_bytes (h1 ++ (ev, op) :: h2) ->
    file_run u (h1 ++ (ev, op) :: h2) new_file w = (rs, s, w') -> is_open_call op ->
    nth_error rs (length h1) = Some FDone -> Forall (fun x => snd x <> FClose) h2 ->
    exists o t, open_read u (ev_reader ev) [] = (Ok o, t) /\
      forall ev' q r, answer u o ev' q = Some r -> file_step u ev' q s w' = (r, s, w').
Proof.
  intros u h1 ev op h2 w rs s w' Hu Hb HR Hop Hr Hc.
  destruct (opened_history u h1 ev op h2 w rs s w' Hu Hb HR Hop Hr Hc) as (o & t & HO & HS).
  exists o, t. split; [exact HO|]. intros ev' q r Ha.
  apply Forall_app in Hb as [_ Hb]. inversion Hb as [|? ? HB _]; subst.
  destruct (C15_sector_sizes u (ev_reader ev) o t Hu HB HO) as ((a & Hra & Ea) & (b & Hrb & Eb)).
  assert (2 ^ a <= 2 ^ 15) by (apply Z.pow_le_mono_r; lia). assert (2 ^ b <= 2 ^ 15) by (apply Z.pow_le_mono_r; lia).
  change (2 ^ 15) with 32768 in *. apply (shows_answer u s o ev' q w' r HS); [lia|lia|exact Ha].
Qed.
Print Assumptions C51_answers.

Example C51_case :
  exists o t s w', file_run xf_una [(xf_env, FOpen 1); (cut_env, FOpen 1)] new_file no_world = ([FDone; FError], s, w') /\
    open_read xf_una (file_reader (xf_file Little)) [] = (Ok o, t) /\
    answer xf_una o xf_env (FItemByUtf8Path [115; 116; 92; 120; 121]) = Some (FItem (Some 4%nat)) /\
    answer xf_una o xf_env (FStream 4 0 (OpRead 100)) =
      Some (FStreamResult (RData [128; 129; 130; 131; 132; 133; 134; 135; 136; 137]) 10).
Proof. do 4 eexists. split; [vm_compute; reflexivity|]. split; [vm_compute; reflexivity|]. split; vm_compute; reflexivity. Qed.

(** C69 *)
(** What the lookup of a path gives on a file object that is not open: no
    item, for a path that starts with two separators; an error for an empty
    path, for one character and for names with separators between them. *)
Definition closed_lookup (char : list Z -> Z -> res (Z * Z)) (look : list Z -> file_result) : Prop :=
  (forall path, zlen path <= 1 -> look path = FError) /\
  (is_char char [92] 92 -> forall path, look (92 :: 92 :: path) = FItem None) /\
  (is_char char [92] 92 -> forall names leading trailing,
     Forall (is_name char) names -> names <> [] ->
     leading = [] \/ leading = [92] -> trailing = [] \/ trailing = [92] ->
     2 <= zlen (leading ++ join names ++ trailing) < 18446744073709551616 ->
     look (leading ++ join names ++ trailing) = FError) /\
  (char_ok char -> forall path, look path = FError \/ look path = FItem None).

Lemma closed_lookup_by char (look : list Z -> file_result) :
  (forall s, look s = item_of (do k <- sub_item_by_path char (fun _ _ => Err) s O;
                               match k with Some _ => Err | None => Ok None end)) ->
  closed_lookup char look.
Proof.
  intros HL. split; [|split; [|split]].
  - intros path Hp. rewrite HL. destruct path as [|c [|c' path]]; [reflexivity|reflexivity|].
    rewrite !zlen_cons in Hp. pose proof (zlen_nonneg path). lia.
  - intros Hs path. rewrite HL. unfold sub_item_by_path. pose proof (zlen_nonneg path).
    destruct (_ || _) eqn:E; [rewrite !zlen_cons in E; lia|]. change (znth (92 :: 92 :: path) 0) with (Some 92).
    rewrite Nat.add_1_r.
    pose proof (path_empty_segment char Hs (fun _ _ => Err) [92] 0%nat (length (92 :: 92 :: path)) path) as Hx.
    cbn [app] in Hx. change (zlen [92]) with 1 in Hx. change (if 92 =? SEPARATOR then 1 else 0) with 1. rewrite Hx. reflexivity.
  - intros Hs names leading trailing HF Hne Hl Ht Hz. rewrite HL.
    rewrite (path_names_all char Hs _ names leading trailing 0%nat HF Hne Hl Ht Hz).
    destruct names; [congruence|]. reflexivity.
  - intros Hc path. rewrite HL.
    destruct (sub_item_by_path_defined (fun _ => True) char (fun _ _ => Err) path 0%nat Hc) as [Hd _];
      [intros; split; [exact I|discriminate]|exact I|].
    destruct (sub_item_by_path _ _ _ _) as [[k|]| | |]; cbn; try contradiction; auto.
Qed.

Theorem C69_closed :
  forall u h w rs s w' ev,
    una_ok u -> envs_bytes h -> file_run u h new_file w = (rs, s, w') ->
    fst (tracked (events h rs)) = false ->
    file_step u ev FRootItem s w' = (FItem None, s, w') /\
    file_step u ev FUnallocatedBlocks s w' = (FValue 0, s, w') /\
    (exists look, closed_lookup (una_utf8_char u) look /\
       forall path, file_step u ev (FItemByUtf8Path path) s w' = (look path, s, w')) /\
    (exists look, closed_lookup (una_utf16_char u) look /\
       forall path, file_step u ev (FItemByUtf16Path path) s w' = (look path, s, w')).
Proof.
  intros u h w rs s w' ev Hu Hb HR Hc. destruct (tracked_agrees u Hu h w rs s w' Hb HR) as (Hi & Ho & _).
  rewrite Ho in Hc. unfold is_open in Hc. unfold file_inv in Hi.
  destruct (fs_handle s) eqn:Hh; [discriminate|]. destruct Hi as (Hd & _).
  assert (Ht : file_tree s = None) by (unfold file_tree; now rewrite Hd).
  cbn [file_step]. rewrite Ht. split; [reflexivity|]. split; [reflexivity|]. split.
  - exists (fun path => item_of (item_by_utf8_path u (file_endian s) None path)). split; [|intros; reflexivity].
    apply closed_lookup_by. reflexivity.
  - exists (fun path => item_of (item_by_utf16_path u (file_endian s) None path)). split; [|intros; reflexivity].
    apply closed_lookup_by. reflexivity.
Qed.
Print Assumptions C69_closed.

(** A failed open and a closed file. *)
Example C69_case : results
  [(cut_env, FOpen 1); (xf_env, FRootItem); (xf_env, FItemByUtf8Path []);
   (xf_env, FItemByUtf8Path [92; 92; 97]); (xf_env, FItemByUtf8Path [92; 97]);
   (xf_env, FOpen 1); (xf_env, FItemByUtf8Path []); (xf_env, FClose); (xf_env, FItemByUtf16Path [115; 116])]
  = [FError; FItem None; FError; FItem None; FError; FDone; FItem (Some O); FDone; FError].
Proof. vm_compute. reflexivity. Qed.

(** C15: the getters report the sizes. *)
Theorem C15_getters :
  forall u h1 ev op h2 w rs s w',
    una_ok u -> envs_bytes (h1 ++ (ev, op) :: h2) ->
    file_run u (h1 ++ (ev, op) :: h2) new_file w = (rs, s, w') -> is_open_call op ->
    nth_error rs (length h1) = Some FDone -> Forall (fun x => snd x <> FClose) h2 ->
    exists a b, 7 <= a <= 15 /\ 0 <= b <= 15 /\
      forall ev', file_step u ev' FSectorSize s w' = (FValue (2 ^ a), s, w') /\
                  file_step u ev' FShortSectorSize s w' = (FValue (2 ^ b), s, w').
Proof.
  intros u h1 ev op h2 w rs s w' Hu Hb HR Hop Hr Hc.
  destruct (C51_answers u h1 ev op h2 w rs s w' Hu Hb HR Hop Hr Hc) as (o & t & HO & HA).
  apply Forall_app in Hb as [_ Hb]. inversion Hb as [|? ? HB _]; subst.
  destruct (C15_sector_sizes u (ev_reader ev) o t Hu HB HO) as ((a & Hra & Ea) & (b & Hrb & Eb)).
  exists a, b. split; [exact Hra|]. split; [exact Hrb|]. rewrite <- Ea, <- Eb. intros ev'. split; apply HA; reflexivity.
Qed.
Print Assumptions C15_getters.

(** C16 *)
Theorem C16_signature_check :
  forall rd f, io_sound rd f -> io_total rd f ->
    (zlen f < 8 -> fst (check_signature rd []) = Err) /\
    (8 <= zlen f -> exists b, fst (check_signature rd []) = Ok b /\
       (b = true <-> slice f 0 8 = [0xd0; 0xcf; 0x11; 0xe0; 0xa1; 0xb1; 0x1a; 0xe1] \/
                     slice f 0 8 = [0x0e; 0x11; 0xfc; 0x0d; 0xd0; 0xcf; 0x11; 0x0e])).
Proof.
  intros rd f HS HT. unfold check_signature, read_exact, read_at, ibind, iret, ierr.
  assert (Heq : forall a b, list_eqb a b = true <-> a = b).
  { induction a as [|x a IH]; intros [|y b]; cbn; split; intros H; try congruence; try reflexivity.
    - apply andb_true_iff in H as [H1 H2]. apply Z.eqb_eq in H1. apply IH in H2. congruence.
    - injection H as -> ->. rewrite Z.eqb_refl. apply IH. reflexivity. }
  split.
  - intros Hl. destruct (rd [] 0 8) as [l|] eqn:E; [|reflexivity]. destruct (zlen l =? 8) eqn:El; [|reflexivity].
    destruct (HS [] 0 8 l) as [Hx _]; [lia|lia|exact E|lia|lia].
  - intros Hl. destruct (HT [] 0 8) as (l & E & El); [lia|lia|lia|]. rewrite E, El. cbn [Z.eqb Pos.eqb fst].
    destruct (HS [] 0 8 l) as [_ ->]; [lia|lia|exact E|exact El|].
    eexists. split; [reflexivity|]. rewrite orb_true_iff, !Heq. reflexivity.
Qed.
Print Assumptions C16_signature_check.

(** A file that opens passes the check, whatever failures occur while opening. *)
Theorem C16_open_implies_check :
  forall u rd rd' f o t, una_ok u -> io_bytes rd -> io_sound rd f -> io_sound rd' f -> io_total rd' f ->
    open_read u rd [] = (Ok o, t) -> fst (check_signature rd' []) = Ok true.
Proof.
  intros u rd rd' f o t Hu HB HS HS' HT' HO.
  destruct (opened_outcome u rd Hu HB o t HO) as (data & e & Hr & Hl & _ & Ha & _).
  destruct (HS [] 0 512 data) as [Hx Hd]; [lia|lia|exact Hr|exact Hl|].
  destruct (C16_signature_check rd' f HS' HT') as [_ H]. destruct H as (b & -> & Hb); [lia|]. f_equal. apply Hb.
  destruct Ha as (_ & Hs & _). unfold slice in *. rewrite Hd in Hs.
  change (Z.to_nat 0) with 0%nat in *. cbn [skipn] in *. rewrite firstn_firstn in Hs.
  change (Nat.min (Z.to_nat 8) (Z.to_nat 512)) with (Z.to_nat 8) in Hs. exact Hs.
Qed.
Print Assumptions C16_open_implies_check.

(** The API function on a handle, without failures of the I/O layer. *)
Theorem C16_on_handle :
  forall ev w n, ev_is_open ev = true -> ev_open ev = true -> ev_close ev = true ->
    fst (check_signature_handle ev w n) = fst (check_signature (ev_reader ev) []).
Proof.
  intros ev w n H1 H2 H3. unfold check_signature_handle. rewrite H1, H2. cbn [negb].
  destruct (w_open w n); [reflexivity|]. destruct (fst (check_signature (ev_reader ev) [])); try reflexivity. now rewrite H3.
Qed.
Print Assumptions C16_on_handle.

Example C16_case :
  fst (check_signature_handle xf_env no_world 1) = Ok true /\
  fst (check_signature_handle (good_env (repeat 0 100)) no_world 1) = Ok false /\
  fst (check_signature_handle (good_env [0xd0; 0xcf]) no_world 1) = Err.
Proof. split; [|split]; vm_compute; reflexivity. Qed.
