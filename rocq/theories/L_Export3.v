(** Lemmas on the export of opened files. *)
From Coq Require Import ZArith List Bool Lia Arith Sorted.
From Verif Require Import Base Spec_IO M_Table M_Load M_Stream M_Tree M_Open M_Item M_Mount M_Export
  Spec_Stream Spec_Content Spec_Tree Spec_Export L_Base L_Stream L_Tree L_Tree2 L_Tree3 L_Open L_Open2 L_Session
  L_Export L_Export2.
Import ListNotations.
Open Scope Z_scope.

(** * The tree of an opened file *)
Lemma opened_shape u rd o t tr : una_ok u -> io_bytes rd -> open_read u rd [] = (Ok o, t) ->
  o_tree o = Some tr -> tree_shape tr.
Proof.
  intros Hu HB HO Ht. destruct (opened_made u rd Hu HB o t HO tr Ht) as (root & HM).
  pose proof (made_wf u _ _ root tr HM) as W.
  assert (HS : forall k j, item_sub tr k j -> exists d, nth_error (vw (final tr)) j = Some (d, Some k)).
  { intros k j Hs. eapply sub_vw; eauto. destruct Hs as (n & Hn & _). exists (n_entry n), n. auto. }
  constructor.
  - intros k j Hs. destruct (HS _ _ Hs) as (d & Hd).
    assert (Hj : (0 < j)%nat).
    { destruct j; [|lia]. destruct (wf_root _ _ W) as (d0 & vs & H0). rewrite H0 in Hd. discriminate. }
    destruct (wf_parent _ _ W _ _ _ Hj Hd) as (p & [= <-] & Hp). split; [exact Hp|].
    change (tr_nodes tr) with (t_nodes (final tr)). rewrite <- vw_length. apply nth_error_Some. congruence.
  - intros k k' j H1 H2. destruct (HS _ _ H1) as (d & Hd). destruct (HS _ _ H2) as (d' & Hd'). congruence.
  - intros k n Hn. change (tr_nodes tr) with (t_nodes (final tr)) in Hn.
    destruct (wf_subs _ _ W _ _ Hn) as ((ids & Hids & Hso) & _).
    apply (NoDup_map_inv (id_of (t_nodes (final tr)))). rewrite Hids. apply FinFun.Injective_map_NoDup.
    + intros a b E. congruence.
    + clear - Hso. induction Hso as [|a l Hs IH Hall]; constructor; auto.
      intros Hin. rewrite Forall_forall in Hall. specialize (Hall _ Hin). lia.
Qed.

Lemma opened_item_ok u rd o t tr k d : una_ok u -> io_bytes rd -> open_read u rd [] = (Ok o, t) ->
  o_tree o = Some tr -> item_entry tr k d -> dirent_ok d.
Proof.
  intros Hu HB HO Ht Hk. destruct (opened_made u rd Hu HB o t HO tr Ht) as (root & HM).
  destruct (opened_entries u rd Hu HB o t HO) as (_ & Hd & _).
  apply (proj1 (Forall_forall _ _) Hd). apply (made_incl u _ _ root tr HM).
  destruct Hk as (n & Hn & <-). unfold tree_entries. apply in_map. eapply nth_error_In; eauto.
Qed.

Lemma opened_first u rd o t tr : una_ok u -> io_bytes rd -> open_read u rd [] = (Ok o, t) ->
  o_tree o = Some tr -> exists d, item_entry tr 0 d.
Proof.
  intros Hu HB HO Ht. destruct (opened_made u rd Hu HB o t HO tr Ht) as (root & HM).
  exists root. eapply made_root; eauto.
Qed.

(** * The whole tool *)
Lemma export_file_grows ho rd v o p n w q x :
  on_disk (x_disk (snd (export_file ho rd v o p n w))) q = Some x ->
  on_disk (x_disk w) q = Some x \/
  (q = path_join p n /\ x = Directory) \/
  (below_path (path_join p n) q /\ exists t, o = Some t /\ good rd v t q x).
Proof.
  unfold export_file. pose proof (make_directory_other ho p n w) as HM.
  unfold xbind. destruct (make_directory ho p n w) as [[u| | |] w1]; cbn [snd] in *.
  2,3,4: destruct HM as [->|(_ & ->)]; [auto|]; rewrite on_disk_cons;
    destruct (list_eq_dec Z.eq_dec q (path_join p n)) as [->|]; [|auto]; intros [= <-]; auto.
  assert (H1 : on_disk (x_disk w1) q = Some x -> on_disk (x_disk w) q = Some x \/
    (q = path_join p n /\ x = Directory)).
  { destruct HM as [->|(_ & ->)]; [auto|]. rewrite on_disk_cons.
    destruct (list_eq_dec Z.eq_dec q (path_join p n)) as [->|]; [|auto]. intros [= <-]. auto. }
  destruct o as [t|]; cbn [xret snd].
  - destruct (export_sub_items_grows ho rd v t 0 (path_join p n) w1) as (_ & G2).
    intros H. destruct (G2 _ _ H) as [H2|(H2 & H3)]; [destruct (H1 H2); auto|]. eauto 10.
  - intros H. destruct (H1 H); auto.
Qed.

Lemma export_file_keeps ho rd v o p n w q x :
  on_disk (x_disk w) q = Some x ->
  on_disk (x_disk (snd (export_file ho rd v o p n w))) q = Some x.
Proof.
  intros Hq. unfold export_file. pose proof (make_directory_other ho p n w) as HM.
  assert (H1 : on_disk (x_disk (snd (make_directory ho p n w))) q = Some x).
  { destruct HM as [->|(Hn & ->)]; [auto|]. rewrite on_disk_other; [exact Hq|]. congruence. }
  unfold xbind. destruct (make_directory ho p n w) as [[u| | |] w1]; cbn [snd] in *; auto.
  destruct o as [t|]; [|exact H1].
  apply (proj1 (export_sub_items_grows ho rd v t 0 (path_join p n) w1)). exact H1.
Qed.

Lemma export_file_exact ho rd v t p n w d :
  exportable ho rd v t -> (forall k, ho_fault ho k = None) -> item_entry t 0 d ->
  dot_name n = false -> vacant (x_disk w) (path_join p n) ->
  exists w', export_file ho rd v (Some t) p n w = (Ok tt, w') /\
    forall q x, on_disk (x_disk w') q = Some x <->
      on_disk (x_disk w) q = Some x \/ (q = path_join p n /\ x = Directory) \/
      expected ho rd v t 0 (path_join p n) q x.
Proof.
  intros HE HF Hd Hdot (V1 & V2). unfold export_file.
  destruct (mkdir_no_fault ho HF p n w Hdot V1) as (w1 & H1 & D1).
  rewrite (xbind_Ok _ _ _ _ _ H1).
  destruct (export_sub_items_exact ho rd v t HE HF 0 d (path_join p n) w1 Hd) as (w2 & H2 & HA).
  { intros q. rewrite D1, on_disk_other; [apply V2|]. intros E.
    symmetry in E. exact (join_neq _ _ E). }
  exists w2. split; [exact H2|]. intros q x. rewrite (HA q x), D1, on_disk_cons.
  destruct (list_eq_dec Z.eq_dec q (path_join p n)) as [->|Hq].
  - split; [intros [[= <-]|H]; auto|]. intros [H|[(_ & ->)|H]]; auto. congruence.
  - split; [intros [H|H]; auto|]. intros [H|[(H & _)|H]]; auto. congruence.
Qed.

Lemma export_file_defined ho rd v t p n w :
  tree_shape t -> volume_ok v -> (forall k d, item_entry t k d -> dirent_ok d) ->
  (exists d, item_entry t 0 d) ->
  (forall k d m, item_entry t k d -> safe_name ho (v_byte_order v) d m -> 9 <= zlen m) ->
  defined (fst (export_file ho rd v (Some t) p n w)).
Proof.
  intros HT HV HD (d & nd & Hn & _) HN. unfold export_file. apply xbind_defined.
  { unfold make_directory. rewrite call_fst. destruct (ho_fault _ _); [exact I|].
    destruct (dot_name n); [exact I|]. destruct (on_disk _ _); exact I. }
  intros u w1 _. apply export_sub_items_defined; auto.
  apply nth_error_Some. congruence.
Qed.

(** * The write of the name *)
Lemma choose_name_exact ho v d index dir w n :
  safe_name ho (v_byte_order v) d n -> ho_fault ho (x_calls w) = None ->
  fst (choose_name ho v d index dir w) =
  if dot_name n || match on_disk (x_disk w) (path_join dir n) with Some _ => true | None => false end
  then if zlen n <? 9 then Undef else if 12 <? zlen (item_text index) then Err else Ok (firstn 9 (item_text index))
  else Ok n.
Proof.
  intros (raw & Hr & Hs) HF. unfold choose_name. rewrite Hr, Hs. unfold xbind, file_exists, call. rewrite HF.
  destruct (dot_name n || _); [|reflexivity]. unfold xlift, item_name_again. cbn [fst].
  replace (zlen n + 1 <? 10) with (zlen n <? 9); [reflexivity|].
  apply eq_true_iff_eq. rewrite !Z.ltb_lt. lia.
Qed.

Lemma choose_name_undef ho v d index dir w :
  fst (choose_name ho v d index dir w) = Undef ->
  exists n, safe_name ho (v_byte_order v) d n /\ ho_fault ho (x_calls w) = None /\ zlen n < 9 /\
    (In n [[46]; [46; 46]] \/ on_disk (x_disk w) (path_join dir n) <> None).
Proof.
  unfold choose_name. destruct (ho_name _ _ _) as [raw|] eqn:E1; [|discriminate].
  destruct (ho_sanitize ho raw) as [n|] eqn:E2; [|discriminate].
  unfold xbind, file_exists, call. destruct (ho_fault ho (x_calls w)) eqn:EF; [discriminate|].
  intros H. exists n. split; [exists raw; auto|]. split; [reflexivity|].
  destruct (dot_name n) eqn:Ed; [|destruct (on_disk (x_disk w) (path_join dir n)) eqn:Eo]; cbn [orb] in H;
    try discriminate; unfold xlift, item_name_again in H; cbn [fst] in H;
    destruct (zlen n + 1 <? 10) eqn:E; try (destruct (12 <? _); discriminate).
  - split; [lia|]. left. unfold dot_name in Ed.
    destruct (list_eq_dec Z.eq_dec n [46]) as [->|]; [left; reflexivity|].
    destruct (list_eq_dec Z.eq_dec n [46; 46]) as [->|]; [right; left; reflexivity|discriminate].
  - split; [lia|]. right. discriminate.
Qed.

(** * Items with names of their own *)
Definition within (r : list Z) (s s' : disk) : Prop :=
  forall q x, on_disk s' q = Some x -> on_disk s q = Some x \/ q = r \/ below_path r q.

Lemma within_none r s s' q : within r s s' -> on_disk s q = None -> q <> r -> ~ below_path r q ->
  on_disk s' q = None.
Proof.
  intros HW Hn H1 H2. destruct (on_disk s' q) as [x|] eqn:E; [|reflexivity].
  destruct (HW _ _ E) as [H|[H|H]]; [congruence|destruct (H1 H)|destruct (H2 H)].
Qed.

Section Own.
Variables (ho : host) (rd : reader) (v : volume) (t : tree).
Hypothesis HT : tree_shape t.
Hypothesis HV : volume_ok v.
Hypothesis HD : forall k d, item_entry t k d -> dirent_ok d.
Hypothesis HP : forall k j d n, item_sub t k j -> item_entry t j d -> safe_name ho (v_byte_order v) d n ->
  ~ In 47 n /\
  ~ In n [[46]; [46; 46]; [83; 116; 114; 101; 97; 109; 68; 97; 116; 97; 46; 98; 105; 110]].
Hypothesis HU : forall k i j d d' n, item_sub t k i -> item_sub t k j -> item_entry t i d -> item_entry t j d' ->
  safe_name ho (v_byte_order v) d n -> safe_name ho (v_byte_order v) d' n -> i = j.

Definition own_result (d : dirent) (dir : list Z) (s : disk) (r : res unit * xstate) : Prop :=
  defined (fst r) /\
  (x_disk (snd r) = s \/
   exists n, safe_name ho (v_byte_order v) d n /\ within (path_join dir n) s (x_disk (snd r))).

Lemma own_bind {A} (m : xio A) k d dir s w :
  match m w with
  | (Ok a, w') => own_result d dir s (k a w')
  | (Err, w') => own_result d dir s (Err, w')
  | _ => False
  end -> own_result d dir s (xbind m k w).
Proof. unfold xbind. destruct (m w) as [[a| | |] w']; auto; intros []. Qed.

Definition own_claim (fuel : nat) : Prop :=
  forall k0 k d index dir w,
    item_sub t k0 k -> item_entry t k d -> (length (tr_nodes t) - k <= fuel)%nat ->
    (forall n, safe_name ho (v_byte_order v) d n -> vacant (x_disk w) (path_join dir n)) ->
    own_result d dir (x_disk w) (export_item ho rd v t fuel k index dir w).

Lemma own_loop fuel k0 dir : own_claim fuel -> (length (tr_nodes t) - k0 <= S fuel)%nat ->
  forall subs index w,
    NoDup subs -> (forall j, In j subs -> item_sub t k0 j) ->
    (forall j d n, In j subs -> item_entry t j d -> safe_name ho (v_byte_order v) d n ->
       vacant (x_disk w) (path_join dir n)) ->
    defined (fst (sub_items_loop (export_item ho rd v t fuel) index subs dir w)).
Proof.
  intros IC Hfuel. induction subs as [|j subs IH]; intros index w Hnd Hsub Hvac; [exact I|].
  cbn [sub_items_loop]. inversion Hnd as [|j' l' Hnotin Hnd']. subst.
  assert (Hj : item_sub t k0 j) by (apply Hsub; left; reflexivity).
  pose proof (ts_later _ HT _ _ Hj) as Hlt.
  destruct (nth_error (tr_nodes t) j) as [nd|] eqn:Hnode; [|apply nth_error_None in Hnode; lia].
  assert (Hd : item_entry t j (n_entry nd)) by (exists nd; auto).
  destruct (IC k0 j (n_entry nd) index dir w Hj Hd ltac:(lia)) as (HDef & HW).
  { intros n Hn. eapply Hvac; eauto. left. reflexivity. }
  assert (Hnext : forall i d' n', In i subs -> item_entry t i d' -> safe_name ho (v_byte_order v) d' n' ->
    vacant (x_disk (snd (export_item ho rd v t fuel j index dir w))) (path_join dir n')).
  { intros i d' n' Hi Hd' Hn'. destruct (Hvac i d' n' (or_intror Hi) Hd' Hn') as (V1 & V2).
    destruct HW as [->|(n & Hn & HW)]; [split; auto|].
    assert (Hi' : item_sub t k0 i) by (apply Hsub; right; exact Hi).
    assert (Hne : n <> n').
    { intros ->. apply Hnotin. rewrite (HU k0 j i _ _ _ Hj Hi' Hd Hd' Hn Hn'). exact Hi. }
    destruct (HP _ _ _ _ Hj Hd Hn) as (Hs & _). destruct (HP _ _ _ _ Hi' Hd' Hn') as (Hs' & _).
    assert (HA : forall q, (q = path_join dir n' \/ below_path (path_join dir n') q) ->
                 q <> path_join dir n /\ ~ below_path (path_join dir n) q).
    { intros q Hq. split; intros H.
      - destruct (join_apart dir n n' q Hs Hs' Hne (or_introl H)) as (F1 & F2). destruct Hq; auto.
      - destruct (join_apart dir n n' q Hs Hs' Hne (or_intror H)) as (F1 & F2). destruct Hq; auto. }
    split.
    - destruct (HA _ (or_introl eq_refl)). eapply within_none; eauto.
    - intros q. destruct (HA (path_join dir n' ++ 47 :: q)) as (A1 & A2); [right; exists q; reflexivity|].
      eapply within_none; eauto. }
  destruct (export_item ho rd v t fuel j index dir w) as [[u| | |] w1]; cbn [fst snd] in *; try destruct HDef;
    (apply IH; [exact Hnd'|intros; apply Hsub; right; assumption|exact Hnext]).
Qed.

Lemma own_exact fuel : own_claim fuel.
Proof.
  induction fuel as [|fuel IH]; intros k0 k d index dir w Hsub Hd Hfuel Hvac.
  { pose proof (ts_later _ HT _ _ Hsub). lia. }
  pose proof (ts_later _ HT _ _ Hsub) as Hlt.
  assert (Hv : node_value t k = Ok d).
  { destruct Hd as (nd & Hnd & <-). unfold node_value. now rewrite Hnd. }
  rewrite export_item_unfold. apply own_bind. rewrite Hv. cbn [xlift].
  pose proof (choose_name_disk ho v d index dir w) as Dc.
  assert (Hc : match fst (choose_name ho v d index dir w) with
               | Ok name => safe_name ho (v_byte_order v) d name
               | Err => True
               | _ => False
               end).
  { unfold choose_name. destruct (ho_name _ _ _) as [raw|] eqn:E1; [|exact I].
    destruct (ho_sanitize ho raw) as [n|] eqn:E2; [|exact I].
    assert (Hn : safe_name ho (v_byte_order v) d n) by (exists raw; auto).
    unfold xbind, file_exists, call. destruct (ho_fault _ _); [exact I|].
    destruct (HP _ _ _ _ Hsub Hd Hn) as (_ & Hres). destruct (Hvac n Hn) as (V1 & _). rewrite V1.
    rewrite not_dots; [exact Hn|]. intros Hi. apply Hres. destruct Hi as [<-|[<-|[]]]; simpl; auto. }
  apply own_bind.
  destruct (choose_name ho v d index dir w) as [[name| | |] w1]; cbn [fst snd] in Hc, Dc;
    [| |destruct Hc|destruct Hc].
  2: { split; [exact I|]. left. exact Dc. }
  destruct (Hvac name Hc) as (V1 & V2). rewrite <- Dc in V1, V2 |- *.
  set (path := path_join dir name) in *. clear Dc Hvac w.
  assert (Hmd : make_directory ho dir name w1 = (Err, snd (make_directory ho dir name w1)) /\
                x_disk (snd (make_directory ho dir name w1)) = x_disk w1 \/
                make_directory ho dir name w1 = (Ok tt, snd (make_directory ho dir name w1)) /\
                x_disk (snd (make_directory ho dir name w1)) = (path, Directory) :: x_disk w1).
  { unfold make_directory, call. destruct (ho_fault _ _); [left; split; reflexivity|].
    destruct (dot_name name); [left; split; reflexivity|].
    destruct (on_disk _ _); [left; split; reflexivity|right; split; reflexivity]. }
  apply own_bind. destruct Hmd as [(E1 & Dm)|(E1 & Dm)]; rewrite E1; clear E1.
  { split; [exact I|]. left. exact Dm. }
  set (w2 := snd (make_directory ho dir name w1)) in *. clearbody w2.
  (* From here all that happens is below the directory made. *)
  assert (HW : within path (x_disk w1) (x_disk w2)).
  { intros q x. rewrite Dm, on_disk_cons. destruct (list_eq_dec Z.eq_dec q path); auto. }
  assert (HVd : forall q, on_disk (x_disk w2) (path ++ 47 :: q) = None).
  { intros q. rewrite Dm, on_disk_other; [apply V2|]. intros E. symmetry in E. exact (join_neq _ _ E). }
  cbv zeta. fold path. set (target := path_join path stream_data_name).
  assert (Hex : file_exists ho path stream_data_name w2 = (Err, snd (file_exists ho path stream_data_name w2)) \/
                file_exists ho path stream_data_name w2 = (Ok false, snd (file_exists ho path stream_data_name w2))).
  { unfold file_exists, call. destruct (ho_fault _ _); [left; reflexivity|]. right.
    unfold path_join at 1, SLASH. rewrite HVd. reflexivity. }
  pose proof (file_exists_disk ho path stream_data_name w2) as De.
  apply own_bind. destruct Hex as [E1|E1]; rewrite E1; clear E1.
  { split; [exact I|]. right. exists name. cbn [snd]. rewrite De. auto. }
  set (w3 := snd (file_exists ho path stream_data_name w2)) in *. clearbody w3.
  rewrite <- De in HW, HVd. clear De Dm w2.
  assert (Hop : open_write ho target w3 = (Err, snd (open_write ho target w3)) /\
                x_disk (snd (open_write ho target w3)) = x_disk w3 \/
                open_write ho target w3 = (Ok tt, snd (open_write ho target w3)) /\
                x_disk (snd (open_write ho target w3)) = (target, Data []) :: x_disk w3).
  { unfold open_write, call. destruct (ho_fault _ _); [left|right]; split; reflexivity. }
  apply own_bind. destruct Hop as [(E1 & Do)|(E1 & Do)]; rewrite E1; clear E1.
  { split; [exact I|]. right. exists name. cbn [snd]. rewrite Do. auto. }
  set (w4 := snd (open_write ho target w3)) in *. clearbody w4.
  assert (HW4 : forall w5, (forall q, q <> target -> on_disk (x_disk w5) q = on_disk (x_disk w4) q) ->
                within path (x_disk w1) (x_disk w5)).
  { intros w5 Hw5 q x Hq. destruct (list_eq_dec Z.eq_dec q target) as [->|Hne].
    - right. right. apply join_below.
    - rewrite Hw5, Do, on_disk_other in Hq by exact Hne. apply HW. exact Hq. }
  assert (HN4 : forall w5, (forall q, q <> target -> on_disk (x_disk w5) q = on_disk (x_disk w4) q) ->
                forall q, path ++ 47 :: q <> target -> on_disk (x_disk w5) (path ++ 47 :: q) = None).
  { intros w5 Hw5 q Hne. rewrite Hw5, Do, on_disk_other by exact Hne. apply HVd. }
  pose proof (fun q => copy_item_other ho rd v d target w4 q) as Hco.
  assert (Hcd : defined (fst (copy_item ho rd v d target w4))).
  { unfold copy_item. destruct (0 <? de_size d) eqn:E0; [|exact I].
    pose proof (HD _ _ Hd) as Hok. pose proof (do_size _ Hok) as Hsz. unfold is_u32 in Hsz.
    apply copy_loop_defined; auto.
    unfold BUFFER_SIZE. pose proof (Z.div_mod (de_size d) 32768 ltac:(lia)).
    pose proof (Z.mod_pos_bound (de_size d) 32768 ltac:(lia)).
    assert (0 <= de_size d / 32768) by (apply Z.div_pos; lia). lia. }
  apply own_bind. destruct (copy_item ho rd v d target w4) as [[u| | |] w5]; cbn [fst snd] in *;
    try destruct Hcd.
  2: { split; [exact I|]. right. exists name. split; [exact Hc|]. apply HW4. exact Hco. }
  assert (Hcl : (close_file ho w5 = (Err, snd (close_file ho w5)) \/
                 close_file ho w5 = (Ok tt, snd (close_file ho w5))) /\
                x_disk (snd (close_file ho w5)) = x_disk w5).
  { unfold close_file, call. cbn [snd x_disk]. split; [destruct (ho_fault _ _); auto|reflexivity]. }
  apply own_bind. destruct Hcl as ([E1|E1] & Dl); rewrite E1; clear E1.
  { split; [exact I|]. right. exists name. split; [exact Hc|]. cbn [snd]. rewrite Dl. apply HW4. exact Hco. }
  set (w6 := snd (close_file ho w5)) in *. clearbody w6.
  assert (Hco6 : forall q, q <> target -> on_disk (x_disk w6) q = on_disk (x_disk w4) q).
  { intros q Hq. rewrite Dl. apply Hco. exact Hq. }
  destruct Hd as (nd & Hnd & Hdn). apply own_bind. unfold sub_nodes. rewrite Hnd. cbn [xlift].
  assert (Hplace : forall q x,
     on_disk (x_disk (snd (sub_items_loop (export_item ho rd v t fuel) 0 (n_subs nd) path w6))) q = Some x ->
     on_disk (x_disk w6) q = Some x \/ below_path path q).
  { intros q x Hq.
    destruct (sub_items_loop_grows rd v t (export_item ho rd v t fuel) path
       ltac:(intros; apply export_item_grows) (n_subs nd) 0 w6) as (_ & G).
    destruct (G _ _ Hq) as [H|(H & _)]; auto. }
  split.
  - apply (own_loop fuel k path IH ltac:(lia)); [eapply ts_nodup; eauto|intros j Hj; exists nd; auto|].
    + intros j d' n' Hj Hd' Hn'. assert (Hs : item_sub t k j) by (exists nd; auto).
      destruct (HP _ _ _ _ Hs Hd' Hn') as (Hslash & Hres).
      assert (Hne : stream_data_name <> n').
      { intros E. apply Hres. rewrite <- E. simpl. auto. }
      destruct (join_apart path stream_data_name n' target stream_data_plain Hslash Hne
        (or_introl eq_refl)) as (F1 & F2).
      split.
      * apply (HN4 w6 Hco6 n'). intros E. apply F1. symmetry. exact E.
      * intros q. unfold path_join, SLASH. rewrite <- app_assoc. apply (HN4 w6 Hco6).
        intros E. apply F2. exists q. unfold path_join, SLASH. rewrite <- app_assoc. symmetry. exact E.
  - right. exists name. split; [exact Hc|]. intros q x Hq.
    destruct (Hplace _ _ Hq) as [H|H]; [|auto]. apply (HW4 w6 Hco6). exact H.
Qed.

Lemma export_file_own p n w d : item_entry t 0 d -> vacant (x_disk w) (path_join p n) ->
  defined (fst (export_file ho rd v (Some t) p n w)).
Proof.
  intros (nd & Hnd & _) (V1 & V2). unfold export_file.
  destruct (make_directory_other ho p n w) as [Dm|(_ & Dm)]; revert Dm.
  all: unfold xbind; assert (Hm : defined (fst (make_directory ho p n w)));
    [unfold make_directory; rewrite call_fst; destruct (ho_fault _ _); [exact I|];
     destruct (dot_name n); [exact I|]; destruct (on_disk _ _); exact I|].
  all: destruct (make_directory ho p n w) as [[u| | |] w1]; cbn [fst snd] in *; intros Dm; try destruct Hm; try exact I.
  all: unfold export_sub_items, xbind, sub_nodes; rewrite Hnd; cbn [xlift].
  all: apply (own_loop (length (tr_nodes t)) O _ (own_exact _) ltac:(lia)); [eapply ts_nodup; eauto|intros j Hj; exists nd; auto|].
  all: intros j d' n' _ _ _; rewrite Dm.
  - split; [apply V2|]. intros q. unfold path_join at 1, SLASH. rewrite <- app_assoc. apply V2.
  - assert (HN : forall q, path_join p n ++ 47 :: q <> path_join p n).
    { intros q E. symmetry in E. exact (join_neq _ _ E). }
    split.
    + rewrite on_disk_other by apply HN. apply V2.
    + intros q. assert (E : path_join (path_join p n) n' ++ 47 :: q = path_join p n ++ 47 :: n' ++ 47 :: q).
      { unfold path_join at 1, SLASH. rewrite <- app_assoc. reflexivity. }
      rewrite E, on_disk_other by apply HN. apply V2.
Qed.
End Own.

(** * An item that is no stream but has a size *)
Lemma copy_not_stream ho rd v d target w : de_type d <> 2 -> 0 < de_size d ->
  exists w', copy_item ho rd v d target w = (Err, w') /\ x_disk w' = x_disk w.
Proof.
  intros Ht Hs. unfold copy_item. rewrite (proj2 (Z.ltb_lt _ _) Hs).
  rewrite Nat.add_comm. cbn [Nat.add copy_loop]. rewrite (proj2 (Z.ltb_lt _ _) Hs). cbv zeta.
  unfold xbind at 1, read_item, stream_read_buffer, TYPE_STREAM.
  rewrite (proj2 (Z.eqb_neq _ _) Ht). cbn. eexists. split; reflexivity.
Qed.

Definition nothing_more (dir : list Z) (s : disk) (r : res unit * xstate) : Prop :=
  (forall u, fst r <> Ok u) /\
  exists name, forall q x, on_disk (x_disk (snd r)) q = Some x ->
    on_disk s q = Some x \/ (q = path_join dir name /\ x = Directory) \/
    (q = data_path (path_join dir name) /\ x = Data []).

Lemma nothing_bind {A} (m : xio A) k dir s w :
  match m w with
  | (Ok a, w') => nothing_more dir s (k a w')
  | (_, w') => nothing_more dir s (Err, w')
  end -> nothing_more dir s (xbind m k w).
Proof. unfold xbind. destruct (m w) as [[a| | |] w']; auto; intros (_ & H); split; auto; discriminate. Qed.

Lemma nothing_err dir s name w :
  (forall q x, on_disk (x_disk w) q = Some x ->
    on_disk s q = Some x \/ (q = path_join dir name /\ x = Directory) \/
    (q = data_path (path_join dir name) /\ x = Data [])) -> nothing_more dir s (Err, w).
Proof. intros H. split; [discriminate|]. exists name. exact H. Qed.

Lemma export_item_not_stream ho rd v t fuel k d index dir w : item_entry t k d ->
  de_type d <> 2 -> 0 < de_size d -> no_stray (x_disk w) ->
  nothing_more dir (x_disk w) (export_item ho rd v t fuel k index dir w).
Proof.
  intros Hk Ht Hs Hst. destruct fuel as [|fuel]; [split; [discriminate|exists []; auto]|].
  rewrite export_item_unfold.
  assert (Hv : node_value t k = Ok d).
  { destruct Hk as (nd & Hnd & <-). unfold node_value. now rewrite Hnd. }
  apply nothing_bind. rewrite Hv. cbn [xlift].
  pose proof (choose_name_disk ho v d index dir w) as Dc.
  apply nothing_bind. destruct (choose_name ho v d index dir w) as [[name| | |] w1]; cbn [snd] in Dc.
  2,3,4: apply (nothing_err _ _ []); rewrite Dc; auto.
  rewrite <- Dc in Hst |- *. clear Dc w.
  pose proof (make_directory_other ho dir name w1) as Hm.
  pose proof (fun u w' => make_directory_ok ho dir name w1 u w') as Hmo.
  apply nothing_bind. destruct (make_directory ho dir name w1) as [[u| | |] w2]; cbn [snd] in Hm.
  2,3,4: apply (nothing_err _ _ name); intros q x; destruct Hm as [->|(_ & ->)]; auto;
    rewrite on_disk_cons; destruct (list_eq_dec Z.eq_dec q (path_join dir name)); auto;
    intros [= <-]; auto.
  destruct (Hmo u w2 eq_refl) as (_ & V1 & Dm). clear Hm Hmo. cbv zeta.
  set (path := path_join dir name) in *.
  assert (HW : forall q x, on_disk (x_disk w2) q = Some x ->
    on_disk (x_disk w1) q = Some x \/ q = path /\ x = Directory).
  { intros q x. rewrite Dm, on_disk_cons. destruct (list_eq_dec Z.eq_dec q path); auto.
    intros [= <-]. auto. }
  assert (Hnd : on_disk (x_disk w2) (path_join path stream_data_name) = None).
  { rewrite Dm, on_disk_other; [apply Hst; exact V1|]. intros E. symmetry in E. exact (join_neq _ _ E). }
  pose proof (file_exists_disk ho path stream_data_name w2) as De.
  assert (Hex : fst (file_exists ho path stream_data_name w2) = Err \/
                fst (file_exists ho path stream_data_name w2) = Ok false).
  { unfold file_exists, call. destruct (ho_fault _ _); [left; reflexivity|]. right.
    rewrite Hnd. reflexivity. }
  apply nothing_bind. destruct (file_exists ho path stream_data_name w2) as [r w3]; cbn [fst snd] in *.
  rewrite <- De in HW.
  assert (HE3 : nothing_more dir (x_disk w1) (Err, w3)).
  { apply (nothing_err _ _ name). intros q x Hq. fold path. destruct (HW _ _ Hq); auto. }
  destruct Hex as [-> | ->]; [exact HE3|].
  set (target := path_join path stream_data_name) in *.
  apply nothing_bind. unfold open_write, call. destruct (ho_fault ho (x_calls w3)).
  { apply (nothing_err _ _ name). intros q x Hq. fold path. destruct (HW _ _ Hq); auto. }
  match goal with
  | |- nothing_more _ _ (xbind _ _ ?W) => set (w4 := W)
  end.
  destruct (copy_not_stream ho rd v d target w4 Ht Hs) as (w5 & Hc & Dc).
  apply nothing_bind. rewrite Hc. apply (nothing_err _ _ name). intros q x. fold path.
  rewrite Dc. unfold w4. cbn [x_disk]. rewrite on_disk_cons.
  destruct (list_eq_dec Z.eq_dec q target) as [->|].
  - intros [= <-]. right. right. split; [symmetry; apply data_path_join|reflexivity].
  - intros Hq. destruct (HW _ _ Hq); auto.
Qed.

Lemma decimal_length n : 0 <= n < 100000 -> (length (decimal 10 n) <= 5)%nat.
Proof.
  intros Hn. cbn [decimal].
  repeat match goal with |- context [?a <? 10] => destruct (a <? 10) eqn:?; [cbn; lia|] end;
  try (exfalso;
    pose proof (Z.div_mod n 10 ltac:(lia)); pose proof (Z.mod_pos_bound n 10 ltac:(lia));
    pose proof (Z.div_mod (n / 10) 10 ltac:(lia)); pose proof (Z.mod_pos_bound (n / 10) 10 ltac:(lia));
    pose proof (Z.div_mod (n / 10 / 10) 10 ltac:(lia)); pose proof (Z.mod_pos_bound (n / 10 / 10) 10 ltac:(lia));
    pose proof (Z.div_mod (n / 10 / 10 / 10) 10 ltac:(lia));
    pose proof (Z.mod_pos_bound (n / 10 / 10 / 10) 10 ltac:(lia));
    pose proof (Z.div_mod (n / 10 / 10 / 10 / 10) 10 ltac:(lia));
    pose proof (Z.mod_pos_bound (n / 10 / 10 / 10 / 10) 10 ltac:(lia)); lia).
Qed.

Lemma item_text_length index : 0 <= index < 99999 -> length (item_text index) = 9%nat.
Proof.
  intros H. unfold item_text. pose proof (decimal_length (index + 1) ltac:(lia)) as Hl.
  rewrite !app_length, repeat_length. cbn [length]. lia.
Qed.

Lemma name_write ho v d index dir w n :
  safe_name ho (v_byte_order v) d n -> ho_fault ho (x_calls w) = None ->
  (In n [[46]; [46; 46]] \/ on_disk (x_disk w) (path_join dir n) <> None) ->
  (fst (choose_name ho v d index dir w) = Undef <-> zlen n < 9) /\
  (9 <= zlen n -> 0 <= index < 99999 ->
   fst (choose_name ho v d index dir w) = Ok (item_text index) /\ zlen (item_text index) = 9).
Proof.
  intros Hn HF Ht. rewrite (choose_name_exact ho v d index dir w n Hn HF).
  assert (Hb : dot_name n || match on_disk (x_disk w) (path_join dir n) with Some _ => true | None => false end = true).
  { destruct Ht as [[<-|[<-|[]]]|Ht]; [reflexivity|reflexivity|].
    destruct (on_disk _ _); [apply orb_true_r|congruence]. }
  rewrite Hb. split.
  - destruct (zlen n <? 9) eqn:E; [split; [lia|reflexivity]|].
    destruct (12 <? _); (split; [discriminate|lia]).
  - intros H9 Hi. pose proof (item_text_length index Hi) as Hl.
    assert (Hz : zlen (item_text index) = 9) by (unfold zlen; lia). split; [|exact Hz].
    rewrite (proj2 (Z.ltb_ge (zlen n) 9)) by lia. rewrite Hz. cbn [Z.ltb Z.compare].
    change (12 <? 9) with false. cbv iota. rewrite firstn_all2 by lia. reflexivity.
Qed.
