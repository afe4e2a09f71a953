(** Property theorems on a file mounted on Windows (C79 and C80). *)
From Coq Require Import ZArith List Bool Lia.
From Verif Require Import Base Spec_IO M_Table M_Load M_Stream M_Tree M_Open M_Item M_Mount M_WMount M_Fuse M_Dokan
  Spec_Stream Spec_Content Spec_Tree Spec_Item Spec_Mount Spec_WMount Spec_Fuse Spec_Dokan L_Base L_Fuse L_Dokan L_Dokan2
  X_Stream X_File X_Mount X_WMount X_Content X_Fuse X_Dokan.
Import ListNotations.
Open Scope Z_scope.

(** C79: the path of file names leads to the item that the names lead to; the
    path "\" to the root. *)
Theorem C79_path :
  forall m t css ns fs,
    wmount_ok m -> mt_tree m = Some t -> wfile_names_of m css ns fs ->
    (forall k, wwalk m t ns = Ok (Some k) ->
       wentry_by_path m (wmount_path fs) = Ok (Some {| fe_node := k; fe_name := last fs []; fe_cursor := 0 |})) /\
    (wwalk m t ns = Ok None -> wentry_by_path m (wmount_path fs) = Ok None) /\
    (wwalk m t ns = Err -> wentry_by_path m (wmount_path fs) = Err).
Proof.
  intros m t css ns fs HM Ht HN. rewrite (wentry_path m t css ns fs HM Ht HN).
  split; [|split]; [intros k Hw|intros Hw..]; rewrite Hw; reflexivity.
Qed.
Print Assumptions C79_path.

(** No path with a backslash at the end is found, except "\". *)
Theorem C79_trailing_backslash :
  forall m p, p <> [] -> zlen p < SSIZE_MAX ->
    (forall i x, get_file_information m (p ++ [92]) i <> DDone x) /\
    (forall b accept live, fst (fst (find_files b m accept (p ++ [92]) live)) <> DDone tt) /\
    (forall b access disposition x f, dokan_create b m (p ++ [92]) access disposition x <> DDone f).
Proof.
  intros m p Hp Hl. pose proof (trailing_backslash m p Hp Hl) as H. split; [|split].
  - intros i x. unfold get_file_information. destruct (wentry_by_path m (p ++ [92])) as [[f|]| | |]; [destruct H|discriminate..].
  - intros b accept live. unfold find_files. destruct (wentry_by_path m (p ++ [92])) as [[f|]| | |]; [destruct H|discriminate..].
  - intros b access disposition x f E. apply create_done, open_context_done in E as [_ E]. rewrite E in H. exact H.
Qed.
Print Assumptions C79_trailing_backslash.

(** The information on an item. *)
Theorem C79_information :
  forall m t css ns fs i,
    wmount_ok m -> mt_tree m = Some t -> (forall k d, item_entry t k d -> wentry_ok d) ->
    wfile_names_of m css ns fs ->
    (forall k d, wwalk m t ns = Ok (Some k) -> item_entry t k d ->
       exists x, get_file_information m (wmount_path fs) i = DDone x /\ informs (mt_time m) d i x) /\
    (wwalk m t ns = Ok None \/ wwalk m t ns = Err -> get_file_information m (wmount_path fs) i = DFails NotFound).
Proof. intros m t css ns fs i HM Ht HE HN. exact (information_exact m t HM Ht HE css ns fs i HN). Qed.
Print Assumptions C79_information.

(** There is only one such structure. *)
Theorem C79_unique :
  forall time d before i i', informs time d before i -> informs time d before i' -> i = i'.
Proof. exact informs_unique. Qed.
Print Assumptions C79_unique.

(** The entries of opened files are in range. *)
Theorem C79_opened :
  forall m o rd t tr, wmount_of m o rd t -> o_tree o = Some tr ->
    mt_tree m = Some tr /\ volume_ok (mt_volume m) /\
    forall k d, item_entry tr k d -> wentry_ok d /\ dirent_ok d.
Proof.
  intros m o rd t tr HO Ht. split; [exact (wtree_is m o rd t HO tr Ht)|]. split; [exact (wvolume_in_range m o rd t HO)|].
  intros k d Hk. split; [exact (wentries_in_range m o rd t HO tr Ht k d Hk)|exact (witem_dirent m o rd t HO tr Ht k d Hk)].
Qed.
Print Assumptions C79_opened.

(** Opening for writing or to create a file is refused and changes nothing,
    like a second opening of an open file.  Else the item that the names lead
    to is opened. *)
Theorem C79_open_old :
  forall rd b m t css ns fs h access disposition s,
    wmount_ok m -> mt_tree m = Some t -> wfile_names_of m css ns fs -> db_old b = true ->
    let create := dokan_step rd b m (DkCreate h (wmount_path fs) access disposition) s in
    let directory := dokan_step rd b m (DkOpenDirectory h (wmount_path fs)) s in
    (Z.testbit access 30 = true -> create = (DrStatus WriteProtect, s)) /\
    (Z.testbit access 30 = false -> disposition <> 3 ->
       exists c, create = (DrStatus c, s) /\ (disposition = 1 <-> c = FileExists) /\
         (disposition = 2 <-> c = AlreadyExists) /\ (disposition = 4 \/ disposition = 5 <-> c = NotFound)) /\
    (dk_contexts s h <> None ->
       (Z.testbit access 30 = false -> disposition = 3 -> create = (DrStatus BadArguments, s)) /\
       directory = (DrStatus BadArguments, s)) /\
    (dk_contexts s h = None -> wwalk m t ns = Ok None \/ wwalk m t ns = Err ->
       (Z.testbit access 30 = false -> disposition = 3 -> create = (DrStatus NotFound, s)) /\
       directory = (DrStatus NotFound, s)) /\
    (forall k, dk_contexts s h = None -> wwalk m t ns = Ok (Some k) ->
       exists s', (Z.testbit access 30 = false -> disposition = 3 -> create = (DrDone, s')) /\ directory = (DrDone, s') /\
         dk_contexts s' h = Some {| fe_node := k; fe_name := last fs []; fe_cursor := 0 |} /\
         forall j, j <> h -> dk_contexts s' j = dk_contexts s j).
Proof.
  intros rd b m t css ns fs h access disposition s HM Ht HN Hb. cbv zeta.
  destruct (C79_path m t css ns fs HM Ht HN) as (H1 & H2 & H3).
  cbn [dokan_step]. rewrite Hb. unfold dokan_create. rewrite Hb. unfold create_file.
  change GENERIC_WRITE with (2 ^ 30).
  rewrite (bit_test access 30) by lia. rewrite negb_involutive.
  split; [|split; [|split; [|split]]].
  - intros ->. reflexivity.
  - intros -> Hd. unfold CREATE_NEW, CREATE_ALWAYS, OPEN_ALWAYS, TRUNCATE_EXISTING, OPEN_EXISTING.
    destruct (disposition =? 1) eqn:E1; [apply Z.eqb_eq in E1|apply Z.eqb_neq in E1].
    { exists FileExists. split; [reflexivity|]. repeat split; intros; try discriminate; lia. }
    destruct (disposition =? 2) eqn:E2; [apply Z.eqb_eq in E2|apply Z.eqb_neq in E2].
    { exists AlreadyExists. split; [reflexivity|]. repeat split; intros; try discriminate; lia. }
    destruct (disposition =? 4) eqn:E4; [apply Z.eqb_eq in E4|apply Z.eqb_neq in E4].
    { exists NotFound. split; [reflexivity|]. repeat split; intros; try discriminate; lia. }
    destruct (disposition =? 5) eqn:E5; [apply Z.eqb_eq in E5|apply Z.eqb_neq in E5].
    { exists NotFound. split; [reflexivity|]. repeat split; intros; try discriminate; lia. }
    replace (disposition =? 3) with false by (symmetry; apply Z.eqb_neq; exact Hd).
    exists BadArguments. split; [reflexivity|]. repeat split; intros; try discriminate; lia.
  - intros Hc. unfold open_context. destruct (dk_contexts s h); [|congruence].
    split; [intros -> ->; reflexivity|reflexivity].
  - intros Hc Hw. unfold open_context. rewrite Hc.
    destruct Hw as [Hw|Hw]; [rewrite (H2 Hw)|rewrite (H3 Hw)]; (split; [intros -> ->; reflexivity|reflexivity]).
  - intros k Hc Hw. unfold open_context. rewrite Hc, (H1 k Hw). eexists.
    split; [intros -> ->; reflexivity|]. split; [reflexivity|]. cbn [dk_contexts]. split.
    + rewrite set_context_at, PeanoNat.Nat.eqb_refl. reflexivity.
    + intros j Hj. rewrite set_context_at. replace (PeanoNat.Nat.eqb j h) with false; [reflexivity|].
      symmetry. apply PeanoNat.Nat.eqb_neq. exact Hj.
Qed.
Print Assumptions C79_open_old.

Theorem C79_open :
  forall rd b m t css ns fs h access disposition s,
    wmount_ok m -> mt_tree m = Some t -> wfile_names_of m css ns fs -> db_old b = false ->
    let create := dokan_step rd b m (DkCreate h (wmount_path fs) access disposition) s in
    (Z.testbit access 30 = true -> create = (DrStatus WriteProtect, s)) /\
    (Z.testbit access 30 = false -> disposition = 2 -> create = (DrStatus FileExists, s)) /\
    (Z.testbit access 30 = false -> disposition <> 1 -> disposition <> 2 -> disposition <> 3 ->
       create = (DrStatus AccessDenied, s)) /\
    (Z.testbit access 30 = false -> disposition = 1 \/ disposition = 3 ->
       (dk_contexts s h <> None -> create = (DrStatus BadArguments, s)) /\
       (dk_contexts s h = None -> wwalk m t ns = Ok None \/ wwalk m t ns = Err -> create = (DrStatus NotFound, s)) /\
       (forall k, dk_contexts s h = None -> wwalk m t ns = Ok (Some k) ->
          exists s', create = (DrDone, s') /\
            dk_contexts s' h = Some {| fe_node := k; fe_name := last fs []; fe_cursor := 0 |} /\
            forall j, j <> h -> dk_contexts s' j = dk_contexts s j)).
Proof.
  intros rd b m t css ns fs h access disposition s HM Ht HN Hb. cbv zeta.
  destruct (C79_path m t css ns fs HM Ht HN) as (H1 & H2 & H3).
  cbn [dokan_step]. unfold dokan_create. rewrite Hb. unfold zw_create_file.
  change GENERIC_WRITE with (2 ^ 30). unfold FILE_CREATE, FILE_OPEN, FILE_OPEN_IF.
  rewrite (bit_test access 30) by lia. rewrite negb_involutive.
  split; [|split; [|split]].
  - intros ->. reflexivity.
  - intros -> ->. reflexivity.
  - intros -> A B C. apply Z.eqb_neq in A, B, C. rewrite A, B, C. reflexivity.
  - intros -> Hd.
    assert (E : forall X : dreply file_entry, (if disposition =? 2 then DFails FileExists
                else if negb (disposition =? 1) && negb (disposition =? 3) then DFails AccessDenied else X) = X)
      by (intros X; destruct Hd as [-> | ->]; reflexivity).
    rewrite E. unfold open_context. split; [|split].
    + intros Hc. destruct (dk_contexts s h); [reflexivity|congruence].
    + intros Hc Hw. rewrite Hc. destruct Hw as [Hw|Hw]; [rewrite (H2 Hw)|rewrite (H3 Hw)]; reflexivity.
    + intros k Hc Hw. rewrite Hc, (H1 k Hw). eexists. split; [reflexivity|]. cbn [dk_contexts]. split.
      * rewrite set_context_at, PeanoNat.Nat.eqb_refl. reflexivity.
      * intros j Hj. rewrite set_context_at. replace (PeanoNat.Nat.eqb j h) with false; [reflexivity|].
        symmetry. apply PeanoNat.Nat.eqb_neq. exact Hj.
Qed.
Print Assumptions C79_open.

(** Reading gives the bytes of the stream. *)
Theorem C79_read :
  forall rd m t f d s size offset,
    mt_tree m = Some t -> item_entry t (fe_node f) d -> is_readable_stream rd (mt_volume m) d s ->
    0 <= fe_cursor f -> 0 <= offset -> 0 < size <= INT_MAX ->
    (4 <= (if de_size d <? v_minimum_size (mt_volume m) then v_short_sector_size (mt_volume m)
           else v_sector_size (mt_volume m)) \/ size <= 1073741824) ->
    fst (read_file rd m (Some f) size offset) = DDone (slice s offset size).
Proof.
  intros rd m t f d s size offset Ht Hd Hs Hc Ho Hsz Hfew. destruct (read_file_fuse rd m f size offset) as [-> _].
  rewrite (fuse_read_full m t Ht rd f d s size offset Hd Hs Hc Ho Hsz Hfew). reflexivity.
Qed.
Print Assumptions C79_read.

(** And nothing else, if the I/O fails or the chain of the stream is broken. *)
Theorem C79_sound :
  forall rd m t f d s size offset l f',
    mt_tree m = Some t -> item_entry t (fe_node f) d -> is_stream rd (mt_volume m) d s -> 0 <= size ->
    read_file rd m (Some f) size offset = (DDone l, f') ->
    0 <= offset /\ size <= INT_MAX /\ l = slice s offset size.
Proof.
  intros rd m t f d s size offset l f' Ht Hd Hs Hsz H. destruct (read_file_fuse rd m f size offset) as [E _].
  rewrite H in E. cbn [fst] in E. destruct (fuse_read rd m f size offset) as [r g] eqn:Er. cbn [fst] in E.
  destruct r as [l'| |]; try discriminate. injection E as <-.
  exact (fuse_read_sound m t Ht rd f d s size offset l g Hd Hs Hsz Er).
Qed.
Print Assumptions C79_sound.

Theorem C79_errors :
  forall rd m t f d size offset,
    mt_tree m = Some t -> item_entry t (fe_node f) d ->
    (INT_MAX < size -> fst (read_file rd m (Some f) size offset) = DFails BadArguments) /\
    (size <= INT_MAX -> de_type d <> 2 \/ offset < 0 -> fst (read_file rd m (Some f) size offset) = DFails ReadFault) /\
    fst (read_file rd m None size offset) = DFails BadArguments.
Proof.
  intros rd m t f d size offset Ht Hd. destruct (fuse_read_other m t Ht rd f d size offset Hd) as (H1 & H2 & _).
  destruct (read_file_fuse rd m f size offset) as [-> _]. split; [|split].
  - intros H. rewrite (H1 H). reflexivity.
  - intros H H'. rewrite (H2 H H'). reflexivity.
  - unfold read_file. destruct (INT_MAX <? size); reflexivity.
Qed.
Print Assumptions C79_errors.

(** What an open file answers does not depend on the calls between. *)
Theorem C79_answers :
  forall rd0 b m op s k s1 path h rs s2,
    (exists access disposition, op = DkCreate k path access disposition) \/
      (db_old b = true /\ op = DkOpenDirectory k path) ->
    dokan_step rd0 b m op s = (DrDone, s1) -> wkeeps_open k h -> dokan_run b m h s1 = (rs, s2) ->
    exists f, wentry_by_path m path = Ok (Some f) /\
      forall rd size offset,
        fst (dokan_step rd b m (DkRead k size offset) s2) =
        match fst (read_file rd m (Some f) size offset) with
        | DDone l => DrBytes l | DFails c => DrStatus c | DUndefined => DrUndef end.
Proof. exact dokan_answers. Qed.
Print Assumptions C79_answers.

(** The entries that are allocated are those of the open files: unlike the
    callbacks of other systems (C57), these leak nothing. *)
Theorem C79_live :
  forall b m n h rs s, files_below n h -> dokan_run b m h dokan_start = (rs, s) ->
    dk_live s = open_files (dk_contexts s) n.
Proof.
  intros b m n h rs s HB H. pose proof (dokan_run_live b m n h dokan_start rs s HB H) as E.
  rewrite open_files_start in E. cbn [dk_live dokan_start] in E. lia.
Qed.
Print Assumptions C79_live.

(** No history of calls is undefined, unless a name is too long in builds with
    long paths. *)
Theorem C79_defined :
  forall b m o rd t tr h rs s,
    wmount_of m o rd t -> o_tree o = Some tr -> db_long_paths b = false \/ short_names m tr ->
    wproper m h -> dokan_run b m h dokan_start = (rs, s) -> ~ In DrUndef rs.
Proof.
  intros b m o rd t tr h rs s HO Ht HS HP H.
  exact (dokan_run_defined b m o rd t HO tr Ht HS h dokan_start rs s (dokan_start_ok tr) HP H).
Qed.
Print Assumptions C79_defined.

(** The names of the volume, for buffers that have more than 6 characters. *)
Theorem C79_volume :
  forall rd b m n1 n2 s,
    exists v, dokan_step rd b m (DkVolume n1 n2) s = (DrVolume v, s) /\
      (6 < n1 -> vi_name v = Some [79; 76; 69; 67; 70; 0]) /\ (n1 <= 6 -> vi_name v = None) /\
      (6 < n2 -> vi_system v = Some [68; 111; 107; 97; 110; 0]) /\ (n2 <= 6 -> vi_system v = None) /\
      vi_serial_number v = 0x19831116 /\ vi_maximum_length v = 256 /\
      (forall i, 0 <= i -> (Z.testbit (vi_flags v) i = true <-> In i [0; 1; 2; 19])).
Proof.
  intros rd b m n1 n2 s. exists (get_volume_information n1 n2). split; [reflexivity|].
  unfold get_volume_information; cbn [vi_name vi_system vi_serial_number vi_maximum_length vi_flags].
  change (zlen VOLUME_NAME) with 6. change (zlen SYSTEM_NAME) with 6.
  split; [intros H; apply Z.ltb_lt in H; rewrite H; reflexivity|].
  split; [intros H; apply Z.ltb_ge in H; rewrite H; reflexivity|].
  split; [intros H; apply Z.ltb_lt in H; rewrite H; reflexivity|].
  split; [intros H; apply Z.ltb_ge in H; rewrite H; reflexivity|].
  split; [reflexivity|]. split; [reflexivity|]. intros i Hi.
  change (Z.lor (Z.lor (Z.lor 1 2) 4) 524288) with 524295.
  destruct (Z.le_gt_cases 20 i) as [H|H].
  - rewrite Z.bits_above_log2 by (change (Z.log2 524295) with 19; lia). cbn [In]. split; [discriminate|lia].
  - assert (Hin : In i (map Z.of_nat (seq 0 20))).
    { apply in_map_iff. exists (Z.to_nat i). split; [lia|]. apply in_seq. lia. }
    cbn [map seq Z.of_nat Pos.of_succ_nat Pos.succ In] in Hin.
    repeat (destruct Hin as [<-|Hin]; [vm_compute; split; [intros E; first [discriminate E|intuition congruence]|
      intros E; repeat (destruct E as [E|E]; [try discriminate E; reflexivity|]); destruct E]|]).
    destruct Hin.
Qed.
Print Assumptions C79_volume.

(** The names of a volume are asked for with buffers that have room for them: a
    buffer of 6 characters is not filled. *)
Theorem C79_volume_exact_refuted :
  exists v, v = get_volume_information 6 6 /\ vi_name v = None /\ vi_system v = None.
Proof. eexists. split; [reflexivity|]. split; reflexivity. Qed.
Print Assumptions C79_volume_exact_refuted.

Lemma xw_opens first size o t : xf_bytes (xw_file first size) = true -> xw_open first size = (Ok o, t) ->
  wmount_of (xw_mounted o) o (file_reader (xw_file first size)) t.
Proof.
  unfold xw_open. generalize (xw_file first size). intros f HB E.
  split; [exact (xw_ok o)|]. split; [exact xw_una_ok|]. split; [apply file_reader_bytes, xf_bytes_ok, HB|].
  split; [exact E|]. split; reflexivity.
Qed.

(** The stream "xy" in the storage "st". *)
Lemma xw_names m : mt_codec m = utf16 ->
  wfile_names_of m [[115; 116]; [120; 121]] [[115; 116]; [120; 121]] [[115; 116]; [120; 121]].
Proof.
  intros Em. unfold wfile_names_of. rewrite Em.
  assert (H1 : text utf16 [115; 116] [115; 116])
    by (apply (tx_char utf16 115 [115] [116] [116] eq_refl), (tx_char utf16 116 [116] [] [] eq_refl), tx_nil).
  assert (H2 : text utf16 [120; 121] [120; 121])
    by (apply (tx_char utf16 120 [120] [121] [121] eq_refl), (tx_char utf16 121 [121] [] [] eq_refl), tx_nil).
  assert (H3 : wmount_file_name utf16 [115; 116] = Ok [115; 116]) by (vm_compute; reflexivity).
  assert (H4 : wmount_file_name utf16 [120; 121] = Ok [120; 121]) by (vm_compute; reflexivity).
  assert (H5 : forall a b, a <> 0 -> a <> 92 -> b <> 0 -> b <> 92 -> [a; b] <> [] /\ Forall (fun c => c <> 0 /\ c <> 92) [a; b])
    by (intros; split; [discriminate|repeat constructor; auto]).
  split; [repeat constructor; auto|]. split; [repeat (constructor; [apply H5; discriminate|]); constructor|].
  split; [repeat constructor; auto|reflexivity].
Qed.

Definition xw_same (a b : information) : bool :=
  (in_attributes a =? in_attributes b) &&
  forallb (fun p => (fst (fst p) =? fst (snd p)) && (snd (fst p) =? snd (snd p)))
    [(in_created a, in_created b); (in_accessed a, in_accessed b); (in_written a, in_written b);
     (in_size a, in_size b); (in_index a, in_index b);
     ((in_serial_number a, in_links a), (in_serial_number b, in_links b))].

Lemma xw_same_ok a b : xw_same a b = true -> a = b.
Proof.
  unfold xw_same. intros H. cbn [forallb fst snd] in H. rewrite !andb_true_iff, !Z.eqb_eq in H.
  destruct a as [? [] [] [] [] ? ? []], b as [? [] [] [] [] ? ? []]. cbn in *.
  decompose [and] H. congruence.
Qed.

(** "\st\xy" of a file. *)
Example C79_case :
  exists o t tr, xw_open [97; 98] 10 = (Ok o, t) /\ o_tree o = Some tr /\
    let m := xw_mounted o in
    wmount_of m o (file_reader (xw_file [97; 98] 10)) t /\
    wfile_names_of m [[115; 116]; [120; 121]] [[115; 116]; [120; 121]] [[115; 116]; [120; 121]] /\
    wwalk m tr [[115; 116]; [120; 121]] = Ok (Some 4%nat) /\ wwalk m tr [[120; 121]] = Ok None /\
    get_file_information m [92; 115; 116; 92; 120; 121] (xw_information (5, 6)) =
      DDone {| in_attributes := 128; in_created := (0, 0); in_accessed := (3330266759, 31070023);
               in_written := (627916800, 29316075); in_size := (10, 0); in_serial_number := 7; in_links := 0;
               in_index := (0, 0) |}.
Proof.
  destruct (xw_open [97; 98] 10) as [r t] eqn:E.
  assert (HC : match r with
               | Ok o => match o_tree o with
                         | Some tr =>
                             match wwalk (xw_mounted o) tr [[115; 116]; [120; 121]],
                                   wwalk (xw_mounted o) tr [[120; 121]] with
                             | Ok (Some 4%nat), Ok None => true
                             | _, _ => false
                             end &&
                             match get_file_information (xw_mounted o) [92; 115; 116; 92; 120; 121] (xw_information (5, 6)) with
                             | DDone x => xw_same x
                                 {| in_attributes := 128; in_created := (0, 0); in_accessed := (3330266759, 31070023);
                                    in_written := (627916800, 29316075); in_size := (10, 0); in_serial_number := 7;
                                    in_links := 0; in_index := (0, 0) |}
                             | _ => false
                             end
                         | None => false
                         end
               | _ => false
               end = true).
  { change r with (fst (r, t)). rewrite <- E. vm_compute. reflexivity. }
  destruct r as [o| | |]; [|discriminate HC|discriminate HC|discriminate HC].
  destruct (o_tree o) as [tr|] eqn:Et; [|discriminate HC].
  exists o, t, tr. split; [reflexivity|]. split; [exact Et|]. cbv zeta.
  apply andb_true_iff in HC as [H1 H2].
  split; [apply xw_opens; [vm_compute; reflexivity|exact E]|].
  split; [apply xw_names; reflexivity|].
  destruct (wwalk (xw_mounted o) tr [[115; 116]; [120; 121]]) as [[[|[|[|[|[|k]]]]]|]| | |]; try discriminate H1.
  destruct (wwalk (xw_mounted o) tr [[120; 121]]) as [[k|]| | |]; try discriminate H1.
  split; [reflexivity|]. split; [reflexivity|].
  destruct (get_file_information _ _ _) as [x| |]; [|discriminate H2|discriminate H2]. apply xw_same_ok in H2. congruence.
Qed.

(** The size of an item without data is meant to be 0: it is what the structure
    held before. *)
Theorem C79_stale_size_refuted :
  exists m x, xw_plain = Some m /\
    get_file_information m [92; 115; 116] (xw_information (5, 6)) = DDone x /\ in_size x = (5, 6).
Proof.
  assert (HC : match xw_plain with
               | Some m => match get_file_information m [92; 115; 116] (xw_information (5, 6)) with
                           | DDone x => (fst (in_size x) =? 5) && (snd (in_size x) =? 6)
                           | _ => false
                           end
               | None => false
               end = true) by (vm_compute; reflexivity).
  destruct xw_plain as [m|]; [|discriminate HC]. exists m.
  destruct (get_file_information m _ _) as [x| |]; [|discriminate HC|discriminate HC].
  apply andb_true_iff in HC as [H1 H2]. apply Z.eqb_eq in H1, H2. exists x. split; [reflexivity|]. split; [reflexivity|].
  destruct (in_size x). cbn in *. congruence.
Qed.
Print Assumptions C79_stale_size_refuted.

(** A history in all builds: "\cd" opened, opened again, read, read with a
    failing reader, read again, closed, and read once more. *)
Definition xw_history (b : dokan_build) : list (reader * dokan_op) :=
  let d := if db_old b then 3 else 1 in
  [(xw_reader, DkCreate 0 [92; 99; 100] 1 d); (xw_reader, DkCreate 0 [92; 99; 100] 1 d);
   (xw_reader, DkRead 0 3 0); ((fun _ _ _ => None), DkRead 0 3 0); (xw_reader, DkRead 0 20 590);
   (xw_reader, DkCreate 1 [92; 99; 100] 0x40000000 d); (xw_reader, DkCreate 1 [92; 99] 0 d);
   (xw_reader, DkRead 0 3 0); (xw_reader, DkClose 0); (xw_reader, DkRead 0 3 0)].

Example C79_history :
  (forall m b, wproper m (xw_history b) /\ files_below 2 (xw_history b)) /\
  match xw_plain with
  | Some m =>
      map (fun b => fst (dokan_run b m (xw_history b) dokan_start)) xw_builds =
      repeat [DrDone; DrStatus BadArguments; DrBytes [100; 101; 102]; DrStatus ReadFault;
         DrBytes [27; 28; 29; 30; 31; 32; 33; 34; 35; 36]; DrStatus WriteProtect; DrStatus NotFound;
         DrBytes [100; 101; 102]; DrDone; DrStatus BadArguments] 4
  | None => False
  end.
Proof.
  split; [|vm_compute; reflexivity].
  intros m b. unfold wproper, files_below, xw_history. generalize xw_reader. intros r.
  split; repeat (constructor; [cbn [snd]; first [exact I|lia]|]); constructor.
Qed.

(** "cd" has 600 readable bytes. *)
Example C79_read_case :
  exists o t tr d s, xw_open [97; 98] 10 = (Ok o, t) /\ o_tree o = Some tr /\
    item_entry tr 1 d /\ is_readable_stream xw_reader (opened_volume o) d s /\ zlen s = 600 /\
    fst (read_file xw_reader (xw_mounted o) (Some {| fe_node := 1; fe_name := [99; 100]; fe_cursor := 600 |}) 20 590) =
      DDone (slice s 590 20).
Proof.
  destruct (xw_open [97; 98] 10) as [r t] eqn:E.
  set (fl := xw_file [97; 98] 10) in *.
  assert (HC : match r with
               | Ok o => match o_tree o with
                         | Some tr => match nth_error (tr_nodes tr) 1 with
                             | Some n => match stream_bytes_c fl (opened_volume o) (n_entry n) with
                                 | Some s => readable_c fl (opened_volume o) (n_entry n) && (zlen s =? 600) &&
                                     (0 <? de_size (n_entry n)) && (512 <=? v_sector_size (opened_volume o)) &&
                                     (64 <=? v_short_sector_size (opened_volume o))
                                 | None => false
                                 end
                             | None => false
                             end
                         | None => false
                         end
               | _ => false
               end = true).
  { change r with (fst (r, t)). rewrite <- E. vm_compute. reflexivity. }
  destruct r as [o| | |]; [|discriminate HC|discriminate HC|discriminate HC].
  destruct (o_tree o) as [tr|] eqn:Et; [|discriminate HC].
  destruct (nth_error (tr_nodes tr) 1) as [n|] eqn:En; [|discriminate HC].
  destruct (stream_bytes_c fl (opened_volume o) (n_entry n)) as [s|] eqn:Es; [|discriminate HC].
  apply andb_true_iff in HC as [HC H1]. apply andb_true_iff in HC as [HC H2]. apply andb_true_iff in HC as [HC H3].
  apply andb_true_iff in HC as [HR HZ]. apply Z.eqb_eq in HZ. apply Z.leb_le in H1, H2.
  assert (Hn : item_entry tr 1 (n_entry n)) by (exists n; auto).
  pose proof (xw_opens [97; 98] 10 o t ltac:(vm_compute; reflexivity) E) as HX.
  destruct (C79_opened _ _ _ _ tr HX Et) as (Htr & HV & HD).
  assert (HRS : is_readable_stream xw_reader (opened_volume o) (n_entry n) s).
  { apply readable_c_ok; auto.
    - apply xf_bytes_ok. vm_compute. reflexivity.
    - exact (proj2 (HD 1%nat _ Hn)). }
  exists o, t, tr, (n_entry n), s. split; [reflexivity|]. split; [exact Et|]. split; [exact Hn|].
  split; [exact HRS|]. split; [exact HZ|].
  apply (C79_read xw_reader (xw_mounted o) tr {| fe_node := 1; fe_name := [99; 100]; fe_cursor := 600 |} (n_entry n) s 20 590 Htr Hn HRS); cbn [fe_cursor]; unfold INT_MAX; lia.
Qed.

(** C80: what a directory lists. *)
Theorem C80_find :
  forall b m t accept f live l,
    wmount_ok m -> mt_tree m = Some t -> (forall k d, item_entry t k d -> wentry_ok d) ->
    ((exists live', find_in b m accept f live = (DDone tt, live', l)) <->
     full_find m t (fe_node f) l /\ forall i, (i < length l)%nat -> accept i = true).
Proof. intros b m t accept f live l HM Ht HE. exact (find_in_iff b m t HM Ht HE accept f live l). Qed.
Print Assumptions C80_find.

(** At a path; and nothing stays allocated. *)
Theorem C80_path :
  forall b m t css ns fs accept live l,
    wmount_ok m -> mt_tree m = Some t -> (forall k d, item_entry t k d -> wentry_ok d) ->
    wfile_names_of m css ns fs ->
    (find_files b m accept (wmount_path fs) live = (DDone tt, live, l) <->
     exists k, wwalk m t ns = Ok (Some k) /\ full_find m t k l /\ forall i, (i < length l)%nat -> accept i = true) /\
    (wwalk m t ns = Ok None \/ wwalk m t ns = Err ->
     find_files b m accept (wmount_path fs) live = (DFails NotFound, live, [])) /\
    snd (fst (find_files b m accept (wmount_path fs) live)) = live.
Proof.
  intros b m t css ns fs accept live l HM Ht HE HN. unfold find_files. rewrite (wentry_path m t css ns fs HM Ht HN).
  split; [|split].
  - split.
    + destruct (wwalk m t ns) as [[k|]| | |]; cbn [rbind option_map]; try discriminate. intros H. exists k. split; [reflexivity|].
      apply (C80_find b m t accept {| fe_node := k; fe_name := last fs []; fe_cursor := 0 |} (live + 1) l HM Ht HE). eauto.
    + intros (k & Hw & HF). rewrite Hw. cbn [rbind option_map].
      apply (C80_find b m t accept {| fe_node := k; fe_name := last fs []; fe_cursor := 0 |} (live + 1) l HM Ht HE) in HF as (live' & HF).
      pose proof (find_in_live b m accept {| fe_node := k; fe_name := last fs []; fe_cursor := 0 |} (live + 1)) as HL.
      rewrite HF in HL |- *. cbn [fst snd] in HL. replace live' with live by lia. reflexivity.
  - intros [Hw|Hw]; rewrite Hw; reflexivity.
  - destruct (wwalk m t ns) as [[k|]| | |]; cbn [rbind option_map]; try reflexivity. rewrite find_in_live. lia.
Qed.
Print Assumptions C80_path.

(** There is only one full listing. *)
Theorem C80_unique :
  forall m t k l l', wmount_ok m -> mt_tree m = Some t -> (forall k d, item_entry t k d -> wentry_ok d) ->
    full_find m t k l -> full_find m t k l' -> l = l'.
Proof.
  intros m t k l l' HM Ht HE H H'.
  set (f := {| fe_node := k; fe_name := []; fe_cursor := 0 |}).
  set (b := {| db_long_paths := false; db_old := false |}).
  destruct (proj2 (C80_find b m t (fun _ => true) f 0 l HM Ht HE) (conj H (fun _ _ => eq_refl))) as (v & E).
  destruct (proj2 (C80_find b m t (fun _ => true) f 0 l' HM Ht HE) (conj H' (fun _ _ => eq_refl))) as (v' & E').
  rewrite E in E'. congruence.
Qed.
Print Assumptions C80_unique.

(** What is listed is found at the path of the directory and the name listed,
    with the same values; the size only if it is not 0.  The comparison of
    names must say that the name is that of the item, and that it is not one of
    those before. *)
Theorem C80_listed_is_found :
  forall b m t css ns fs k nd pre j post d cs n f accept live live' l i,
    wmount_ok m -> mt_tree m = Some t -> (forall k d, item_entry t k d -> wentry_ok d) ->
    wfile_names_of m css ns fs -> wwalk m t ns = Ok (Some k) ->
    nth_error (tr_nodes t) k = Some nd -> n_subs nd = pre ++ j :: post -> named_item m t j d n f ->
    text (mt_codec m) cs n -> cs <> [] -> Forall (fun c => c <> 0 /\ c <> 92) cs ->
    una_utf16_compare (mt_una m) n (de_name d) (v_byte_order (mt_volume m)) = Ok true ->
    Forall (name_differs (fun x => una_utf16_compare (mt_una m) n x (v_byte_order (mt_volume m))) t) pre ->
    zlen (wmount_path (fs ++ [f])) < SSIZE_MAX / 2 ->
    find_files b m accept (wmount_path fs) live = (DDone tt, live', l) ->
    wwalk m t (ns ++ [n]) = Ok (Some j) /\
    exists x y, nth_error l (2 + length pre) = Some x /\ fd_name x = f /\
      get_file_information m (wmount_path (fs ++ [fd_name x])) i = DDone y /\
      in_attributes y = fd_attributes x /\ in_created y = fd_created x /\ in_accessed y = fd_accessed x /\
      in_written y = fd_written x /\ (de_size d <> 0 -> in_size y = fd_size x).
Proof.
  intros b m t css ns fs k nd pre j post d cs n f accept live live' l i HM Ht HE HN Hw Hn Hs HI Htx Hne H0 Hc Hdf Hl HR.
  destruct (wlisted_is_found m t css ns fs k nd pre j post d cs n f HN Hw Hn Hs HI Htx Hne H0 Hc Hdf Hl) as (HN' & HW).
  split; [exact HW|].
  assert (El : live' = live).
  { destruct (C80_path b m t css ns fs accept live l HM Ht HE HN) as (_ & _ & EE). rewrite HR in EE. exact EE. }
  subst live'.
  apply (C80_path b m t css ns fs accept live l HM Ht HE HN) in HR as (k' & Hw' & HF & _).
  rewrite Hw in Hw'. injection Hw' as <-. destruct HF as (nd' & x0 & rest & Hn' & -> & _ & HF).
  rewrite Hn in Hn'. injection Hn' as <-. rewrite Hs in HF.
  apply Forall2_app_inv_l in HF as (xs & ys & Hxs & Hys & ->).
  inversion Hys as [|? x ? ys' Hx _]; subst.
  assert (Hlen : length xs = length pre) by (symmetry; eapply Forall2_same_length; eauto).
  destruct HI as (Hd & En & Ef). destruct Hx as (d' & n' & f' & (Hd' & En' & Ef') & _ & HX).
  rewrite (item_entry_fun t j d' d Hd' Hd) in *. rewrite En in En'. injection En' as <-. rewrite Ef in Ef'. injection Ef' as <-.
  destruct (wfile_name_good (mt_codec m) cs n f (wo_codec m HM) Htx Hne) as (_ & _ & Hcs); [|exact Ef|].
  { eapply Forall_impl; [|exact H0]. cbn. intros; lia. }
  rewrite Hcs in HX.
  destruct (C79_information m t (css ++ [cs]) (ns ++ [n]) (fs ++ [f]) i HM Ht HE HN') as (HY & _).
  destruct (HY j d HW Hd) as (y & Ey & HY').
  exists x, y. split.
  { rewrite <- Hlen. cbn [plus nth_error]. apply nth_error_pre. }
  split; [exact (fs_name _ _ _ _ _ HX)|]. split; [rewrite (fs_name _ _ _ _ _ HX); exact Ey|].
  split; [exact (attributes_unique d _ _ (if_attributes _ _ _ _ HY') (fs_attributes _ _ _ _ _ HX))|].
  split; [exact (halves_unique _ _ _ (if_created _ _ _ _ HY') (fs_created _ _ _ _ _ HX))|].
  split; [exact (halves_unique _ _ _ (if_accessed _ _ _ _ HY') (fs_accessed _ _ _ _ _ HX))|].
  split; [exact (halves_unique _ _ _ (if_written _ _ _ _ HY') (fs_written _ _ _ _ _ HX))|].
  intros Hz. exact (halves_unique _ _ _ (if_size _ _ _ _ HY' Hz) (fs_size _ _ _ _ _ HX)).
Qed.
Print Assumptions C80_listed_is_found.

(** An item whose name cannot be converted, or has more than 25 units, hides
    all items after it.  In builds with long paths such a name overflows the
    structure. *)
Theorem C80_hidden :
  forall b m t f nd x0 pre j post xs live,
    wmount_ok m -> mt_tree m = Some t -> (forall k d, item_entry t k d -> wentry_ok d) ->
    nth_error (tr_nodes t) (fe_node f) = Some nd -> find_describes (mt_time m) (n_entry nd) [46] [46] x0 ->
    n_subs nd = pre ++ j :: post -> Forall2 (find_lists m t) pre xs ->
    (forall d, item_entry t j d -> mt_name m (de_name d) (v_byte_order (mt_volume m)) = None ->
       find_in b m (fun _ => true) f live = (DFails GenericFailure, live - 1, x0 :: dots_entry :: xs)) /\
    (forall d n g, named_item m t j d n g -> 25 < zlen n ->
       (db_long_paths b = false ->
        find_in b m (fun _ => true) f live = (DFails GenericFailure, live - 1, x0 :: dots_entry :: xs)) /\
       (db_long_paths b = true -> zlen n <= 3276 -> fst (fst (find_in b m (fun _ => true) f live)) = DUndefined)).
Proof.
  intros b m t f nd x0 pre j post xs live HM Ht HE Hn HD Hs HL.
  destruct (find_stops b m t HM Ht HE f nd x0 pre j post xs live Hn HD Hs HL) as [H1 H2]. split; [|exact H2].
  intros d Hj Hna. apply H1. unfold witem_file_name. rewrite (proj2 (entry_value_at m t Ht j d) Hj). cbn [rbind].
  rewrite Hna. reflexivity.
Qed.
Print Assumptions C80_hidden.

(** The answer and the names, short names and attributes of a listing. *)
Definition listed (b : dokan_build) (m : option mounted) (path : list Z) :=
  match m with
  | Some m => match find_files b m (fun _ => true) path 0 with
              | (r, _, l) => Some (r, map fd_name l, map fd_short_name l, map fd_attributes l)
              end
  | None => None
  end.

(** The root; "st" in it; a root with a stream whose name has one character;
    and one whose first name cannot be converted. *)
Example C80_case :
  Forall (fun b =>
    listed b xw_plain [92] =
      Some (DDone tt, [[46]; [46; 46]; [97; 98]; [99; 100]; [115; 116]], [[46]; [46; 46]; []; []; []], [16; 128; 128; 128; 16]) /\
    listed b xw_plain [92; 115; 116] = Some (DDone tt, [[46]; [46; 46]; [120; 121]], [[46]; [46; 46]; []], [16; 128; 128]) /\
    listed b (xw_mount [97] 10) [92] =
      Some (DDone tt, [[46]; [46; 46]; [97]; [99; 100]; [115; 116]], [[46]; [46; 46]; [97]; []; []], [16; 128; 128; 128; 16]) /\
    listed b (xw_mount [56320; 97] 10) [92] = Some (DFails GenericFailure, [[46]; [46; 46]], [[46]; [46; 46]], [16; 128])) xw_builds.
Proof. vm_compute. repeat constructor. Qed.

(** A file may have a property set with the name
    "\005DocumentSummaryInformation", as documents do.  Its directory is not
    listed, and a build with long paths writes after the end of a structure. *)
Theorem C80_document_summary_refuted :
  Forall (fun b =>
    listed b (xw_mount xw_summary 10) [92] =
    Some (if db_long_paths b then DUndefined else DFails GenericFailure,
          [[46]; [46; 46]], [[46]; [46; 46]], [16; 128])) xw_builds.
Proof. vm_compute. repeat constructor. Qed.
Print Assumptions C80_document_summary_refuted.

(** Names with 25 and 26 characters. *)
Example C80_limit :
  Forall (fun b =>
    match listed b (xw_mount (repeat 97 25) 10) [92] with Some (DDone _, l, _, _) => length l = 5%nat | _ => False end /\
    match listed b (xw_mount (repeat 97 26) 10) [92] with Some (DDone _, _, _, _) => False | None => False | _ => True end)
    xw_builds.
Proof. vm_compute. repeat constructor. Qed.

(** ".." is meant to be a directory. *)
Theorem C80_parent_refuted :
  exists m l, xw_plain = Some m /\
    find_files {| db_long_paths := false; db_old := false |} m (fun _ => true) [92; 115; 116] 0 = (DDone tt, 0, l) /\
    exists x, nth_error l 1 = Some x /\ fd_name x = [46; 46] /\ fd_attributes x = 128.
Proof.
  assert (HC : match xw_plain with
               | Some m => match find_files {| db_long_paths := false; db_old := false |} m (fun _ => true) [92; 115; 116] 0 with
                           | (DDone _, lv, l) =>
                               (lv =? 0) && match nth_error l 1 with
                                            | Some x => (fd_attributes x =? 128) &&
                                                if list_eq_dec Z.eq_dec (fd_name x) [46; 46] then true else false
                                            | None => false
                                            end
                           | _ => false
                           end
               | None => false
               end = true) by (vm_compute; reflexivity).
  destruct xw_plain as [m|]; [|discriminate HC]. exists m.
  destruct (find_files _ m _ _ 0) as [[r lv] l]. exists l.
  destruct r as [[]| |]; [|discriminate HC|discriminate HC]. apply andb_true_iff in HC as [H0 HC]. apply Z.eqb_eq in H0 as ->.
  split; [reflexivity|]. split; [reflexivity|].
  destruct (nth_error l 1) as [x|]; [|discriminate HC]. apply andb_true_iff in HC as [HA HC]. apply Z.eqb_eq in HA.
  exists x. split; [reflexivity|]. destruct (list_eq_dec Z.eq_dec (fd_name x) [46; 46]); [auto|discriminate HC].
Qed.
Print Assumptions C80_parent_refuted.

(** The hypotheses of the theorems on listings hold of the root of a file, and
    its third item "st". *)
Example C80_found_case :
  exists o t tr nd d, xw_open [97; 98] 10 = (Ok o, t) /\ o_tree o = Some tr /\
    let m := xw_mounted o in
    wmount_of m o (file_reader (xw_file [97; 98] 10)) t /\
    wfile_names_of m [] [] [] /\ wwalk m tr [] = Ok (Some 0%nat) /\
    nth_error (tr_nodes tr) 0 = Some nd /\ n_subs nd = [2; 1]%nat ++ 3%nat :: [] /\
    named_item m tr 3 d [115; 116] [115; 116] /\ text (mt_codec m) [115; 116] [115; 116] /\
    una_utf16_compare (mt_una m) [115; 116] (de_name d) (v_byte_order (mt_volume m)) = Ok true /\
    Forall (name_differs (fun x => una_utf16_compare (mt_una m) [115; 116] x (v_byte_order (mt_volume m))) tr) [2; 1]%nat.
Proof.
  destruct (xw_open [97; 98] 10) as [r t] eqn:E.
  assert (HC : match r with
               | Ok o => match o_tree o with
                         | Some tr =>
                             (match v_byte_order (opened_volume o) with Little => true | Big => false end) &&
                             (if list_eq_dec (list_eq_dec PeanoNat.Nat.eq_dec) (map n_subs (tr_nodes tr))
                                   [[2; 1; 3]; []; []; [4]; []]%nat then true else false) &&
                             (if list_eq_dec (list_eq_dec Z.eq_dec) (map (fun n => de_name (n_entry n)) (tr_nodes tr))
                                   [[82; 0; 0; 0]; [99; 0; 100; 0; 0; 0]; [97; 0; 98; 0; 0; 0]; [115; 0; 116; 0; 0; 0];
                                    [120; 0; 121; 0; 0; 0]] then true else false)
                         | None => false
                         end
               | _ => false
               end = true).
  { change r with (fst (r, t)). rewrite <- E. vm_compute. reflexivity. }
  destruct r as [o| | |]; [|discriminate HC|discriminate HC|discriminate HC].
  destruct (o_tree o) as [tr|] eqn:Et; [|discriminate HC]. apply andb_true_iff in HC as [HC H2]. apply andb_true_iff in HC as [HB H1].
  assert (Eb : v_byte_order (opened_volume o) = Little) by (destruct (v_byte_order (opened_volume o)); [reflexivity|discriminate HB]).
  destruct (list_eq_dec _ _ _) as [E1|] in H1; [clear H1|discriminate H1].
  destruct (list_eq_dec _ _ _) as [E2|] in H2; [clear H2|discriminate H2].
  destruct (tr_nodes tr) as [|n0 [|n1 [|n2 [|n3 [|n4 [|]]]]]] eqn:En; try discriminate E1. cbn [map] in E1, E2.
  injection E1 as E10 _ _ _ _. injection E2 as _ E21 E22 E23 _.
  exists o, t, tr, n0, (n_entry n3). split; [reflexivity|]. split; [exact Et|]. cbv zeta.
  split; [apply xw_opens; [vm_compute; reflexivity|exact E]|].
  split; [repeat split; constructor|]. split; [reflexivity|]. rewrite En. split; [reflexivity|]. split; [exact E10|].
  change (v_byte_order (mt_volume (xw_mounted o))) with (v_byte_order (opened_volume o)). rewrite Eb.
  split.
  { split; [exists n3; rewrite En; auto|].
    change (v_byte_order (mt_volume (xw_mounted o))) with (v_byte_order (opened_volume o)). rewrite Eb, E23.
    split; vm_compute; reflexivity. }
  split.
  { apply (tx_char utf16 115 [115] [116] [116] eq_refl), (tx_char utf16 116 [116] [] [] eq_refl), tx_nil. }
  rewrite E23. split; [vm_compute; reflexivity|].
  constructor; [|constructor; [|constructor]].
  - exists (n_entry n2). split; [exists n2; rewrite En; auto|]. rewrite E22. vm_compute. reflexivity.
  - exists (n_entry n1). split; [exists n1; rewrite En; auto|]. rewrite E21. vm_compute. reflexivity.
Qed.
