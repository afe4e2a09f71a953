(** Property theorems on a mounted file (C53 to C57). *)
From Coq Require Import ZArith List Bool Lia.
From Verif Require Import Base Spec_IO M_Table M_Load M_Stream M_Tree M_Open M_Item M_Mount M_Fuse
  Spec_Stream Spec_Content Spec_Tree Spec_Item Spec_Mount Spec_Fuse L_Base L_Mount L_Fuse L_Fuse2
  L_Open2 X_Stream X_File X_Mount X_Content X_Fuse.
Import ListNotations.
Open Scope Z_scope.

(** C53: the path of file names leads to the item that the names lead to; the
    path "/" to the root. *)
Theorem C53_path :
  forall m t css ns fs,
    mount_ok m -> mt_tree m = Some t -> file_names_of m css ns fs ->
    (forall k, walk m t ns = Ok (Some k) ->
       entry_by_path m (mount_path fs) = Ok (Some {| fe_node := k; fe_name := last fs []; fe_cursor := 0 |})) /\
    (walk m t ns = Ok None -> entry_by_path m (mount_path fs) = Ok None) /\
    (walk m t ns = Err -> entry_by_path m (mount_path fs) = Err).
Proof.
  intros m t css ns fs HM Ht HN. rewrite (entry_path m t css ns fs HM Ht HN).
  split; [|split]; [intros k Hw|intros Hw..]; rewrite Hw; reflexivity.
Qed.
Print Assumptions C53_path.

(** No path with a slash at the end is found, except "/". *)
Theorem C53_trailing_slash :
  forall m p, p <> [] -> zlen p < SSIZE_MAX ->
    (forall s, fuse_getattr m (p ++ [47]) <> Done s) /\ (forall f, fuse_entry m (p ++ [47]) <> Done f).
Proof.
  intros m p Hp Hl. pose proof (trailing_slash m p Hp Hl) as H. unfold fuse_getattr, fuse_entry.
  destruct (entry_by_path m (p ++ [47])) as [[f|]| | |]; [destruct H|..]; split; discriminate.
Qed.
Print Assumptions C53_trailing_slash.

(** Such a path is meant to be that without the slash (mount_handle.c lines
    494-501): "/st/" of a file that has the storage "st". *)
Theorem C53_trailing_slash_refuted :
  exists m p s, xm_plain = Some m /\ fuse_getattr m p = Done s /\ st_mode s = 16749 /\
    fuse_getattr m (p ++ [47]) = Fails ENOENT.
Proof.
  assert (HC : match xm_plain with
               | Some m => match fuse_getattr m [47; 115; 116], fuse_getattr m ([47; 115; 116] ++ [47]) with
                           | Done s, Fails n => (st_mode s =? 16749) && (n =? ENOENT)
                           | _, _ => false
                           end
               | None => false
               end = true) by (vm_compute; reflexivity).
  destruct xm_plain as [m|]; [|discriminate HC]. exists m, [47; 115; 116].
  destruct (fuse_getattr m [47; 115; 116]) as [s| |]; [|discriminate HC|discriminate HC].
  destruct (fuse_getattr m ([47; 115; 116] ++ [47])) as [|n|]; [discriminate HC| |discriminate HC].
  apply andb_true_iff in HC as [H1 H2]. apply Z.eqb_eq in H1, H2. subst n. exists s. auto.
Qed.
Print Assumptions C53_trailing_slash_refuted.

(** Every path can be asked for, if the times of the items can be represented. *)
Theorem C53_defined :
  forall m o rd t tr p,
    mount_of m o rd t -> o_tree o = Some tr ->
    defined (entry_by_path m p) /\
    ((forall k d, item_entry tr k d -> fits (unix_time (de_mtime d))) -> fuse_getattr m p <> Undefined).
Proof.
  intros m o rd t tr p HO Ht. split; [exact (proj1 (entry_by_path_defined m o rd t HO tr Ht p))|].
  intros HF. exact (getattr_defined m o rd t HO tr Ht HF p).
Qed.
Print Assumptions C53_defined.

(** C54: the stat structure of an item. *)
Theorem C54_getattr :
  forall m t css ns fs,
    mount_ok m -> mt_tree m = Some t -> (forall k d, item_entry t k d -> entry_ok d) ->
    file_names_of m css ns fs ->
    (forall k d, walk m t ns = Ok (Some k) -> item_entry t k d -> fits (unix_time (de_mtime d)) ->
       exists s, fuse_getattr m (mount_path fs) = Done s /\ describes (mt_time m) d s) /\
    (forall k d, walk m t ns = Ok (Some k) -> item_entry t k d -> ~ fits (unix_time (de_mtime d)) ->
       fuse_getattr m (mount_path fs) = Undefined) /\
    (walk m t ns = Ok None \/ walk m t ns = Err -> fuse_getattr m (mount_path fs) = Fails ENOENT).
Proof. intros m t css ns fs HM Ht HE HN. exact (getattr_exact m t HM Ht HE css ns fs HN). Qed.
Print Assumptions C54_getattr.

(** There is only one such structure. *)
Theorem C54_unique :
  forall time d s s', describes time d s -> describes time d s' -> s = s'.
Proof. exact describes_unique. Qed.
Print Assumptions C54_unique.

(** The entries of opened files are in range. *)
Theorem C54_opened :
  forall m o rd t tr, mount_of m o rd t -> o_tree o = Some tr ->
    mt_tree m = Some tr /\ volume_ok (mt_volume m) /\
    forall k d, item_entry tr k d -> entry_ok d /\ dirent_ok d.
Proof.
  intros m o rd t tr HO Ht. split; [exact (tree_is m o rd t HO tr Ht)|]. split; [exact (volume_in_range m o rd t HO)|].
  intros k d Hk. split; [exact (entries_in_range m o rd t HO tr Ht k d Hk)|exact (item_dirent m o rd t HO tr Ht k d Hk)].
Qed.
Print Assumptions C54_opened.

Lemma xm_opens leaf time o t : xf_bytes (xm_file leaf time) = true -> xm_open leaf time = (Ok o, t) ->
  mount_of (xm_mounted o) o (file_reader (xm_file leaf time)) t.
Proof.
  unfold xm_open. generalize (xm_file leaf time). intros f HB E.
  split; [exact (xm_ok o)|]. split; [exact xm_una_ok|]. split; [apply file_reader_bytes, xf_bytes_ok, HB|].
  split; [exact E|]. split; reflexivity.
Qed.

(** The storage "st" and the stream "xy" in it. *)
Lemma xm_names m : mt_codec m = utf8 ->
  file_names_of m [[115; 116]] [[115; 116]] [[115; 116]] /\
  file_names_of m [[115; 116]; [120; 121]] [[115; 116]; [120; 121]] [[115; 116]; [120; 121]].
Proof.
  intros Em. unfold file_names_of. rewrite Em.
  assert (H1 : text utf8 [115; 116] [115; 116])
    by (apply (tx_char utf8 115 [115] [116] [116] eq_refl), (tx_char utf8 116 [116] [] [] eq_refl), tx_nil).
  assert (H2 : text utf8 [120; 121] [120; 121])
    by (apply (tx_char utf8 120 [120] [121] [121] eq_refl), (tx_char utf8 121 [121] [] [] eq_refl), tx_nil).
  assert (H3 : mount_file_name utf8 [115; 116] = Ok [115; 116]) by (vm_compute; reflexivity).
  assert (H4 : mount_file_name utf8 [120; 121] = Ok [120; 121]) by (vm_compute; reflexivity).
  assert (H5 : forall a b, a <> 0 -> a <> 92 -> b <> 0 -> b <> 92 -> [a; b] <> [] /\ Forall (fun c => c <> 0 /\ c <> 92) [a; b])
    by (intros; split; [discriminate|repeat constructor; auto]).
  split; (split; [repeat constructor; auto|]); (split; [repeat (constructor; [apply H5; discriminate|]); constructor|]);
    (split; [repeat constructor; auto|reflexivity]).
Qed.

(** The hypotheses of C53 and C54 hold of a file, and its paths. *)
Example C54_case :
  exists o t tr, xm_open [120; 121] 125911584000000000 = (Ok o, t) /\ o_tree o = Some tr /\
    let m := xm_mounted o in
    mount_of m o (file_reader (xm_file [120; 121] 125911584000000000)) t /\
    (forall k d, item_entry tr k d -> fits (unix_time (de_mtime d))) /\
    file_names_of m [[115; 116]; [120; 121]] [[115; 116]; [120; 121]] [[115; 116]; [120; 121]] /\
    walk m tr [[115; 116]; [120; 121]] = Ok (Some 4%nat) /\ walk m tr [[120; 121]] = Ok None /\
    fuse_getattr m [47; 115; 116; 47; 120; 121] =
      Done {| st_size := 10; st_mode := 33060; st_nlink := 1; st_atime := (1700000000, 123456789);
              st_ctime := (1700000000, 123456789); st_mtime := (946684800, 0) |}.
Proof.
  destruct (xm_open [120; 121] 125911584000000000) as [r t] eqn:E.
  assert (HC : match r with
               | Ok o => match o_tree o with
                         | Some tr =>
                             forallb (fun n => let x := unix_time (de_mtime (n_entry n)) in
                                        (-9223372036854775808 <=? x) && (x <? 9223372036854775808)) (tr_nodes tr) &&
                             match walk (xm_mounted o) tr [[115; 116]; [120; 121]],
                                   walk (xm_mounted o) tr [[120; 121]] with
                             | Ok (Some 4%nat), Ok None => true
                             | _, _ => false
                             end &&
                             match fuse_getattr (xm_mounted o) [47; 115; 116; 47; 120; 121] with
                             | Done {| st_size := 10; st_mode := 33060; st_nlink := 1;
                                       st_atime := (1700000000, 123456789);
                                       st_ctime := (1700000000, 123456789); st_mtime := (946684800, 0) |} => true
                             | _ => false
                             end
                         | None => false
                         end
               | _ => false
               end = true).
  { change r with (fst (r, t)). rewrite <- E. vm_compute. reflexivity. }
  destruct r as [o| | |]; [|discriminate HC|discriminate HC|discriminate HC].
  destruct (o_tree o) as [tr|] eqn:Et; [|discriminate HC].
  exists o, t, tr. split; [reflexivity|]. split; [exact Et|]. cbv zeta.
  apply andb_true_iff in HC as [HC H3]. apply andb_true_iff in HC as [H1 H2].
  split.
  { apply xm_opens; [vm_compute; reflexivity|exact E]. }
  split.
  { intros k d (n & Hn & <-). rewrite forallb_forall in H1. specialize (H1 n (nth_error_In _ _ Hn)). cbv zeta in H1.
    apply andb_true_iff in H1 as [A B]. apply Z.leb_le in A. apply Z.ltb_lt in B. unfold fits. lia. }
  split; [apply xm_names; reflexivity|].
  destruct (walk (xm_mounted o) tr [[115; 116]; [120; 121]]) as [[[|[|[|[|[|k]]]]]|]| | |]; try discriminate H2.
  destruct (walk (xm_mounted o) tr [[120; 121]]) as [[k|]| | |]; try discriminate H2.
  split; [reflexivity|]. split; [reflexivity|].
  destruct (fuse_getattr (xm_mounted o) [47; 115; 116; 47; 120; 121]) as [s| |]; [|discriminate H3|discriminate H3].
  repeat match type of H3 with
         | match ?x with _ => _ end = true => destruct x; try discriminate H3
         end.
  reflexivity.
Qed.

(** A time before 1970 is not what struct timespec asks for, nanoseconds from
    0 to 999999999: "/cd" of 31 December 1969. *)
Theorem C54_nanoseconds_refuted :
  exists m s, xm_plain = Some m /\ fuse_getattr m [47; 99; 100] = Done s /\ st_mtime s = (-1, -499999900).
Proof.
  assert (HC : match xm_plain with
               | Some m => match fuse_getattr m [47; 99; 100] with
                           | Done s => (fst (st_mtime s) =? -1) && (snd (st_mtime s) =? -499999900)
                           | _ => false
                           end
               | None => false
               end = true) by (vm_compute; reflexivity).
  destruct xm_plain as [m|]; [|discriminate HC]. exists m.
  destruct (fuse_getattr m [47; 99; 100]) as [s| |]; [|discriminate HC|discriminate HC].
  apply andb_true_iff in HC as [H1 H2]. apply Z.eqb_eq in H1, H2. exists s. split; [reflexivity|]. split; [reflexivity|].
  destruct (st_mtime s). cbn in *. congruence.
Qed.
Print Assumptions C54_nanoseconds_refuted.

(** C55: what a directory lists. *)
Theorem C55_readdir :
  forall m t accept f l,
    mount_ok m -> mt_tree m = Some t -> (forall k d, item_entry t k d -> entry_ok d) ->
    (fuse_readdir m accept f = (Done tt, l) <->
     full_listing m t (fe_node f) l /\ forall i, (i < length l)%nat -> accept i = true).
Proof. intros m t accept f l HM Ht HE. exact (readdir_iff m t HM Ht HE accept f l). Qed.
Print Assumptions C55_readdir.

(** What is listed is found, with the same stat structure, at the path of the
    directory and the name listed.  The comparison of names must say that the
    name is that of the item, and that it is not one of those before. *)
Theorem C55_listed_is_found :
  forall m t css ns fs k nd pre j post d cs n f accept h l,
    mount_ok m -> mt_tree m = Some t -> (forall k d, item_entry t k d -> entry_ok d) ->
    file_names_of m css ns fs -> walk m t ns = Ok (Some k) ->
    nth_error (tr_nodes t) k = Some nd -> n_subs nd = pre ++ j :: post -> item_entry t j d ->
    mt_name m (de_name d) (v_byte_order (mt_volume m)) = Some n ->
    text (mt_codec m) cs n -> cs <> [] -> Forall (fun c => c <> 0 /\ c <> 92) cs ->
    mount_file_name (mt_codec m) n = Ok f ->
    una_utf8_compare (mt_una m) n (de_name d) (v_byte_order (mt_volume m)) = Ok true ->
    Forall (name_differs (fun x => una_utf8_compare (mt_una m) n x (v_byte_order (mt_volume m))) t) pre ->
    zlen (mount_path (fs ++ [f])) < SSIZE_MAX ->
    fe_node h = k -> fuse_readdir m accept h = (Done tt, l) ->
    walk m t (ns ++ [n]) = Ok (Some j) /\
    exists s, nth_error l (2 + length pre) = Some (f, s) /\ fuse_getattr m (mount_path (fs ++ [f])) = Done s.
Proof.
  intros m t css ns fs k nd pre j post d cs n f accept h l HM Ht HE HN Hw Hn Hs Hd En Htx Hne H0 Ef Hc Hdf Hl Hh HR.
  destruct (listed_is_found m t HM Ht HE css ns fs k nd pre j post d cs n f HN Hw Hn Hs Hd En Htx Hne H0 Ef Hc Hdf Hl)
    as (_ & HW & H).
  split; [exact HW|]. exact (H accept h l Hh HR).
Qed.
Print Assumptions C55_listed_is_found.

(** An item whose name cannot be converted hides all items after it. *)
Theorem C55_hidden :
  forall m t f nd s0 pre j post xs d,
    mount_ok m -> mt_tree m = Some t -> (forall k d, item_entry t k d -> entry_ok d) ->
    nth_error (tr_nodes t) (fe_node f) = Some nd -> fits (unix_time (de_mtime (n_entry nd))) ->
    describes (mt_time m) (n_entry nd) s0 -> n_subs nd = pre ++ j :: post -> Forall2 (lists m t) pre xs ->
    item_entry t j d -> mt_name m (de_name d) (v_byte_order (mt_volume m)) = None ->
    fuse_readdir m (fun _ => true) f = (Fails EIO, ([46], s0) :: ([46; 46], stat_zero) :: xs).
Proof.
  intros m t f nd s0 pre j post xs d HM Ht HE Hn HF HD Hs HL Hj Hna.
  apply (readdir_stops m t HM Ht HE f nd s0 pre j post xs); auto.
  unfold item_file_name. rewrite (proj2 (entry_value_at m t Ht j d) Hj). cbn [rbind]. rewrite Hna. reflexivity.
Qed.
Print Assumptions C55_hidden.

(** The names of a listing, if there is one. *)
Definition listed_names (m : option mounted) (k : nat) : option (list (list Z)) :=
  match m with
  | Some m => match fuse_readdir m (fun _ => true) {| fe_node := k; fe_name := []; fe_cursor := 0 |} with
              | (Done _, l) => Some (map fst l)
              | _ => None
              end
  | None => None
  end.

(** ".", "..", "ab", "cd", "st" in the root and "xy" in "st".  A name with a
    slash is escaped; one outside of ASCII cannot be converted here. *)
Example C55_case :
  listed_names xm_plain 0 = Some [[46]; [46; 46]; [97; 98]; [99; 100]; [115; 116]] /\
  listed_names xm_plain 3 = Some [[46]; [46; 46]; [120; 121]] /\
  listed_names (xm_mount [47] 125911584000000000) 3 = Some [[46]; [46; 46]; [92; 120; 50; 102]] /\
  listed_names (xm_mount [200] 125911584000000000) 3 = None.
Proof. vm_compute. repeat split. Qed.

(** C56: reading gives the bytes of the stream. *)
Theorem C56_read :
  forall rd m t f d s size offset,
    mt_tree m = Some t -> item_entry t (fe_node f) d -> is_readable_stream rd (mt_volume m) d s ->
    0 <= fe_cursor f -> 0 <= offset -> 0 < size <= INT_MAX ->
    (4 <= (if de_size d <? v_minimum_size (mt_volume m) then v_short_sector_size (mt_volume m)
           else v_sector_size (mt_volume m)) \/ size <= 1073741824) ->
    fst (fuse_read rd m f size offset) = Done (slice s offset size).
Proof.
  intros rd m t f d s size offset Ht Hd Hs Hc Ho Hsz Hfew.
  rewrite (fuse_read_full m t Ht rd f d s size offset Hd Hs Hc Ho Hsz Hfew). reflexivity.
Qed.
Print Assumptions C56_read.

(** And nothing else, if the I/O fails or the chain of the stream is broken. *)
Theorem C56_sound :
  forall rd m t f d s size offset l f',
    mt_tree m = Some t -> item_entry t (fe_node f) d -> is_stream rd (mt_volume m) d s -> 0 <= size ->
    fuse_read rd m f size offset = (Done l, f') ->
    0 <= offset /\ size <= INT_MAX /\ l = slice s offset size.
Proof. intros rd m t f d s size offset l f' Ht. exact (fuse_read_sound m t Ht rd f d s size offset l f'). Qed.
Print Assumptions C56_sound.

Theorem C56_errors :
  forall rd m t f d size offset,
    mt_tree m = Some t -> item_entry t (fe_node f) d ->
    (INT_MAX < size -> fst (fuse_read rd m f size offset) = Fails EINVAL) /\
    (size <= INT_MAX -> de_type d <> 2 \/ offset < 0 -> fst (fuse_read rd m f size offset) = Fails EIO).
Proof.
  intros rd m t f d size offset Ht Hd. destruct (fuse_read_other m t Ht rd f d size offset Hd) as (H1 & H2 & _). auto.
Qed.
Print Assumptions C56_errors.

(** Reading a file from its start, whatever the size of the calls, gives all
    of the stream. *)
Theorem C56_whole :
  forall rd m t f d s n fuel,
    mt_tree m = Some t -> item_entry t (fe_node f) d -> is_readable_stream rd (mt_volume m) d s ->
    0 <= fe_cursor f -> 0 < n <= INT_MAX ->
    (4 <= (if de_size d <? v_minimum_size (mt_volume m) then v_short_sector_size (mt_volume m)
           else v_sector_size (mt_volume m)) \/ n <= 1073741824) ->
    (length s < fuel)%nat ->
    cat fuel (fun f o => fuse_read rd m f n o) f 0 = Some s.
Proof.
  intros rd m t f d s n fuel Ht Hd Hs Hc Hn Hfew Hfu.
  exact (cat_from m t Ht rd d s n Hs Hn Hfew fuel f 0 Hd Hc (Z.le_refl 0) Hfu).
Qed.
Print Assumptions C56_whole.

Definition xm_reader : reader := file_reader (xm_file [120; 121] 125911584000000000).

(** "cd" has 600 readable bytes. *)
Example C56_case :
  exists o t tr d s, xm_open [120; 121] 125911584000000000 = (Ok o, t) /\ o_tree o = Some tr /\
    item_entry tr 1 d /\ is_readable_stream xm_reader (opened_volume o) d s /\ zlen s = 600 /\
    let f := {| fe_node := 1; fe_name := [99; 100]; fe_cursor := 600 |} in
    fst (fuse_read xm_reader (xm_mounted o) f 20 590) = Done (slice s 590 10) /\
    slice s 0 3 = [100; 101; 102] /\
    cat 4 (fun f o' => fuse_read xm_reader (xm_mounted o) f 256 o') f 0 = Some s.
Proof.
  destruct (xm_open [120; 121] 125911584000000000) as [r t] eqn:E.
  set (fl := xm_file [120; 121] 125911584000000000) in *.
  assert (HC : match r with
               | Ok o => match o_tree o with
                         | Some tr => match nth_error (tr_nodes tr) 1 with
                             | Some n => match stream_bytes_c fl (opened_volume o) (n_entry n) with
                                 | Some s => readable_c fl (opened_volume o) (n_entry n) && (zlen s =? 600) &&
                                     match fst (fuse_read xm_reader (xm_mounted o)
                                             {| fe_node := 1; fe_name := [99; 100]; fe_cursor := 600 |} 20 590) with
                                     | Done l => if list_eq_dec Z.eq_dec l (slice s 590 10) then true else false
                                     | _ => false
                                     end &&
                                     match cat 4 (fun f o' => fuse_read xm_reader (xm_mounted o) f 256 o')
                                             {| fe_node := 1; fe_name := [99; 100]; fe_cursor := 600 |} 0 with
                                     | Some l => if list_eq_dec Z.eq_dec l s then true else false
                                     | None => false
                                     end &&
                                     match slice s 0 3 with [100; 101; 102] => true | _ => false end
                                 | None => false
                                 end
                             | None => false
                             end
                         | None => false
                         end
               | _ => false
               end = true).
  { change r with (fst (r, t)). rewrite <- E. vm_compute. reflexivity. }
  destruct r as [o| | |]; [|discriminate HC|discriminate HC|discriminate HC].
  destruct (o_tree o) as [tr|] eqn:Et; [|discriminate HC].
  destruct (nth_error (tr_nodes tr) 1) as [n|] eqn:En; [|discriminate HC].
  destruct (stream_bytes_c fl (opened_volume o) (n_entry n)) as [s|] eqn:Es; [|discriminate HC].
  apply andb_true_iff in HC as [HC H1]. apply andb_true_iff in HC as [HC H2]. apply andb_true_iff in HC as [HC H3].
  apply andb_true_iff in HC as [HR HZ].
  exists o, t, tr, (n_entry n), s. split; [reflexivity|]. split; [exact Et|]. split; [exists n; auto|].
  pose proof (xm_opens [120; 121] 125911584000000000 o t ltac:(vm_compute; reflexivity) E) as HX. destruct (C54_opened _ _ _ _ tr HX Et) as (_ & HV & HD).
  split.
  { apply readable_c_ok; auto.
    - apply xf_bytes_ok. vm_compute. reflexivity.
    - exact (proj2 (HD 1%nat _ (ex_intro _ n (conj En eq_refl)))). }
  split; [apply Z.eqb_eq; assumption|]. cbv zeta.
  match goal with H : match fst (fuse_read _ _ _ 20 590) with _ => _ end = true |- _ =>
    destruct (fst (fuse_read xm_reader (xm_mounted o) {| fe_node := 1; fe_name := [99; 100]; fe_cursor := 600 |} 20 590)) as [l| |];
      [|discriminate H|discriminate H];
    destruct (list_eq_dec Z.eq_dec l (slice s 590 10)) as [->|]; [|discriminate H] end.
  split; [reflexivity|].
  split.
  { destruct (slice s 0 3) as [|a [|b [|c [|? ?]]]]; try discriminate H1;
    repeat match type of H1 with match ?x with _ => _ end = true => destruct x; try discriminate H1 end; reflexivity. }
  match goal with H : match cat _ _ _ _ with _ => _ end = true |- _ =>
    destruct (cat 4 (fun f o' => fuse_read xm_reader (xm_mounted o) f 256 o')
      {| fe_node := 1; fe_name := [99; 100]; fe_cursor := 600 |} 0) as [l|]; [|discriminate H];
    destruct (list_eq_dec Z.eq_dec l s) as [->|]; [|discriminate H] end.
  reflexivity.
Qed.

(** C57: opening for anything but reading is refused, a path that leads
    nowhere is not found, and nothing changes. *)
Theorem C57_open :
  forall rd m t css ns fs flags s,
    mount_ok m -> mt_tree m = Some t -> file_names_of m css ns fs ->
    let open_file := fuse_step rd m (FuOpen (mount_path fs) flags) s in
    let open_directory := fuse_step rd m (FuOpendir (mount_path fs)) s in
    (Z.land flags 3 <> 0 -> open_file = (RErrno EACCES, s)) /\
    (walk m t ns = Ok None \/ walk m t ns = Err ->
       (Z.land flags 3 = 0 -> open_file = (RErrno ENOENT, s)) /\ open_directory = (RErrno ENOENT, s)) /\
    (forall k, walk m t ns = Ok (Some k) ->
       let f := {| fe_node := k; fe_name := last fs []; fe_cursor := 0 |} in
       exists s', (Z.land flags 3 = 0 -> open_file = (RHandle (length (fu_handles s)), s')) /\
         open_directory = (RHandle (length (fu_handles s)), s') /\
         fu_handles s' = fu_handles s ++ [Some f]).
Proof.
  intros rd m t css ns fs flags s HM Ht HN. cbv zeta.
  destruct (C53_path m t css ns fs HM Ht HN) as (H1 & H2 & H3).
  cbn [fuse_step]. unfold open_handle, fuse_entry. split; [|split].
  - intros Hf. replace (Z.land flags 3 =? 0) with false by (symmetry; apply Z.eqb_neq; exact Hf). reflexivity.
  - intros [Hw|Hw]; [rewrite (H2 Hw)|rewrite (H3 Hw)]; (split; [intros Hf; rewrite Hf; reflexivity|reflexivity]).
  - intros k Hw. rewrite (H1 k Hw). eexists. split; [intros Hf; rewrite Hf; reflexivity|]. split; reflexivity.
Qed.
Print Assumptions C57_open.

(** What a handle answers does not depend on the calls between. *)
Theorem C57_answers :
  forall rd0 m op s k s1 path h rs s2,
    (exists flags, op = FuOpen path flags) \/ op = FuOpendir path ->
    fuse_step rd0 m op s = (RHandle k, s1) -> keeps_open k h -> fuse_run m h s1 = (rs, s2) ->
    exists f, fuse_entry m path = Done f /\
      (forall rd size offset,
         fst (fuse_step rd m (FuRead k size offset) s2) =
         match fst (fuse_read rd m f size offset) with
         | Done l => RBytes l | Fails n => RErrno n | Undefined => RUndef end) /\
      (forall rd accept,
         fst (fuse_step rd m (FuReaddir k accept) s2) =
         match fuse_readdir m accept f with
         | (Done _, l) => RListing l | (Fails n, l) => RPartial n l | (Undefined, _) => RUndef end).
Proof. exact answers_stable. Qed.
Print Assumptions C57_answers.

(** No history of calls on a mounted file is undefined, if the times of the
    items can be represented. *)
Theorem C57_defined :
  forall m o rd t tr h rs s,
    mount_of m o rd t -> o_tree o = Some tr ->
    (forall k d, item_entry tr k d -> fits (unix_time (de_mtime d))) ->
    proper m h fuse_start -> fuse_run m h fuse_start = (rs, s) -> ~ In RUndef rs.
Proof.
  intros m o rd t tr h rs s HO Ht HF HP H.
  exact (run_defined m o rd t HO tr Ht HF h fuse_start rs s (start_ok tr) HP H).
Qed.
Print Assumptions C57_defined.

(** The entries that are allocated are those of the open handles and one for
    every directory that was closed: these are never freed. *)
Theorem C57_live :
  forall m h rs s, fuse_run m h fuse_start = (rs, s) ->
    fu_live s = open_handles s + closed_directories m h fuse_start.
Proof. intros m h rs s H. apply run_live in H. cbn in H. change (open_handles fuse_start) with 0 in H. lia. Qed.
Print Assumptions C57_live.

(** After opening and closing the root directory an entry is left. *)
Theorem C57_leak_refuted :
  exists m rs s, xm_plain = Some m /\
    fuse_run m [(xm_reader, FuOpendir [47]); (xm_reader, FuReleasedir 0)] fuse_start = (rs, s) /\
    rs = [RHandle 0; RDone] /\ open_handles s = 0 /\ fu_live s = 1.
Proof.
  assert (HC : match xm_plain with
               | Some m => match fuse_run m [(xm_reader, FuOpendir [47]); (xm_reader, FuReleasedir 0)] fuse_start with
                           | ([RHandle 0%nat; RDone], s) => (open_handles s =? 0) && (fu_live s =? 1)
                           | _ => false
                           end
               | None => false
               end = true) by (vm_compute; reflexivity).
  destruct xm_plain as [m|]; [|discriminate HC]. exists m.
  destruct (fuse_run m _ fuse_start) as [rs s].
  destruct rs as [|[|[|]| | | | | |] [|[] []]]; try discriminate HC.
  apply andb_true_iff in HC as [H1 H2]. apply Z.eqb_eq in H1, H2.
  exists [RHandle 0; RDone], s. auto.
Qed.
Print Assumptions C57_leak_refuted.

(** A history: "/cd" opened, read, the root listed, "/cd" read again and
    closed, then read once more. *)
Example C57_case :
  match xm_plain with
  | Some m =>
      let h := [(xm_reader, FuOpen [47; 99; 100] 0); (xm_reader, FuOpendir [47]); (xm_reader, FuRead 0 3 0);
                ((fun _ _ _ => None), FuRead 0 3 0); (xm_reader, FuReaddir 1 (fun i => Nat.ltb i 3));
                (xm_reader, FuRead 0 3 0); (xm_reader, FuRelease 0); (xm_reader, FuRead 0 3 0);
                (xm_reader, FuOpen [47; 99; 100] 1); (xm_reader, FuOpen [47; 99] 0)] in
      proper m h fuse_start /\
      exists r, fuse_run m h fuse_start =
        ([RHandle 0; RHandle 1; RBytes [100; 101; 102]; RErrno 5; r; RBytes [100; 101; 102]; RDone; RErrno 22;
          RErrno 13; RErrno 2], snd (fuse_run m h fuse_start)) /\
        match r with RPartial 5 l => map fst l = [[46]; [46; 46]; [97; 98]] | _ => False end
  | None => False
  end.
Proof.
  vm_compute. split; [repeat split; try discriminate; try lia; try (left; discriminate); repeat constructor|].
  eexists. split; reflexivity.
Qed.
