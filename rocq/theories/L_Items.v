(** Lemmas on the file, item and sequence objects of the Python bindings. *)
From Coq Require Import ZArith List Bool Lia Arith.
From Verif Require Import Base Spec_IO M_Header M_Table M_Load M_Stream M_Tree M_Open M_Item M_File M_Time M_Python M_Items
  Spec_Stream Spec_Load Spec_Open Spec_Tree Spec_Item Spec_File Spec_Python Spec_Items
  L_Base L_Stream L_Stream2 L_Stream3 L_Tree L_Tree2 L_Tree3 L_Open L_Open2 L_Item L_Session L_File L_Time L_Fuse2 L_Python.
Import ListNotations.
Open Scope Z_scope.

(** * Stream calls *)
Lemma read_bytes_undef rd v d n c : volume_ok v -> dirent_ok d -> 0 <= n ->
  fst (read_bytes rd v d n c) = PyUndefined -> v_short_sector_size v < 4.
Proof.
  intros HV HD Hn HU. destruct (Z_lt_le_dec (v_short_sector_size v) 4) as [H|H]; [exact H|exfalso].
  apply (read_bytes_defined v d rd n c HV HD Hn); [|exact HU]. left. unfold stream_sector_size.
  pose proof (volume_ss_pos v HV). destruct (is_short v d); lia.
Qed.

Lemma stream_undef host rd v d op c : volume_ok v -> dirent_ok d -> 0 <= c -> de_type d = TYPE_STREAM ->
  fst (py_stream_step host rd v d op c) = PyUndefined ->
  seek_overflows c op \/ is_read op /\ v_short_sector_size v < 4.
Proof.
  intros HV HD Hc Hty. pose proof (do_size d HD) as Hsz. unfold is_u32 in Hsz.
  destruct op as [size|size offset|offset whence|]; cbn [py_stream_step].
  - intros HU. right. split; [exact I|]. unfold py_stream_read in HU.
    assert (Hi : 0 <= item_size_as_64bit host (de_size d)).
    { destruct host; cbn [item_size_as_64bit]; [lia|]. apply Z.shiftl_nonneg. lia. }
    destruct size as [[z|l| |]|]; try discriminate HU; try (eapply read_bytes_undef; eauto; fail).
    destruct (integer_unsigned (PInt z)) as [n| | |] eqn:E; try discriminate HU.
    pose proof (integer_unsigned_range _ _ E). eapply (read_bytes_undef rd v d n); eauto; lia.
  - intros HU. right. split; [exact I|]. unfold py_stream_read_at in HU.
    destruct (parse_integer offset _ _) as [e|o]; [discriminate HU|].
    destruct size as [z|l| |]; try discriminate HU.
    destruct (integer_unsigned (PInt z)) as [n| | |] eqn:E; try discriminate HU.
    pose proof (integer_unsigned_range _ _ E).
    destruct (n =? 0); [discriminate HU|]. destruct (INT_MAX <? n); [discriminate HU|].
    destruct (Z_lt_le_dec (v_short_sector_size v) 4) as [H4|H4]; [exact H4|exfalso].
    assert (Hf : few_sectors v d n).
    { left. unfold stream_sector_size. pose proof (volume_ss_pos v HV). destruct (is_short v d); lia. }
    unfold stream_read_at in HU.
    assert (Hseek : stream_seek_offset d c o SEEK_SET = Err \/ exists c', stream_seek_offset d c o SEEK_SET = Ok c').
    { unfold stream_seek_offset. destruct (negb _); auto. destruct (c <? 0); auto. cbn. destruct (o <? 0); eauto. }
    destruct Hseek as [Es|(c' & Es)]; rewrite Es in HU; [discriminate HU|].
    pose proof (read_buffer_defined rd v d c' n n [] HV HD ltac:(lia) Hf) as Hdef.
    destruct (stream_read_buffer rd v d c' n n []) as [[[l c1]| | |] t']; cbn in *; try discriminate HU; destruct Hdef.
  - unfold py_stream_seek. destruct offset as [o|l| |]; cbn [parse_integer]; try discriminate.
    destruct ((_ <=? o) && (o <=? _)) eqn:Eo; [|discriminate]. apply andb_true_iff in Eo as [O1 O2].
    apply Z.leb_le in O1. apply Z.leb_le in O2.
    assert (Hint : int64 o) by (unfold int64, INT64_MIN, INT64_MAX; lia).
    destruct whence as [[w|l| |]|]; cbn [parse_integer]; try discriminate.
    + destruct ((_ <=? w) && (w <=? _)) eqn:Ew; [|discriminate].
      rewrite (seek_exact d c o w HD Hty Hc Hint). unfold seek_base.
      change (2 ^ 63) with 9223372036854775808. unfold INT64_MAX.
      destruct (Z.eq_dec w 0) as [->|W0]; [|destruct (Z.eq_dec w 1) as [->|W1]; [|destruct (Z.eq_dec w 2) as [->|W2]]].
      * cbn [Z.eqb]. destruct (_ <? 0 + o) eqn:E1; [apply Z.ltb_lt in E1; lia|]. destruct (0 + o <? 0); discriminate.
      * change (1 =? 0) with false. change (1 =? 1) with true. cbv iota.
        destruct (_ <? c + o) eqn:E1; [apply Z.ltb_lt in E1|destruct (c + o <? 0); discriminate].
        intros _. left. exists o, 1. split; [reflexivity|]. left. split; [reflexivity|]. change (2 ^ 63) with 9223372036854775808. lia.
      * change (2 =? 0) with false. change (2 =? 1) with false. change (2 =? 2) with true. cbv iota.
        destruct (_ <? de_size d + o) eqn:E1; [apply Z.ltb_lt in E1|destruct (de_size d + o <? 0); discriminate].
        intros _. left. exists o, 2. split; [reflexivity|]. right. split; [reflexivity|].
        change (2 ^ 63) with 9223372036854775808. change (2 ^ 32) with 4294967296. lia.
      * replace (w =? 0) with false by lia. replace (w =? 1) with false by lia. replace (w =? 2) with false by lia. discriminate.
    + rewrite (seek_exact d c o 0 HD Hty Hc Hint). unfold seek_base, INT64_MAX. cbn [Z.eqb].
      destruct (_ <? 0 + o) eqn:E1; [apply Z.ltb_lt in E1; lia|]. destruct (0 + o <? 0); discriminate.
  - unfold py_stream_tell, stream_get_offset. destruct (negb _); discriminate.
Qed.

Lemma read_bytes_pos rd v d n c : dirent_ok d -> 0 <= n -> 0 <= c -> 0 <= snd (read_bytes rd v d n c).
Proof.
  intros HD Hn Hc. unfold read_bytes. destruct (n =? 0); [exact Hc|]. destruct (INT_MAX <? n); [exact Hc|].
  destruct (stream_read_buffer rd v d c n n []) as [[[l c']| | |] t'] eqn:E; cbn [snd]; auto.
  apply read_buffer_basic in E as (_ & _ & _ & _ & E); auto. pose proof (zlen_nonneg l). lia.
Qed.

Lemma stream_step_pos host rd v d op c : dirent_ok d -> 0 <= c -> 0 <= snd (py_stream_step host rd v d op c).
Proof.
  intros HD Hc. pose proof (do_size d HD) as Hsz. unfold is_u32 in Hsz.
  destruct op as [size|size offset|offset whence|]; cbn [py_stream_step].
  - unfold py_stream_read.
    assert (Hi : 0 <= item_size_as_64bit host (de_size d)).
    { destruct host; cbn [item_size_as_64bit]; [lia|]. apply Z.shiftl_nonneg. lia. }
    destruct size as [[z|l| |]|]; try exact Hc; try (apply read_bytes_pos; auto; fail).
    destruct (integer_unsigned (PInt z)) as [n| | |] eqn:E; try exact Hc.
    pose proof (integer_unsigned_range _ _ E). apply read_bytes_pos; auto; lia.
  - unfold py_stream_read_at. destruct (parse_integer offset _ _) as [e|o]; [exact Hc|].
    destruct size as [z|l| |]; try exact Hc.
    destruct (integer_unsigned (PInt z)) as [n| | |] eqn:E; try exact Hc.
    pose proof (integer_unsigned_range _ _ E).
    destruct (n =? 0); [exact Hc|]. destruct (INT_MAX <? n); [exact Hc|].
    unfold stream_read_at. destruct (stream_seek_offset d c o SEEK_SET) as [c1| | |] eqn:Es; try exact Hc.
    apply seek_result in Es as [Es _].
    destruct (stream_read_buffer rd v d c1 n n []) as [[[l c2]| | |] t'] eqn:E2; try exact Es.
    apply read_buffer_basic in E2 as (_ & _ & _ & _ & E2); auto; [|lia]. pose proof (zlen_nonneg l). cbn [snd]. lia.
  - unfold py_stream_seek. destruct (parse_integer offset _ _) as [e|o]; [exact Hc|].
    destruct (match whence with None => _ | Some _ => _ end) as [e|w]; [exact Hc|].
    destruct (stream_seek_offset d c o w) as [c1| | |] eqn:Es; try exact Hc. apply seek_result in Es as [Es _]. exact Es.
  - unfold py_stream_tell. destruct (stream_get_offset d c); exact Hc.
Qed.

(** Stream calls give bytes, numbers and None. *)
Lemma py_stream_values host rd v d op c : fst (py_stream_step host rd v d op c) <> Returns POther.
Proof.
  assert (HR : forall n, fst (read_bytes rd v d n c) <> Returns POther).
  { intros n. unfold read_bytes. destruct (n =? 0); [discriminate|]. destruct (INT_MAX <? n); [discriminate|].
    destruct (stream_read_buffer rd v d c n n []) as [[[l c']| | |] t']; discriminate. }
  destruct op as [size|size offset|offset whence|]; cbn [py_stream_step].
  - unfold py_stream_read. destruct size as [[z|l| |]|]; try discriminate; try apply HR.
    destruct (integer_unsigned (PInt z)); try discriminate. apply HR.
  - unfold py_stream_read_at. destruct (parse_integer offset _ _); [discriminate|].
    destruct size as [z'|l| |]; try discriminate. destruct (integer_unsigned (PInt z')) as [n| | |]; try discriminate.
    destruct (n =? 0); [discriminate|]. destruct (INT_MAX <? n); [discriminate|].
    destruct (stream_read_at rd v d c z n n []) as [[[| | |] c'] t']; discriminate.
  - unfold py_stream_seek. destruct (parse_integer offset _ _); [discriminate|].
    destruct (match whence with None => _ | Some _ => _ end) as [e|w]; [discriminate|].
    destruct (stream_seek_offset d c z w); discriminate.
  - unfold py_stream_tell. destruct (stream_get_offset d c); discriminate.
Qed.

(** * The file *)
Lemma live_opened u s t : file_inv u s -> file_tree s = Some t ->
  exists rd o tt, io_bytes rd /\ open_read u rd [] = (Ok o, tt) /\ o_tree o = Some t /\
    file_volume s = Some (opened_volume o) /\ file_endian s = fh_byte_order (o_header o) /\ fs_handle s <> None /\
    io_shows (fs_io s) o.
Proof.
  intros Hi Ht. unfold file_inv in Hi. destruct (fs_handle s) as [h|].
  - destruct Hi as [(rd & o & tt & H1 & H2 & H3 & H4) _]. exists rd, o, tt. do 2 (split; [assumption|]).
    unfold file_tree in Ht. rewrite H3 in Ht. cbn [data_of fd_tree] in Ht. split; [exact Ht|].
    pose proof H4 as (A1 & A2 & A3 & A4 & A5 & A6 & A7).
    unfold file_volume, file_endian. rewrite H3, A6, A3, A4, A5, (A7 t Ht). unfold opened_volume. rewrite Ht.
    split; [reflexivity|]. split; [reflexivity|]. split; [discriminate|exact H4].
  - destruct Hi as (H & _). unfold file_tree in Ht. rewrite H in Ht. discriminate.
Qed.

(** * The invariant *)
Definition generation_of (ob : object) : nat :=
  match ob with OItem g _ _ _ => g | OSequence g _ _ _ => g end.

Definition object_ok (s : fstate) (closed : nat) (ob : object) : Prop :=
  (generation_of ob <= closed)%nat /\
  match ob with
  | OItem g c k cursor =>
      0 <= cursor /\
      (g = closed -> exists t d, file_tree s = Some t /\ item_entry t k d /\ (c = ClassItem <-> de_type d <> TYPE_STREAM))
  | OSequence g k current number =>
      0 <= current <= number /\
      (g = closed -> exists t nd, file_tree s = Some t /\ nth_error (tr_nodes t) k = Some nd /\ number = zlen (n_subs nd))
  end.

Record pinv (en : pyenv) (w : pyworld) : Prop := {
  pi_file : file_inv (pe_una en) (pw_state w);
  pi_handle : pw_handle w = match fs_handle (pw_state w) with Some (User _) => true | _ => false end;
  pi_opened : pw_handle w = true -> fs_opened (pw_state w) = false;
  pi_objects : Forall (object_ok (pw_state w) (pw_closed w)) (pw_objects w)
}.

Lemma start_inv en : pinv en py_start.
Proof. constructor; cbn; auto. Qed.

(** What the calls do to the objects and to the count of closes. *)
Definition grows (w w' : pyworld) : Prop :=
  pw_closed w' = pw_closed w /\
  exists new, map generation_of (pw_objects w') = map generation_of (pw_objects w) ++ new /\
              Forall (fun g => g = pw_closed w) new.

Lemma grows_refl w : grows w w.
Proof. split; [reflexivity|]. exists []. rewrite app_nil_r. auto. Qed.

Lemma grows_same w w' : pw_closed w' = pw_closed w -> pw_objects w' = pw_objects w -> grows w w'.
Proof. intros E1 E2. split; [exact E1|]. exists []. rewrite E2, app_nil_r. auto. Qed.

Lemma replace_nth_nth l i x : forall y, nth_error l i = Some y ->
  replace_nth i x l = firstn i l ++ x :: skipn (S i) l.
Proof.
  revert i; induction l as [|z l IH]; intros [|i] y H; cbn in *; try discriminate; [reflexivity|].
  f_equal. eapply IH; eauto.
Qed.

Lemma replace_nth_at l i x : forall y, nth_error l i = Some y -> nth_error (replace_nth i x l) i = Some x.
Proof. revert i; induction l as [|z l IH]; intros [|i] y H; cbn in *; try discriminate; eauto. Qed.

Lemma replace_nth_other l i j x : i <> j -> nth_error (replace_nth i x l) j = nth_error l j.
Proof.
  revert i j; induction l as [|z l IH]; intros [|i] [|j] H; cbn; try reflexivity; try congruence. apply IH. congruence.
Qed.

Lemma replace_nth_length l i x : length (replace_nth i x l) = length l.
Proof. revert i; induction l as [|z l IH]; intros [|i]; cbn; auto. Qed.

Lemma replace_nth_gens l i x : forall y, nth_error l i = Some y -> generation_of x = generation_of y ->
  map generation_of (replace_nth i x l) = map generation_of l.
Proof.
  revert i; induction l as [|z l IH]; intros [|i] y H Hg; cbn in *; try discriminate.
  - injection H as ->. rewrite Hg. reflexivity.
  - f_equal. eapply IH; eauto.
Qed.

Lemma replace_nth_Forall P l i x : Forall P l -> P x -> Forall P (replace_nth i x l).
Proof. revert i; induction l as [|z l IH]; intros [|i] H Hx; inversion H; subst; cbn; constructor; auto. Qed.

Lemma Forall_snoc {A} (P : A -> Prop) l x : Forall P l -> P x -> Forall P (l ++ [x]).
Proof. intros H Hx. apply Forall_app. auto. Qed.

(** Outcome of a call that leaves the file alone. *)
Definition objects_step (en : pyenv) (w : pyworld) (r : reply * pyworld) : Prop :=
  pinv en (snd r) /\ grows w (snd r) /\ pw_state (snd r) = pw_state w /\
  (forall i, fst r = AObject i -> (i < length (pw_objects (snd r)))%nat).

Lemma step_same en w a : pinv en w -> (forall i, a <> AObject i) -> objects_step en w (a, w).
Proof. intros H Ha. split; [exact H|]. split; [apply grows_refl|]. split; [reflexivity|]. intros i E. now apply Ha in E. Qed.

Lemma step_add en w ob : pinv en w -> object_ok (pw_state w) (pw_closed w) ob -> generation_of ob = pw_closed w ->
  objects_step en w (add_object w ob).
Proof.
  intros H Ho Hg. unfold add_object. split; [|split; [|split]]; cbn [fst snd].
  - destruct H as [H1 H2 H3 H4]. constructor; cbn; auto. now apply Forall_snoc.
  - split; [reflexivity|]. exists [generation_of ob]. cbn. rewrite map_app. split; [reflexivity|]. constructor; auto.
  - reflexivity.
  - intros i [= <-]. cbn. rewrite app_length. cbn. lia.
Qed.

Section Step.
Variable en : pyenv.
Hypothesis Hen : pyenv_ok en.

Lemma live_tree_inv w g v t : pinv en w -> live_tree w g = Some (v, t) ->
  g = pw_closed w /\ file_tree (pw_state w) = Some t /\
  exists rd o tt, io_bytes rd /\ open_read (pe_una en) rd [] = (Ok o, tt) /\ o_tree o = Some t /\
    v = opened_volume o /\ io_shows (fs_io (pw_state w)) o.
Proof.
  intros Hi. unfold live_tree. destruct (Nat.eqb g (pw_closed w)) eqn:E; [|discriminate]. apply Nat.eqb_eq in E.
  destruct (file_tree (pw_state w)) as [t'|] eqn:Et; [|discriminate].
  destruct (live_opened _ _ _ (pi_file _ _ Hi) Et) as (rd & o & tt & H1 & H2 & H3 & H4 & H5 & _ & H6).
  rewrite H4. intros [= <- <-]. split; [exact E|]. split; [reflexivity|]. exists rd, o, tt. auto.
Qed.

Lemma live_tree_some w g t : pinv en w -> g = pw_closed w -> file_tree (pw_state w) = Some t ->
  exists v, live_tree w g = Some (v, t).
Proof.
  intros Hi -> Et. unfold live_tree. rewrite Nat.eqb_refl, Et.
  destruct (live_opened _ _ _ (pi_file _ _ Hi) Et) as (rd & o & tt & _ & _ & _ & H4 & _). rewrite H4. eauto.
Qed.

Lemma type_object_cases e d : exists c, (item_type_object en e d = Ok c /\ (c = ClassItem <-> de_type d <> TYPE_STREAM)) \/
  item_type_object en e d = Err.
Proof.
  unfold item_type_object. destruct (de_type d =? TYPE_STREAM) eqn:E.
  - apply Z.eqb_eq in E. pose proof (po_text en Hen (de_name d) e) as Hd.
    destruct (pe_text en (de_name d) e) as [s| | |]; cbn [rbind] in *; [|exists ClassItem; right; reflexivity|destruct Hd..].
    destruct (zlen s + 1 =? 20); [|destruct (zlen s + 1 =? 28)];
      try destruct (narrow_equal _ _ _); eexists; left; (split; [reflexivity|]); split; intros H; try discriminate H; congruence.
  - apply Z.eqb_neq in E. exists ClassItem. left. split; [reflexivity|]. split; auto.
Qed.

Lemma new_sub_item_step w v t k : pinv en w -> file_tree (pw_state w) = Some t -> valid_item t k ->
  objects_step en w (new_sub_item en w v t k) /\ fst (new_sub_item en w v t k) <> PyUndef.
Proof.
  intros Hi Ht (d & Hk). unfold new_sub_item. rewrite (proj2 (node_value_entry t k d) Hk).
  destruct (type_object_cases (v_byte_order v) d) as (c & [[-> Hc]| ->]).
  - split; [|discriminate]. apply step_add; auto. split; [cbn; lia|]. split; [lia|]. intros _. eauto.
  - split; [|discriminate]. apply step_same; auto. discriminate.
Qed.

Lemma node_live w g k c cursor : pinv en w -> object_ok (pw_state w) (pw_closed w) (OItem g c k cursor) ->
  g = pw_closed w ->
  exists v t nd rd o tt, live_tree w g = Some (v, t) /\ nth_error (tr_nodes t) k = Some nd /\ file_tree (pw_state w) = Some t /\
    (c = ClassItem <-> de_type (n_entry nd) <> TYPE_STREAM) /\
    io_bytes rd /\ open_read (pe_una en) rd [] = (Ok o, tt) /\ o_tree o = Some t /\ v = opened_volume o /\
    io_shows (fs_io (pw_state w)) o.
Proof.
  intros Hi (_ & _ & Ho) Hg. destruct (Ho Hg) as (t & d & Ht & (nd & Hn & <-) & Hc).
  destruct (live_tree_some w g t Hi Hg Ht) as (v & Hv). pose proof (live_tree_inv w g v t Hi Hv) as (_ & _ & rd & o & tt & H).
  exists v, t, nd, rd, o, tt. intuition.
Qed.

Lemma sub_item_valid w t k nd j i : pinv en w -> file_tree (pw_state w) = Some t -> nth_error (tr_nodes t) k = Some nd ->
  znth (n_subs nd) i = Some j -> valid_item t j.
Proof.
  intros Hi Ht Hn Hj. destruct (live_opened _ _ _ (pi_file _ _ Hi) Ht) as (rd & o & tt & H1 & H2 & H3 & _).
  pose proof (opened_subs_valid _ rd (po_una en Hen) H1 o tt H2 t k nd H3 Hn) as HS. exact (Forall_znth _ _ _ _ HS Hj).
Qed.

Lemma sub_index_step w g k index : pinv en w ->
  (g = pw_closed w -> exists t nd, file_tree (pw_state w) = Some t /\ nth_error (tr_nodes t) k = Some nd) ->
  objects_step en w (sub_item_by_index en w g k index) /\
  (fst (sub_item_by_index en w g k index) = PyUndef -> g <> pw_closed w).
Proof.
  intros Hi Hn. unfold sub_item_by_index. destruct (live_tree w g) as [[v t]|] eqn:El.
  - destruct (live_tree_inv w g v t Hi El) as (Hg & Ht & _). destruct (Hn Hg) as (t' & nd & Ht' & Hnd).
    assert (t' = t) by congruence. subst t'. unfold get_sub_item, sub_nodes. rewrite Hnd. cbn [rbind].
    destruct (znth (n_subs nd) index) as [j|] eqn:Ej.
    + destruct (new_sub_item_step w v t j Hi Ht (sub_item_valid w t k nd j index Hi Ht Hnd Ej)) as [H1 H2].
      split; [exact H1|]. intros H. now apply H2 in H.
    + split; [apply step_same; auto; discriminate|discriminate].
  - split; [apply step_same; auto; discriminate|]. intros _ Hg. destruct (Hn Hg) as (t & nd & Ht & _).
    destruct (live_tree_some w g t Hi Hg Ht) as (v & Hv). congruence.
Qed.

Lemma found_step w v t r : pinv en w -> file_tree (pw_state w) = Some t -> defined r ->
  (forall j, r = Ok (Some j) -> valid_item t j) ->
  objects_step en w (found_item en w v t r) /\ fst (found_item en w v t r) <> PyUndef.
Proof.
  intros Hi Ht Hd Hj. unfold found_item. destruct r as [[j|]| | |]; try destruct Hd.
  - apply new_sub_item_step; auto.
  - split; [apply step_same; auto; discriminate|discriminate].
  - split; [apply step_same; auto; discriminate|discriminate].
Qed.

Lemma date_defined ft : 0 <= ft < 18446744073709551616 -> date_answer ft <> PyUndef /\ forall i, date_answer ft <> AObject i.
Proof.
  intros H. unfold date_answer. destruct (filetime_python ft) as (c & -> & _); [exact H|]. split; discriminate.
Qed.

(** ** Items *)
Definition item_trouble (w : pyworld) (g : nat) (cursor : Z) (call : item_call) : Prop :=
  g <> pw_closed w \/
  exists op, call = CallStream op /\
    (seek_overflows cursor op \/ is_read op /\ io_short_sector_size (fs_io (pw_state w)) < 4).

Lemma item_step_inv ev w i g c k cursor call : pinv en w -> env_bytes ev ->
  nth_error (pw_objects w) i = Some (OItem g c k cursor) ->
  objects_step en w (item_step_py en (ev_reader ev) w i g c k cursor call) /\
  (fst (item_step_py en (ev_reader ev) w i g c k cursor call) = PyUndef -> item_trouble w g cursor call).
Proof.
  intros Hi HB Hob.
  assert (Hok : object_ok (pw_state w) (pw_closed w) (OItem g c k cursor)).
  { exact (proj1 (Forall_forall _ _) (pi_objects _ _ Hi) _ (nth_error_In _ _ Hob)). }
  destruct (Nat.eq_dec g (pw_closed w)) as [Hg|Hg].
  2:{ assert (Hdead : live_tree w g = None) by (unfold live_tree; apply Nat.eqb_neq in Hg; rewrite Hg; reflexivity).
      split; [|intros _; left; exact Hg].
      unfold item_step_py. rewrite Hdead.
      destruct call; try (apply step_same; auto; discriminate).
      - destruct (parse_integer _ _ _); [apply step_same; auto; discriminate|].
        apply sub_index_step; auto. intros E; congruence.
      - destruct (parse_string name); apply step_same; auto; discriminate.
      - destruct (parse_string path); apply step_same; auto; discriminate.
      - destruct c; apply step_same; auto; discriminate. }
  destruct (node_live w g k c cursor Hi Hok Hg) as (v & t & nd & rd & o & tt & Hl & Hn & Ht & Hc & H1 & H2 & H3 & -> & H4).
  set (d := n_entry nd). assert (Hk : item_entry t k d) by (exists nd; auto).
  pose proof (po_una en Hen) as Hu.
  pose proof (opened_item_times _ rd o tt t k d Hu H1 H2 H3 Hk (opened_times _ rd o tt Hu H1 H2)) as [Tm Tc].
  assert (HD : dirent_ok d).
  { destruct (opened_made _ rd Hu H1 o tt H2 t H3) as (root & HMa).
    destruct (opened_entries _ rd Hu H1 o tt H2) as (_ & Hd & _).
    apply (proj1 (Forall_forall _ _) Hd). apply (made_incl _ _ _ root t HMa). unfold d.
    unfold tree_entries. apply in_map. eapply nth_error_In; eauto. }
  unfold item_step_py. rewrite Hl, (proj2 (node_value_entry t k d) Hk).
  unfold get_number_of_sub_items, sub_nodes. rewrite Hn. cbn [rbind].
  destruct call as [ | | | | | | |index| |name|path|op|].
  - pose proof (po_text en Hen (de_name d) (v_byte_order (opened_volume o))) as Hd.
    destruct (pe_text en (de_name d) _) as [s| | |]; try destruct Hd;
      [destruct (pe_decodes en s)|]; (split; [apply step_same; auto; discriminate|discriminate]).
  - split; [apply step_same; auto; discriminate|discriminate].
  - destruct (date_defined (de_ctime d) Tc) as [A B]. split; [apply step_same; auto|]. cbn. intros E; now apply A in E.
  - split; [apply step_same; auto; discriminate|discriminate].
  - destruct (date_defined (de_mtime d) Tm) as [A B]. split; [apply step_same; auto|]. cbn. intros E; now apply A in E.
  - split; [apply step_same; auto; discriminate|discriminate].
  - split; [apply step_same; auto; discriminate|discriminate].
  - destruct (parse_integer index _ _) as [e|x]; [split; [apply step_same; auto; discriminate|discriminate]|].
    destruct (sub_index_step w g k x Hi) as [A B]; [eauto|]. split; [exact A|]. intros E. now apply B in E.
  - split; [|discriminate]. apply step_add; auto. split; [cbn; lia|]. pose proof (zlen_nonneg (n_subs nd)).
    split; [lia|]. intros _. exists t, nd. auto.
  - destruct (parse_string name) as [e|s]; [split; [apply step_same; auto; discriminate|discriminate]|].
    destruct (by_name_defined _ rd Hu H1 o tt H2 t k (fun n => una_utf8_compare (pe_una en) s n (fh_byte_order (o_header o))) H3 (ex_intro _ d Hk)) as [A B].
    { intros n. apply (uo_utf8 _ Hu). }
    destruct (found_step w (opened_volume o) t _ Hi Ht A B) as [X Y].
    split; [exact X|]. intros E. now apply Y in E.
  - destruct (parse_string path) as [e|s]; [split; [apply step_same; auto; discriminate|discriminate]|].
    destruct (utf8_path_defined _ rd Hu H1 o tt H2 t k s H3 (ex_intro _ d Hk) (po_char en Hen)) as [A B].
    destruct (found_step w (opened_volume o) t _ Hi Ht A B) as [X Y].
    split; [exact X|]. intros E. now apply Y in E.
  - destruct Hok as (Hle & Hcur & _).
    assert (HS : c <> ClassItem -> objects_step en w
       (let (r, cursor') := py_stream_step (pe_host en) (ev_reader ev) (opened_volume o) d op cursor in
        (match r with Returns v => value_answer v | Raises e => ARaise e | PyUndefined => PyUndef end,
         set_object w i (OItem g c k cursor'))) /\
       (fst (let (r, cursor') := py_stream_step (pe_host en) (ev_reader ev) (opened_volume o) d op cursor in
        (match r with Returns v => value_answer v | Raises e => ARaise e | PyUndefined => PyUndef end,
         set_object w i (OItem g c k cursor'))) = PyUndef -> item_trouble w g cursor (CallStream op))).
    { intros HnC. assert (Hty : de_type d = TYPE_STREAM).
      { destruct (Z.eq_dec (de_type d) TYPE_STREAM) as [E|E]; [exact E|]. apply Hc in E. congruence. }
      pose proof (stream_step_pos (pe_host en) (ev_reader ev) (opened_volume o) d op cursor HD Hcur) as Hp.
      pose proof (stream_undef (pe_host en) (ev_reader ev) (opened_volume o) d op cursor
                    (opened_volume_ok _ rd Hu H1 o tt H2) HD Hcur Hty) as HU.
      pose proof (py_stream_values (pe_host en) (ev_reader ev) (opened_volume o) d op cursor) as HV.
      destruct (py_stream_step _ _ _ _ _ _) as [r cursor']. cbn [fst snd] in *. split.
      - split; [|split; [|split]]; cbn [fst snd].
        + destruct Hi as [I1 I2 I3 I4]. constructor; cbn; auto. apply replace_nth_Forall; auto.
          split; [exact Hle|]. split; [exact Hp|]. intros _. exists t, d. auto.
        + split; [reflexivity|]. exists []. cbn. rewrite app_nil_r. split; [|constructor].
          eapply replace_nth_gens; eauto.
        + reflexivity.
        + intros x. destruct r as [[| | |]| |]; discriminate.
      - intros E. destruct r as [[z|l| |]| |]; try discriminate E; [exfalso; now apply HV|].
        right. exists op. split; [reflexivity|]. destruct (HU eq_refl) as [Q|[Q1 Q2]]; [left; exact Q|right].
        split; [exact Q1|]. destruct H4 as (_ & _ & _ & -> & _). exact Q2. }
    destruct c; [split; [apply step_same; auto; discriminate|discriminate]|apply HS; discriminate..].
  - split; [apply step_same; auto; discriminate|discriminate].
Qed.

(** ** Sequences *)
Lemma sequence_ok w i g k current number : pinv en w -> nth_error (pw_objects w) i = Some (OSequence g k current number) ->
  (g <= pw_closed w)%nat /\ 0 <= current <= number /\
  (g = pw_closed w -> exists t nd, file_tree (pw_state w) = Some t /\ nth_error (tr_nodes t) k = Some nd /\ number = zlen (n_subs nd)).
Proof.
  intros Hi Hob. pose proof (proj1 (Forall_forall _ _) (pi_objects _ _ Hi) _ (nth_error_In _ _ Hob)) as (A & B & C).
  auto.
Qed.

(** An object that is in place stays in place when one is added. *)
Lemma sub_index_objects w g k index : exists new,
  pw_objects (snd (sub_item_by_index en w g k index)) = pw_objects w ++ new /\
  pw_closed (snd (sub_item_by_index en w g k index)) = pw_closed w /\
  pw_state (snd (sub_item_by_index en w g k index)) = pw_state w.
Proof.
  assert (Hnil : exists new, pw_objects w = pw_objects w ++ new /\ pw_closed w = pw_closed w /\ pw_state w = pw_state w).
  { exists []. rewrite app_nil_r. auto. }
  unfold sub_item_by_index, new_sub_item. destruct (live_tree w g) as [[v t]|]; [|exact Hnil].
  destruct (get_sub_item t k index); try exact Hnil.
  destruct (node_value t a); try exact Hnil. destruct (item_type_object _ _ _); try exact Hnil.
  cbn. eexists. split; [reflexivity|]. auto.
Qed.

Lemma sequence_step_inv w i g k current number call : pinv en w ->
  nth_error (pw_objects w) i = Some (OSequence g k current number) ->
  objects_step en w (sequence_step en w i g k current number call) /\
  (fst (sequence_step en w i g k current number call) = PyUndef -> g <> pw_closed w).
Proof.
  intros Hi Hob. destruct (sequence_ok w i g k current number Hi Hob) as (Hle & Hcur & Hn).
  assert (Hn' : g = pw_closed w -> exists t nd, file_tree (pw_state w) = Some t /\ nth_error (tr_nodes t) k = Some nd).
  { intros E. destruct (Hn E) as (t & nd & A & B & _). eauto. }
  destruct call as [|v| |]; cbn [sequence_step].
  - split; [apply step_same; auto; discriminate|discriminate].
  - destruct v; try (split; [apply step_same; auto; discriminate|discriminate]).
    destruct (_ || _); [split; [apply step_same; auto; discriminate|discriminate]|].
    destruct (number <? 0); [split; [apply step_same; auto; discriminate|discriminate]|].
    destruct (_ || _); [split; [apply step_same; auto; discriminate|discriminate]|].
    apply sub_index_step; auto.
  - split; [|discriminate]. split; [exact Hi|]. split; [apply grows_refl|]. split; [reflexivity|].
    intros j [= <-]. cbn. apply nth_error_Some. congruence.
  - destruct (current <? 0); [split; [apply step_same; auto; discriminate|discriminate]|].
    destruct (number <? 0); [split; [apply step_same; auto; discriminate|discriminate]|].
    destruct (number <=? current) eqn:E; [split; [apply step_same; auto; discriminate|discriminate]|].
    apply Z.leb_gt in E.
    destruct (sub_index_step w g k current Hi Hn') as [HS HU].
    destruct (sub_index_objects w g k current) as (new & E1 & E2 & E3).
    destruct (sub_item_by_index en w g k current) as [a w'] eqn:Ea. cbn [fst snd] in *.
    destruct a as [|x| | | | | | |]; try (split; [exact HS|exact HU]).
    split; [|discriminate]. destruct HS as (S1 & S2 & S3 & S4). cbn [fst snd] in S1, S2, S3, S4. split; [|split; [|split]]; cbn [fst snd].
    + destruct S1 as [I1 I2 I3 I4]. constructor; cbn; auto. apply replace_nth_Forall; auto.
      rewrite E2, E3. split; [exact Hle|]. split; [lia|exact Hn].
    + destruct S2 as (G1 & gs & G2 & G3). split; [exact G1|]. exists gs. split; [|exact G3].
      cbn. rewrite <- G2. apply replace_nth_gens with (y := OSequence g k current number); [|reflexivity].
      rewrite E1. rewrite nth_error_app1; [exact Hob|]. apply nth_error_Some. congruence.
    + exact S3.
    + intros j [= <-]. cbn. rewrite replace_nth_length. exact (S4 x eq_refl).
Qed.

(** ** All calls *)
Definition trouble (w : pyworld) (call : pycall) : Prop :=
  (exists i ob, target call = Some i /\ nth_error (pw_objects w) i = Some ob /\ generation_of ob <> pw_closed w) \/
  (exists i op c k cursor, call = OnItem i (CallStream op) /\
     nth_error (pw_objects w) i = Some (OItem (pw_closed w) c k cursor) /\ c <> ClassItem /\
     (seek_overflows cursor op \/ is_read op /\ io_short_sector_size (fs_io (pw_state w)) < 4)).

Lemma done_answer_plain r : (forall i, done_answer r <> AObject i).
Proof. destruct r; discriminate. Qed.

(** Objects of an earlier time stay in order while nothing is open. *)
Lemma objects_reopened w s' : pinv en w -> file_tree (pw_state w) = None ->
  Forall (object_ok s' (pw_closed w)) (pw_objects w).
Proof.
  intros Hi Ht. eapply Forall_impl; [|exact (pi_objects _ _ Hi)].
  intros [g c k cursor|g k current number] (A & B & C); split; auto; split; auto; intros E.
  - destruct (C E) as (t & d & Q & _). congruence.
  - destruct (C E) as (t & d & Q & _). congruence.
Qed.

Lemma open_flags_1 : flag_read 1 = true /\ flag_write 1 = false.
Proof. split; reflexivity. Qed.

(** The parts of the file that the objects use. *)
Definition same_data (s s' : fstate) : Prop :=
  file_tree s' = file_tree s /\ fs_handle s' = fs_handle s /\ fs_opened s' = fs_opened s.

Lemma set_file_inv w s' wo : pinv en w -> file_inv (pe_una en) s' -> same_data (pw_state w) s' ->
  pinv en (set_file w s' wo).
Proof.
  intros [I1 I2 I3 I4] Hf (E1 & E2 & E3). constructor; cbn; auto.
  - rewrite E2. exact I2.
  - rewrite E3. exact I3.
  - unfold object_ok in *. rewrite E1. exact I4.
Qed.

Lemma closed_no_tree w : pinv en w -> fs_handle (pw_state w) = None -> file_tree (pw_state w) = None.
Proof.
  intros Hi Hh. pose proof (pi_file _ _ Hi) as Hf. unfold file_inv in Hf. rewrite Hh in Hf.
  unfold file_tree. destruct Hf as (-> & _). reflexivity.
Qed.

Theorem py_step_inv ev w call : pinv en w -> env_bytes ev ->
  pinv en (snd (py_step en ev w call)) /\
  (call = CallClose -> pw_objects (snd (py_step en ev w call)) = pw_objects w /\
     (pw_closed w <= pw_closed (snd (py_step en ev w call)))%nat) /\
  (call <> CallClose -> grows w (snd (py_step en ev w call))) /\
  (forall i, fst (py_step en ev w call) = AObject i -> (i < length (pw_objects (snd (py_step en ev w call))))%nat) /\
  (fst (py_step en ev w call) = PyUndef -> trouble w call).
Proof.
  intros Hi HB. pose proof (po_una en Hen) as Hu. pose proof (pi_file _ _ Hi) as Hf.
  assert (Hplain : forall a, (forall i, a <> AObject i) -> a <> PyUndef ->
    pinv en w /\ (call = CallClose -> pw_objects w = pw_objects w /\ (pw_closed w <= pw_closed w)%nat) /\
    (call <> CallClose -> grows w w) /\ (forall i, a = AObject i -> (i < length (pw_objects w))%nat) /\ (a = PyUndef -> trouble w call)).
  { intros a Ha Hun. split; [exact Hi|]. split; [auto|]. split; [intros _; apply grows_refl|]. split; [|congruence].
    intros i E; now apply Ha in E. }
  assert (Hof : forall r, call <> CallClose -> objects_step en w r -> (fst r = PyUndef -> trouble w call) ->
    pinv en (snd r) /\ (call = CallClose -> pw_objects (snd r) = pw_objects w /\ (pw_closed w <= pw_closed (snd r))%nat) /\
    (call <> CallClose -> grows w (snd r)) /\ (forall i, fst r = AObject i -> (i < length (pw_objects (snd r)))%nat) /\
    (fst r = PyUndef -> trouble w call)).
  { intros r Hc (S1 & S2 & S3 & S4) HU. split; [exact S1|]. split; [congruence|]. split; [auto|]. split; auto. }
  destruct call as [mode|mode| | | | |name| | | |path|i call|i call]; cbn [py_step].
  - (* open *)
    destruct (mode_accepted mode); [|apply Hplain; discriminate].
    destruct (fs_handle (pw_state w)) as [h|] eqn:Hh.
    + pose proof (open_call_error (pe_una en) ev (FOpen 1) (pw_state w) (pw_world w) I ltac:(left; congruence)) as E.
      cbn [file_step] in E. destruct (file_open _ _ _ _ _) as [[r s'] wo'].
      injection E as E1 -> ->. cbn [fst snd].
      split; [destruct Hi; constructor; auto|]. split; [discriminate|].
      split; [intros _; apply grows_same; reflexivity|]. split; [intros j E; now apply done_answer_plain in E|].
      destruct r; try discriminate E1; discriminate.
    + pose proof (open_call_cases (pe_una en) ev (FOpen 1) (pw_state w) (pw_world w) Hu HB I Hf Hh) as HC.
      pose proof (file_step_inv (pe_una en) ev (FOpen 1) (pw_state w) (pw_world w) Hu HB Hf) as HI.
      cbn [file_step] in HC, HI. destruct (file_open _ _ _ _ _) as [[r s'] wo']. cbn [fst snd] in *.
      pose proof (pi_handle _ _ Hi) as Hp. rewrite Hh in Hp.
      split; [|split; [discriminate|]; split; [intros _; apply grows_same; reflexivity|];
               split; [intros j E; now apply done_answer_plain in E|]].
      * constructor; cbn [set_file pw_state pw_handle pw_objects pw_closed].
        -- exact HI.
        -- rewrite Hp. destruct HC as [(io' & w1 & _ & E & _)|(io' & o & t & w1 & h & _ & _ & _ & E & -> & _)];
             injection E as _ -> _; reflexivity.
        -- rewrite Hp. discriminate.
        -- apply objects_reopened; auto. now apply closed_no_tree.
      * destruct HC as [(io' & w1 & _ & E & _)|(io' & o & t & w1 & h & _ & _ & _ & E & -> & _)]; injection E as E _ _;
          destruct r; try discriminate E; discriminate.
  - (* open file object *)
    destruct (mode_accepted mode); [|apply Hplain; discriminate].
    destruct (pw_handle w) eqn:Hph; [apply Hplain; discriminate|].
    set (wo := set_open (pw_world w) (pw_next w) true).
    destruct (fs_handle (pw_state w)) as [h|] eqn:Hh.
    + pose proof (open_call_error (pe_una en) ev (FOpenHandle (pw_next w) 1) (pw_state w) wo I ltac:(left; congruence)) as E.
      cbn [file_step] in E. destruct (file_open_handle _ _ _ _ _ _) as [[r s'] wo'].
      injection E as E1 -> ->. cbn [fst snd].
      assert (Hr : r = Err) by (destruct r; try discriminate E1; reflexivity). subst r.
      split.
      { destruct Hi as [I1 I2 I3 I4]. constructor; cbn; auto. rewrite <- I2. congruence. discriminate. }
      split; [discriminate|]. split; [intros _; apply grows_same; reflexivity|]. split; [discriminate|discriminate].
    + pose proof (open_call_cases (pe_una en) ev (FOpenHandle (pw_next w) 1) (pw_state w) wo Hu HB I Hf Hh) as HC.
      pose proof (file_step_inv (pe_una en) ev (FOpenHandle (pw_next w) 1) (pw_state w) wo Hu HB Hf) as HI.
      cbn [file_step] in HC, HI. destruct (file_open_handle _ _ _ _ _ _) as [[r s'] wo']. cbn [fst snd] in *.
      split; [|split; [discriminate|]; split; [intros _; apply grows_same; reflexivity|];
               split; [intros j E; now apply done_answer_plain in E|]].
      * constructor; cbn [pw_state pw_handle pw_objects pw_closed].
        -- exact HI.
        -- destruct HC as [(io' & w1 & _ & E & _)|(io' & o & t & w1 & h & _ & _ & _ & E & -> & _)];
             injection E as E -> _; destruct r; try discriminate E; reflexivity.
        -- destruct HC as [(io' & w1 & _ & E & _)|(io' & o & t & w1 & h & _ & _ & _ & E & -> & _)];
             injection E as E -> _; destruct r; try discriminate E; try discriminate; intros _.
           cbn [fs_opened]. unfold wo, set_open. cbn [w_open]. rewrite Nat.eqb_refl. reflexivity.
        -- apply objects_reopened; auto. now apply closed_no_tree.
      * destruct HC as [(io' & w1 & _ & E & _)|(io' & o & t & w1 & h & _ & _ & _ & E & -> & _)]; injection E as E _ _;
          destruct r; try discriminate E; discriminate.
  - (* close *)
    unfold file_close. destruct (fs_handle (pw_state w)) as [h|] eqn:Hh; cbn [fst snd pw_objects pw_closed].
    + split; [|split; [intros _; split; [reflexivity|lia]|]; split; [congruence|]; split; [intros j E; now apply done_answer_plain in E|]].
      * constructor; cbn.
        -- auto.
        -- destruct (fs_opened (pw_state w)) eqn:Eo; [|reflexivity]. destruct (ev_close ev); [reflexivity|].
           destruct (pw_handle w) eqn:Ep; [|reflexivity]. pose proof (pi_opened _ _ Hi Ep). congruence.
        -- reflexivity.
        -- eapply Forall_impl; [|exact (pi_objects _ _ Hi)].
           intros [g c k cursor|g k current number] (A & B & C); cbn in A; split; cbn; try lia; split; auto; intros E; lia.
      * destruct (fs_opened (pw_state w)); [destruct (ev_close ev)|]; discriminate.
    + split; [destruct Hi; constructor; auto|]. split; [intros _; split; [reflexivity|lia]|]. split; [congruence|].
      split; discriminate.
  - unfold get_size32. destruct (_ <? _); apply Hplain; discriminate.
  - unfold get_size32. destruct (_ <? _); apply Hplain; discriminate.
  - destruct (codepage_to_string _); apply Hplain; discriminate.
  - destruct (parse_string name) as [e|s]; [apply Hplain; discriminate|].
    destruct (pe_codepage en s) as [cp|]; [|apply Hplain; discriminate].
    pose proof (file_step_inv (pe_una en) ev (FSetCodepage cp) (pw_state w) (pw_world w) Hu HB Hf) as HI.
    cbn [file_step] in HI. unfold file_set_codepage in *. destruct (existsb _ _); cbn [fst snd] in *.
    + split; [apply set_file_inv; auto; repeat split|]. split; [discriminate|].
      split; [intros _; apply grows_same; reflexivity|]. split; discriminate.
    + split; [apply set_file_inv; auto; repeat split|]. split; [discriminate|].
      split; [intros _; apply grows_same; reflexivity|]. split; discriminate.
  - unfold format_version. destruct (_ <? _); [|destruct (_ <? _)]; apply Hplain; discriminate.
  - pose proof (file_step_inv (pe_una en) ev FSignalAbort (pw_state w) (pw_world w) Hu HB Hf) as HI.
    split; [apply set_file_inv; auto; repeat split|]. split; [discriminate|].
    split; [intros _; apply grows_same; reflexivity|]. split; discriminate.
  - apply Hof; [discriminate|..]; unfold get_root_item; destruct (file_tree (pw_state w)) as [t|] eqn:Et; cbn [new_file_item].
    + rewrite Et. destruct (live_opened _ _ _ Hf Et) as (rd & o & tt & H1 & H2 & H3 & _).
      destruct (opened_root _ rd Hu H1 o tt H2 t H3) as (root & _ & Hr & _).
      rewrite (proj2 (node_value_entry t 0 root) Hr). apply step_add; auto. split; [cbn; lia|]. split; [lia|].
      intros _. exists t, root. do 2 (split; [assumption|]). unfold file_type_object.
      destruct (de_type root =? TYPE_STREAM) eqn:Ed; [apply Z.eqb_eq in Ed|apply Z.eqb_neq in Ed]; split; intros X; try discriminate X; congruence.
    + apply step_same; auto; discriminate.
    + rewrite Et. destruct (live_opened _ _ _ Hf Et) as (rd & o & tt & H1 & H2 & H3 & _).
      destruct (opened_root _ rd Hu H1 o tt H2 t H3) as (root & _ & Hr & _).
      rewrite (proj2 (node_value_entry t 0 root) Hr). discriminate.
    + discriminate.
  - destruct (parse_string path) as [e|s]; [apply Hplain; discriminate|].
    assert (HP : defined (item_by_utf8_path (pe_una en) (file_endian (pw_state w)) (file_tree (pw_state w)) s) /\
      forall k, item_by_utf8_path (pe_una en) (file_endian (pw_state w)) (file_tree (pw_state w)) s = Ok (Some k) ->
        exists t d, file_tree (pw_state w) = Some t /\ item_entry t k d).
    { destruct (file_tree (pw_state w)) as [t|] eqn:Et; cbn [item_by_utf8_path].
      - destruct (live_opened _ _ _ Hf Et) as (rd & o & tt & H1 & H2 & H3 & _ & H5 & _). rewrite H5.
        destruct (opened_root _ rd Hu H1 o tt H2 t H3) as (root & _ & Hr & _).
        destruct (utf8_path_defined _ rd Hu H1 o tt H2 t 0%nat s H3 (ex_intro _ root Hr) (po_char en Hen)) as [A B].
        split; [exact A|]. intros k E. destruct (B k E) as (d & Hd). eauto.
      - destruct (sub_item_by_path_defined (fun _ => True) (una_utf8_char (pe_una en)) (fun _ _ => Err) s 0%nat (po_char en Hen)) as [A _].
        { intros k n _. split; [exact I|discriminate]. } { exact I. }
        destruct (sub_item_by_path _ _ _ _) as [[k|]| | |]; cbn [rbind] in *; try destruct A; (split; [exact I|discriminate]). }
    destruct HP as [Hd Hk].
    destruct (item_by_utf8_path _ _ _ _) as [[k|]| | |]; cbn [new_file_item]; try destruct Hd; try (apply Hplain; discriminate).
    destruct (Hk k eq_refl) as (t & d & Et & Hkd). rewrite Et, (proj2 (node_value_entry t k d) Hkd).
    apply Hof; [discriminate| |discriminate]. apply step_add; auto. split; [cbn; lia|]. split; [lia|].
    intros _. exists t, d. do 2 (split; [assumption|]). unfold file_type_object.
    destruct (de_type d =? TYPE_STREAM) eqn:Ed; [apply Z.eqb_eq in Ed|apply Z.eqb_neq in Ed]; split; intros X; try discriminate X; congruence.
  - destruct (nth_error (pw_objects w) i) as [[g c k cursor|g k cu n]|] eqn:Eo; try (apply Hplain; discriminate).
    destruct (item_step_inv ev w i g c k cursor call Hi HB Eo) as [A B]. apply Hof; [discriminate|exact A|].
    intros E. destruct (B E) as [Hg|(op & -> & Hop)].
    + left. exists i, (OItem g c k cursor). auto.
    + destruct (Nat.eq_dec g (pw_closed w)) as [->|Hg]; [|left; exists i, (OItem g c k cursor); auto].
      right. exists i, op, c, k, cursor. split; [reflexivity|]. split; [exact Eo|]. split; [|exact Hop].
      intros ->. revert E. unfold item_step_py. destruct (live_tree w (pw_closed w)) as [[v t]|] eqn:El; [|discriminate].
      destruct (node_live w _ _ _ _ Hi (proj1 (Forall_forall _ _) (pi_objects _ _ Hi) _ (nth_error_In _ _ Eo)) eq_refl)
        as (v' & t' & nd & _ & _ & _ & El' & Hn & _). assert (t' = t) by congruence. subst t'.
      unfold node_value. rewrite Hn. discriminate.
  - destruct (nth_error (pw_objects w) i) as [[g c k cursor|g k cu n]|] eqn:Eo; try (apply Hplain; discriminate).
    destruct (sequence_step_inv w i g k cu n call Hi Eo) as [A B]. apply Hof; [discriminate|exact A|].
    intros E. left. exists i, (OSequence g k cu n). split; [reflexivity|]. split; [exact Eo|]. cbn. auto.
Qed.
End Step.

(** * Programs *)
Lemma py_run_app en h1 h2 w :
  py_run en (h1 ++ h2) w =
  (fst (py_run en h1 w) ++ fst (py_run en h2 (snd (py_run en h1 w))), snd (py_run en h2 (snd (py_run en h1 w)))).
Proof.
  revert w; induction h1 as [|[ev call] h1 IH]; intros w; cbn [app py_run].
  - cbn [fst snd app]. destruct (py_run en h2 w); reflexivity.
  - destruct (py_step en ev w call) as [a w1]. rewrite IH. destruct (py_run en h1 w1) as [r w2]. cbn [fst snd].
    destruct (py_run en h2 w2). reflexivity.
Qed.

Lemma py_run_length en h w : length (fst (py_run en h w)) = length h.
Proof.
  revert w; induction h as [|[ev call] h IH]; intros w; [reflexivity|]. cbn [py_run].
  destruct (py_step en ev w call) as [a w1]. specialize (IH w1). destruct (py_run en h w1). cbn in *. lia.
Qed.

Lemma py_run_one en ev call w : py_run en [(ev, call)] w = ([fst (py_step en ev w call)], snd (py_step en ev w call)).
Proof. cbn. destruct (py_step en ev w call). reflexivity. Qed.

(** The answer at a place of a program. *)
Lemma py_run_nth en h w t ev call : nth_error h t = Some (ev, call) ->
  nth_error (fst (py_run en h w)) t = Some (fst (py_step en ev (snd (py_run en (firstn t h) w)) call)).
Proof.
  revert h w; induction t as [|t IH]; intros [|[ev0 c0] h] w H; try discriminate; cbn [firstn py_run nth_error] in *.
  - injection H as -> ->. cbn [snd]. destruct (py_step en ev w call) as [a w1]. destruct (py_run en h w1). reflexivity.
  - destruct (py_step en ev0 w c0) as [a w1]. specialize (IH h w1 H). destruct (py_run en h w1) as [r w2].
    destruct (py_run en (firstn t h) w1) as [r' w3] eqn:E. cbn [fst snd] in *. exact IH.
Qed.

Lemma py_run_prefix en h w t : fst (py_run en (firstn t h) w) = firstn t (fst (py_run en h w)).
Proof.
  revert h w; induction t as [|t IH]; intros [|[ev0 c0] h] w; try reflexivity. cbn [firstn py_run].
  destruct (py_step en ev0 w c0) as [a w1]. specialize (IH h w1). destruct (py_run en h w1) as [r w2].
  destruct (py_run en (firstn t h) w1) as [r' w3]. cbn [fst firstn] in *. congruence.
Qed.

Lemma firstn_S_nth {A} (l : list A) t x : nth_error l t = Some x -> firstn (S t) l = firstn t l ++ [x].
Proof.
  revert l; induction t as [|t IH]; intros [|y l] H; try discriminate; cbn in *; [congruence|]. f_equal. now apply IH.
Qed.

Section Programs.
Variable en : pyenv.
Hypothesis Hen : pyenv_ok en.

Lemma py_run_inv h : forall w, program_bytes h -> pinv en w -> pinv en (snd (py_run en h w)).
Proof.
  induction h as [|[ev call] h IH]; intros w Hb Hi; [exact Hi|]. inversion Hb; subst. cbn [py_run].
  destruct (py_step_inv en Hen ev w call Hi H1) as (H & _). destruct (py_step en ev w call) as [a w1].
  specialize (IH w1 H2 H). destruct (py_run en h w1). exact IH.
Qed.

Lemma program_bytes_firstn h t : program_bytes h -> program_bytes (firstn t h).
Proof. intros H. unfold program_bytes in *. rewrite <- (firstn_skipn t h) in H. apply Forall_app in H. apply H. Qed.

(** Every object was given by a call, and if it is older than the last close,
    then there is a close call behind that. *)
Definition given (h : list (env * pycall)) : Prop :=
  forall i ob, nth_error (pw_objects (snd (py_run en h py_start))) i = Some ob ->
    exists s, nth_error (fst (py_run en h py_start)) s = Some (AObject i) /\
      (generation_of ob <> pw_closed (snd (py_run en h py_start)) ->
       exists c, nth_error (map snd h) c = Some CallClose /\ (s < c)%nat).

Lemma new_object_answer ev w call : pinv en w -> env_bytes ev -> call <> CallClose ->
  forall i, (length (pw_objects w) <= i)%nat -> (i < length (pw_objects (snd (py_step en ev w call))))%nat ->
  fst (py_step en ev w call) = AObject i.
Proof.
  intros Hi HB Hc i Hlo Hhi.
  assert (Hadd : forall ob, (i < length (pw_objects (snd (add_object w ob))))%nat -> fst (add_object w ob) = AObject i).
  { intros ob. cbn. rewrite app_length. cbn. intros H. f_equal. lia. }
  assert (Hno : (i < length (pw_objects w))%nat -> forall a, a = AObject i) by (intros H; lia).
  assert (Hns : forall v t k, (i < length (pw_objects (snd (new_sub_item en w v t k))))%nat -> fst (new_sub_item en w v t k) = AObject i).
  { intros v t k. unfold new_sub_item. destruct (node_value t k); try (cbn [snd]; intros H; apply (Hno H)).
    destruct (item_type_object _ _ _); try (cbn [snd]; intros H; apply (Hno H)). apply Hadd. }
  assert (Hsi : forall g k x, (i < length (pw_objects (snd (sub_item_by_index en w g k x))))%nat -> fst (sub_item_by_index en w g k x) = AObject i).
  { intros g k x. unfold sub_item_by_index. destruct (live_tree w g) as [[v t]|]; [|cbn [snd]; intros H; apply (Hno H)].
    destruct (get_sub_item t k x); try (cbn [snd]; intros H; apply (Hno H)). apply Hns. }
  assert (Hfo : forall v t r, (i < length (pw_objects (snd (found_item en w v t r))))%nat -> fst (found_item en w v t r) = AObject i).
  { intros v t r. unfold found_item. destruct r as [[j|]| | |]; try (cbn [snd]; intros H; apply (Hno H)). apply Hns. }
  assert (Hfi : forall r, (i < length (pw_objects (snd (new_file_item w r))))%nat -> fst (new_file_item w r) = AObject i).
  { intros r. unfold new_file_item. destruct r as [[j|]| | |]; try (cbn [snd]; intros H; apply (Hno H)).
    destruct (file_tree (pw_state w)); [|cbn [snd]; intros H; apply (Hno H)].
    destruct (node_value t j); try (cbn [snd]; intros H; apply (Hno H)). apply Hadd. }
  revert Hhi. destruct call as [mode|mode| | | | |name| | | |path|j call|j call]; cbn [py_step].
  - destruct (mode_accepted mode); [|cbn [snd]; intros H; apply (Hno H)].
    destruct (file_open _ _ _ _ _) as [[r s'] wo']. cbn [snd set_file pw_objects]. intros H; apply (Hno H).
  - destruct (mode_accepted mode); [|cbn [snd]; intros H; apply (Hno H)].
    destruct (pw_handle w); [cbn [snd]; intros H; apply (Hno H)|].
    destruct (file_open_handle _ _ _ _ _ _) as [[r s'] wo']. cbn [snd pw_objects]. intros H; apply (Hno H).
  - congruence.
  - cbn [snd]. intros H; apply (Hno H).
  - cbn [snd]. intros H; apply (Hno H).
  - cbn [snd]. intros H; apply (Hno H).
  - destruct (parse_string name) as [e|s]; [cbn [snd]; intros H; apply (Hno H)|].
    destruct (pe_codepage en s); [|cbn [snd]; intros H; apply (Hno H)].
    destruct (file_set_codepage _ _). cbn [snd set_file pw_objects]. intros H; apply (Hno H).
  - cbn [snd]. intros H; apply (Hno H).
  - cbn [snd set_file pw_objects]. intros H; apply (Hno H).
  - apply Hfi.
  - destruct (parse_string path) as [e|s]; [cbn [snd]; intros H; apply (Hno H)|]. apply Hfi.
  - destruct (nth_error (pw_objects w) j) as [[g c k cursor|g k cu n]|]; try (cbn [snd]; intros H; apply (Hno H)).
    unfold item_step_py. destruct call as [ | | | | | | |index| |name|path|op|].
    8:{ destruct (parse_integer index _ _); [cbn [snd]; intros H; apply (Hno H)|apply Hsi]. }
    12:{ cbn [snd]; intros H; apply (Hno H). }
    all: destruct (live_tree w g) as [[v t]|].
    all: try (destruct (node_value t k) as [d| | |]); try (cbn [snd]; intros H; apply (Hno H)).
    + destruct (pe_text en _ _); [destruct (pe_decodes en a)|..]; cbn [snd]; intros H; apply (Hno H).
    + destruct (get_number_of_sub_items t k); cbn [snd]; intros H; apply (Hno H).
    + destruct (get_number_of_sub_items t k); try (cbn [snd]; intros H; apply (Hno H)). apply Hadd.
    + destruct (parse_string name); [cbn [snd]; intros H; apply (Hno H)|]. apply Hfo.
    + destruct (parse_string name); cbn [snd]; intros H; apply (Hno H).
    + destruct (parse_string path); [cbn [snd]; intros H; apply (Hno H)|]. apply Hfo.
    + destruct (parse_string path); cbn [snd]; intros H; apply (Hno H).
    + destruct c; try (cbn [snd]; intros H; apply (Hno H));
        destruct (py_stream_step _ _ _ _ _ _); cbn [snd set_object set_objects pw_objects]; rewrite replace_nth_length;
        intros H; apply (Hno H).
    + destruct c; cbn [snd]; intros H; apply (Hno H).
  - destruct (nth_error (pw_objects w) j) as [[g c k cursor|g k cu n]|]; try (cbn [snd]; intros H; apply (Hno H)).
    destruct call as [|v| |]; cbn [sequence_step]; try (cbn [snd]; intros H; apply (Hno H)).
    + destruct v; try (cbn [snd]; intros H; apply (Hno H)). destruct (_ || _); [cbn [snd]; intros H; apply (Hno H)|].
      destruct (n <? 0); [cbn [snd]; intros H; apply (Hno H)|]. destruct (_ || _); [cbn [snd]; intros H; apply (Hno H)|].
      apply Hsi.
    + destruct (cu <? 0); [cbn [snd]; intros H; apply (Hno H)|]. destruct (n <? 0); [cbn [snd]; intros H; apply (Hno H)|].
      destruct (n <=? cu); [cbn [snd]; intros H; apply (Hno H)|].
      pose proof (Hsi g k cu) as Hq. destruct (sub_item_by_index en w g k cu) as [a w']. cbn [fst snd] in Hq.
      destruct a; cbn [fst snd set_object set_objects pw_objects]; try rewrite replace_nth_length; exact Hq.
Qed.

Lemma all_given h : program_bytes h -> given h.
Proof.
  induction h as [|[ev call] h IH] using rev_ind; intros Hb.
  { intros i ob H. destruct i; discriminate. }
  apply Forall_app in Hb as [Hb1 Hb2]. inversion Hb2; subst. specialize (IH Hb1). unfold given in *.
  pose proof (py_run_inv h py_start Hb1 (start_inv en)) as Hi.
  rewrite py_run_app, py_run_one. cbn [fst snd]. set (w := snd (py_run en h py_start)) in *.
  destruct (py_step_inv en Hen ev w call Hi H1) as (_ & Hcl & Hgr & _ & _).
  intros i ob Hob.
  pose proof (py_run_length en h py_start) as Hlen.
  destruct (lt_dec i (length (pw_objects w))) as [L|L].
  - destruct (nth_error (pw_objects w) i) as [ob0|] eqn:E0; [|apply nth_error_None in E0; lia].
    destruct (IH i ob0 E0) as (s & Hs & Hc). exists s.
    assert (Hs' : (s < length h)%nat) by (rewrite <- Hlen; apply nth_error_Some; congruence).
    split; [rewrite nth_error_app1 by lia; exact Hs|].
    rewrite map_app. intros Hg.
    assert (Hclose : {call = CallClose} + {call <> CallClose}) by (destruct call; auto; right; discriminate).
    destruct Hclose as [->|Hn].
    + exists (length h). split; [|exact Hs']. rewrite nth_error_app2 by (rewrite map_length; lia).
      rewrite map_length, Nat.sub_diag. reflexivity.
    + destruct (Hgr Hn) as (G1 & gs & G2 & _). rewrite G1 in Hg.
      assert (Eg : generation_of ob = generation_of ob0).
      { assert (A : nth_error (map generation_of (pw_objects (snd (py_step en ev w call)))) i = Some (generation_of ob))
          by (now apply map_nth_error).
        rewrite G2, nth_error_app1 in A by (rewrite map_length; exact L).
        rewrite (map_nth_error generation_of _ _ E0) in A. congruence. }
      rewrite Eg in Hg. destruct (Hc Hg) as (c & C1 & C2). exists c. split; [|exact C2].
      rewrite nth_error_app1; [exact C1|]. apply nth_error_Some. congruence.
  - assert (Hn : call <> CallClose).
    { intros E. destruct (Hcl E) as [E1 _]. rewrite E1 in Hob. apply L. apply nth_error_Some. congruence. }
    exists (length h). split.
    + rewrite nth_error_app2 by lia. rewrite Hlen, Nat.sub_diag. cbn. f_equal.
      apply new_object_answer; auto; [lia|]. apply nth_error_Some. congruence.
    + intros Hg. exfalso. apply Hg. destruct (Hgr Hn) as (G1 & gs & G2 & G3). rewrite G1.
      assert (A : nth_error (map generation_of (pw_objects (snd (py_step en ev w call)))) i = Some (generation_of ob))
        by (now apply map_nth_error).
      rewrite G2, nth_error_app2 in A by (rewrite map_length; lia). apply nth_error_In in A.
      exact (proj1 (Forall_forall _ _) G3 _ A).
Qed.

Lemma tell_answer ev w i c k cursor : pinv en w -> nth_error (pw_objects w) i = Some (OItem (pw_closed w) c k cursor) ->
  c <> ClassItem -> fst (py_step en ev w (OnItem i (CallStream PyTell))) = ANumber cursor.
Proof.
  intros Hi Ho Hc. cbn [py_step]. rewrite Ho.
  destruct (node_live en w _ _ _ _ Hi (proj1 (Forall_forall _ _) (pi_objects _ _ Hi) _ (nth_error_In _ _ Ho)) eq_refl)
    as (v & t & nd & rd & o & tt & Hl & Hn & _ & Hcl & _).
  unfold item_step_py. rewrite Hl. unfold node_value. rewrite Hn. cbn [py_stream_step].
  unfold py_stream_tell, stream_get_offset.
  assert (Hty : de_type (n_entry nd) =? TYPE_STREAM = true).
  { apply Z.eqb_eq. destruct (Z.eq_dec (de_type (n_entry nd)) TYPE_STREAM) as [E|E]; [exact E|]. apply Hcl in E. congruence. }
  rewrite Hty. destruct c; [congruence|reflexivity..].
Qed.

Lemma short_size_answer ev w i c k cursor : pinv en w -> nth_error (pw_objects w) i = Some (OItem (pw_closed w) c k cursor) ->
  fst (py_step en ev w CallShortSectorSize) = ANumber (io_short_sector_size (fs_io (pw_state w))).
Proof.
  intros Hi Ho. cbn [py_step fst].
  destruct (node_live en w _ _ _ _ Hi (proj1 (Forall_forall _ _) (pi_objects _ _ Hi) _ (nth_error_In _ _ Ho)) eq_refl)
    as (v & t & nd & rd & o & tt & _ & _ & _ & _ & H1 & H2 & _ & _ & H4).
  destruct H4 as (_ & _ & _ & E & _). rewrite E.
  pose proof (volume_sss_pos _ (opened_volume_ok _ rd (po_una en Hen) H1 o tt H2)) as H. cbn [opened_volume v_short_sector_size] in H.
  unfold get_size32. replace (_ <? _) with false by (symmetry; apply Z.ltb_ge; lia). reflexivity.
Qed.

Theorem careful_defined h t : program_bytes h -> careful (map snd h) (fst (py_run en h py_start)) ->
  nth_error (fst (py_run en h py_start)) t = Some PyUndef ->
  exists ev i op, nth_error h t = Some (ev, OnItem i (CallStream op)) /\
    ((exists c, seek_overflows c op /\
        forall ev', fst (py_run en (firstn t h ++ [(ev', OnItem i (CallStream PyTell))]) py_start) =
                    firstn t (fst (py_run en h py_start)) ++ [ANumber c]) \/
     (is_read op /\ exists n, n < 4 /\
        forall ev', fst (py_run en (firstn t h ++ [(ev', CallShortSectorSize)]) py_start) =
                    firstn t (fst (py_run en h py_start)) ++ [ANumber n])).
Proof.
  intros Hb Hc HU.
  assert (Ht : (t < length h)%nat) by (rewrite <- (py_run_length en h py_start); apply nth_error_Some; congruence).
  destruct (nth_error h t) as [[ev call]|] eqn:Eh; [|apply nth_error_None in Eh; lia].
  rewrite (py_run_nth en h py_start t ev call Eh) in HU. injection HU as HU.
  pose proof (program_bytes_firstn h t Hb) as Hbp.
  pose proof (py_run_inv (firstn t h) py_start Hbp (start_inv en)) as Hi.
  assert (HB : env_bytes ev) by exact (proj1 (Forall_forall _ _) Hb _ (nth_error_In _ _ Eh)).
  destruct (py_step_inv en Hen ev _ call Hi HB) as (_ & _ & _ & _ & HT). destruct (HT HU) as [(i & ob & H1 & H2 & H3)|(i & op & c & k & cursor & -> & H2 & H3 & H4)].
  - exfalso. destruct (all_given (firstn t h) Hbp i ob H2) as (s & Hs & Hcl). destruct (Hcl H3) as (c & C1 & C2).
    rewrite py_run_prefix in Hs. rewrite <- firstn_map in C1.
    assert (Hc1 : (c < t)%nat).
    { assert (A : (c < length (firstn t (map snd h)))%nat) by (apply nth_error_Some; congruence). rewrite firstn_length in A. lia. }
    assert (Hs1 : nth_error (fst (py_run en h py_start)) s = Some (AObject i)).
    { rewrite <- Hs. rewrite <- (firstn_skipn t (fst (py_run en h py_start))) at 1. rewrite nth_error_app1; [reflexivity|].
      rewrite firstn_length, py_run_length. lia. }
    assert (Hc2 : nth_error (map snd h) c = Some CallClose).
    { rewrite <- C1. rewrite <- (firstn_skipn t (map snd h)) at 1. rewrite nth_error_app1; [reflexivity|].
      rewrite firstn_length, map_length. lia. }
    apply (Hc s c t i call Hs1 Hc2); [|exact H1|lia]. exact (map_nth_error snd _ _ Eh).
  - exists ev, i, op. split; [reflexivity|]. destruct H4 as [H4|[H4 H5]].
    + left. exists cursor. split; [exact H4|]. intros ev'. rewrite py_run_app, py_run_one. cbn [fst].
      rewrite (tell_answer ev' _ i c k cursor Hi H2 H3), py_run_prefix. reflexivity.
    + right. split; [exact H4|]. eexists. split; [exact H5|]. intros ev'. rewrite py_run_app, py_run_one. cbn [fst].
      rewrite (short_size_answer ev' _ i c k cursor Hi H2), py_run_prefix. reflexivity.
Qed.
End Programs.

(** * Single objects *)

(** What becomes of an object. *)
Definition object_kept (i : nat) (call : pycall) (a : reply) (ob ob' : object) : Prop :=
  match ob with
  | OItem g c k cursor =>
      exists cursor', ob' = OItem g c k cursor' /\ (target call <> Some i -> cursor' = cursor)
  | OSequence g k current number => ob' = OSequence g k (if yields i (call, a) then current + 1 else current) number
  end.

Lemma kept_same i call a ob : yields i (call, a) = false -> object_kept i call a ob ob.
Proof. intros H. destruct ob; cbn [object_kept]; [eauto|]. rewrite H. reflexivity. Qed.

Lemma nth_app_same {A} (l m : list A) i x : nth_error l i = Some x -> nth_error (l ++ m) i = Some x.
Proof. intros H. rewrite nth_error_app1; [exact H|]. apply nth_error_Some. congruence. Qed.

Lemma step_object en ev w call i ob : nth_error (pw_objects w) i = Some ob ->
  exists ob', nth_error (pw_objects (snd (py_step en ev w call))) i = Some ob' /\
    object_kept i call (fst (py_step en ev w call)) ob ob'.
Proof.
  intros Ho.
  assert (Hsame : forall a, yields i (call, a) = false -> exists ob', nth_error (pw_objects w) i = Some ob' /\ object_kept i call a ob ob').
  { intros a Ha. exists ob. split; [exact Ho|]. now apply kept_same. }
  assert (Hadd : forall x, yields i (call, fst (add_object w x)) = false ->
    exists ob', nth_error (pw_objects (snd (add_object w x))) i = Some ob' /\ object_kept i call (fst (add_object w x)) ob ob').
  { intros x Hx. exists ob. split; [|now apply kept_same]. cbn. now apply nth_app_same. }
  assert (Hns : forall v t k, (forall a, yields i (call, a) = false) ->
    exists ob', nth_error (pw_objects (snd (new_sub_item en w v t k))) i = Some ob' /\ object_kept i call (fst (new_sub_item en w v t k)) ob ob').
  { intros v t k Hn. unfold new_sub_item. destruct (node_value t k); try (apply Hsame; apply Hn).
    destruct (item_type_object _ _ _); try (apply Hsame; apply Hn). apply Hadd; apply Hn. }
  assert (Hsi : forall g k x, (forall a, yields i (call, a) = false) ->
    exists ob', nth_error (pw_objects (snd (sub_item_by_index en w g k x))) i = Some ob' /\ object_kept i call (fst (sub_item_by_index en w g k x)) ob ob').
  { intros g k x Hn. unfold sub_item_by_index. destruct (live_tree w g) as [[v t]|]; [|apply Hsame; apply Hn].
    destruct (get_sub_item t k x); try (apply Hsame; apply Hn). apply Hns; exact Hn. }
  assert (Hfo : forall v t r, (forall a, yields i (call, a) = false) ->
    exists ob', nth_error (pw_objects (snd (found_item en w v t r))) i = Some ob' /\ object_kept i call (fst (found_item en w v t r)) ob ob').
  { intros v t r Hn. unfold found_item. destruct r as [[j|]| | |]; try (apply Hsame; apply Hn). apply Hns; exact Hn. }
  assert (Hfi : forall r, (forall a, yields i (call, a) = false) ->
    exists ob', nth_error (pw_objects (snd (new_file_item w r))) i = Some ob' /\ object_kept i call (fst (new_file_item w r)) ob ob').
  { intros r Hn. unfold new_file_item. destruct r as [[j|]| | |]; try (apply Hsame; apply Hn).
    destruct (file_tree (pw_state w)); [|apply Hsame; apply Hn].
    destruct (node_value t j); try (apply Hsame; apply Hn). apply Hadd; apply Hn. }
  destruct call as [mode|mode| | | | |name| | | |path|j call|j call]; cbn [py_step].
  - destruct (mode_accepted mode); [|apply Hsame; reflexivity].
    destruct (file_open _ _ _ _ _) as [[r s'] wo']. cbn [fst snd set_file pw_objects]. apply Hsame; reflexivity.
  - destruct (mode_accepted mode); [|apply Hsame; reflexivity].
    destruct (pw_handle w); [apply Hsame; reflexivity|].
    destruct (file_open_handle _ _ _ _ _ _) as [[r s'] wo']. cbn [fst snd pw_objects]. apply Hsame; reflexivity.
  - destruct (file_close _ _ _) as [[r s'] wo']. cbn [fst snd pw_objects]. apply Hsame; reflexivity.
  - apply Hsame; reflexivity.
  - apply Hsame; reflexivity.
  - apply Hsame; reflexivity.
  - destruct (parse_string name) as [e|s]; [apply Hsame; reflexivity|].
    destruct (pe_codepage en s); [|apply Hsame; reflexivity].
    destruct (file_set_codepage _ _). cbn [fst snd set_file pw_objects]. apply Hsame; reflexivity.
  - apply Hsame; reflexivity.
  - cbn [fst snd set_file pw_objects]. apply Hsame; reflexivity.
  - apply Hfi; reflexivity.
  - destruct (parse_string path) as [e|s]; [apply Hsame; reflexivity|]. apply Hfi; reflexivity.
  - destruct (nth_error (pw_objects w) j) as [[g c k cursor|g k cu n]|] eqn:Ej; try (apply Hsame; reflexivity).
    unfold item_step_py. destruct call as [ | | | | | | |index| |name|path|op|].
    8:{ destruct (parse_integer index _ _); [apply Hsame; reflexivity|apply Hsi; reflexivity]. }
    12:{ apply Hsame; reflexivity. }
    all: destruct (live_tree w g) as [[v t]|].
    all: try (destruct (node_value t k) as [d| | |]); try (apply Hsame; reflexivity).
    + destruct (pe_text en _ _); [destruct (pe_decodes en a)|..]; apply Hsame; reflexivity.
    + destruct (get_number_of_sub_items t k); apply Hsame; reflexivity.
    + destruct (get_number_of_sub_items t k); try (apply Hsame; reflexivity). apply Hadd; reflexivity.
    + destruct (parse_string name); [apply Hsame; reflexivity|]. apply Hfo; reflexivity.
    + destruct (parse_string name); apply Hsame; reflexivity.
    + destruct (parse_string path); [apply Hsame; reflexivity|]. apply Hfo; reflexivity.
    + destruct (parse_string path); apply Hsame; reflexivity.
    + assert (HS : exists ob',
        nth_error (pw_objects (snd (let (r, cursor') := py_stream_step (pe_host en) (ev_reader ev) v d op cursor in
          (match r with Returns v => value_answer v | Raises e => ARaise e | PyUndefined => PyUndef end,
           set_object w j (OItem g c k cursor'))))) i = Some ob' /\
        object_kept i (OnItem j (CallStream op)) (fst (let (r, cursor') := py_stream_step (pe_host en) (ev_reader ev) v d op cursor in
          (match r with Returns v => value_answer v | Raises e => ARaise e | PyUndefined => PyUndef end,
           set_object w j (OItem g c k cursor')))) ob ob').
      { destruct (py_stream_step _ _ _ _ _ _) as [r cursor']. cbn [fst snd set_object set_objects pw_objects].
        destruct (Nat.eq_dec j i) as [->|Hji].
        - exists (OItem g c k cursor'). split; [now apply replace_nth_at with (y := ob)|].
          assert (ob = OItem g c k cursor) by congruence. subst ob. cbn [object_kept]. exists cursor'. split; [reflexivity|].
          cbn [target]. congruence.
        - exists ob. split; [rewrite replace_nth_other by exact Hji; exact Ho|]. apply kept_same. reflexivity. }
      destruct c; [apply Hsame; reflexivity|exact HS..].
    + destruct c; apply Hsame; reflexivity.
  - destruct (nth_error (pw_objects w) j) as [[g c k cursor|g k cu n]|] eqn:Ej; try (apply Hsame; destruct call; reflexivity).
    destruct call as [|v| |]; cbn [sequence_step]; try (apply Hsame; reflexivity).
    + destruct v; try (apply Hsame; reflexivity). destruct (_ || _); [apply Hsame; reflexivity|].
      destruct (n <? 0); [apply Hsame; reflexivity|]. destruct (_ || _); [apply Hsame; reflexivity|].
      apply Hsi; reflexivity.
    + destruct (cu <? 0); [apply Hsame; reflexivity|]. destruct (n <? 0); [apply Hsame; reflexivity|].
      destruct (n <=? cu); [apply Hsame; reflexivity|].
      destruct (sub_index_objects en w g k cu) as (new & E1 & _).
      destruct (sub_item_by_index en w g k cu) as [a w']. cbn [fst snd] in *.
      destruct (Nat.eq_dec j i) as [->|Hji].
      * assert (ob = OSequence g k cu n) by congruence. subst ob.
        destruct a as [|x| | | | | | |]; cbn [fst snd]; [|exists (OSequence g k (cu + 1) n)|..].
        2:{ split; [|cbn [object_kept yields]; rewrite Nat.eqb_refl; reflexivity].
            cbn [set_object set_objects pw_objects]. apply replace_nth_at with (y := OSequence g k cu n). rewrite E1. now apply nth_app_same. }
        all: exists (OSequence g k cu n); split; [rewrite E1; now apply nth_app_same|reflexivity].
      * assert (Hy : yields i (OnSequence j CallNext, a) = false).
        { cbn. destruct a; try reflexivity. now apply Nat.eqb_neq. }
        exists ob. split; [|apply kept_same; destruct a; exact Hy].
        destruct a; cbn [fst snd set_object set_objects pw_objects];
          try rewrite replace_nth_other by exact Hji; rewrite E1; now apply nth_app_same.
Qed.

(** ** Changes of one object do not show at the others *)
Definition agree_except (j : nat) (w w' : pyworld) : Prop :=
  exists l, w' = set_objects w l /\ length l = length (pw_objects w) /\
    forall i, i <> j -> nth_error l i = nth_error (pw_objects w) i.

Lemma agree_refl j w : agree_except j w w.
Proof. exists (pw_objects w). split; [destruct w; reflexivity|]. auto. Qed.

Definition agree_result (j : nat) (r r' : reply * pyworld) : Prop := fst r' = fst r /\ agree_except j (snd r) (snd r').

Lemma agree_same j w l a : length l = length (pw_objects w) ->
  (forall i, i <> j -> nth_error l i = nth_error (pw_objects w) i) ->
  agree_result j (a, w) (a, set_objects w l).
Proof. intros H1 H2. split; [reflexivity|]. exists l. auto. Qed.

Lemma agree_add j w l ob : (j < length l)%nat -> length l = length (pw_objects w) ->
  (forall i, i <> j -> nth_error l i = nth_error (pw_objects w) i) ->
  agree_result j (add_object w ob) (add_object (set_objects w l) ob).
Proof.
  intros Hj H1 H2. split; cbn; [now rewrite H1|]. exists (l ++ [ob]). split; [reflexivity|]. cbn. rewrite !app_length, H1. split; [reflexivity|].
  intros i Hi. destruct (lt_dec i (length l)) as [L|L].
  - rewrite !nth_error_app1 by lia. auto.
  - rewrite !nth_error_app2 by lia. rewrite H1. reflexivity.
Qed.

Lemma agree_replace j w l i x : length l = length (pw_objects w) ->
  (forall i, i <> j -> nth_error l i = nth_error (pw_objects w) i) ->
  agree_except j (set_object w i x) (set_object (set_objects w l) i x).
Proof.
  intros H1 H2. exists (replace_nth i x l). split; [reflexivity|]. cbn. rewrite !replace_nth_length. split; [exact H1|].
  intros k Hk. destruct (Nat.eq_dec i k) as [<-|Hik].
  - destruct (nth_error l i) as [y|] eqn:E.
    + rewrite (replace_nth_at l i x y E). rewrite H2 in E by exact Hk. now rewrite (replace_nth_at _ i x y E).
    + transitivity (@None object); [|symmetry]; apply nth_error_None; rewrite replace_nth_length; [|rewrite <- H1]; now apply nth_error_None.
  - rewrite !replace_nth_other by exact Hik. auto.
Qed.

Lemma agree_step en ev j w w' call : (j < length (pw_objects w))%nat -> agree_except j w w' -> target call <> Some j ->
  agree_result j (py_step en ev w call) (py_step en ev w' call).
Proof.
  intros Hj (l & -> & H1 & H2) Ht.
  assert (Hs : forall a, agree_result j (a, w) (a, set_objects w l)) by (intros a; now apply agree_same).
  assert (Ha : forall ob, agree_result j (add_object w ob) (add_object (set_objects w l) ob)) by (intros ob; apply agree_add; auto; lia).
  assert (Hns : forall v t k, agree_result j (new_sub_item en w v t k) (new_sub_item en (set_objects w l) v t k)).
  { intros v t k. unfold new_sub_item. destruct (node_value t k); try apply Hs.
    destruct (item_type_object _ _ _); try apply Hs. exact (Ha _). }
  assert (Hsi : forall g k x, agree_result j (sub_item_by_index en w g k x) (sub_item_by_index en (set_objects w l) g k x)).
  { intros g k x. unfold sub_item_by_index. change (live_tree (set_objects w l) g) with (live_tree w g).
    destruct (live_tree w g) as [[v t]|]; [|apply Hs]. destruct (get_sub_item t k x); try apply Hs. apply Hns. }
  assert (Hfo : forall v t r, agree_result j (found_item en w v t r) (found_item en (set_objects w l) v t r)).
  { intros v t r. unfold found_item. destruct r as [[k|]| | |]; try apply Hs. apply Hns. }
  assert (Hfi : forall r, agree_result j (new_file_item w r) (new_file_item (set_objects w l) r)).
  { intros r. unfold new_file_item. cbn [set_objects pw_state]. destruct r as [[k|]| | |]; try apply Hs.
    destruct (file_tree (pw_state w)); [|apply Hs]. destruct (node_value t k); try apply Hs. exact (Ha _). }
  assert (Hw : forall a w2 w2', w2' = set_objects w2 l -> pw_objects w2 = pw_objects w -> agree_result j (a, w2) (a, w2')).
  { intros a w2 w2' E1 E2. split; [reflexivity|]. exists l. cbn [snd]. rewrite E2. auto. }
  destruct call as [mode|mode| | | | |name| | | |path|i call|i call]; cbn [py_step target] in *;
    cbn [set_objects pw_state pw_world pw_handle pw_next pw_closed pw_objects].
  - destruct (mode_accepted mode); [|apply Hs]. destruct (file_open _ _ _ _ _) as [[r s'] wo']. apply Hw; reflexivity.
  - destruct (mode_accepted mode); [|apply Hs]. destruct (pw_handle w); [apply Hs|].
    destruct (file_open_handle _ _ _ _ _ _) as [[r s'] wo']. apply Hw; reflexivity.
  - destruct (file_close _ _ _) as [[r s'] wo']. apply Hw; reflexivity.
  - apply Hs.
  - apply Hs.
  - apply Hs.
  - destruct (parse_string name) as [e|s]; [apply Hs|]. destruct (pe_codepage en s); [|apply Hs].
    destruct (file_set_codepage _ _). apply Hw; reflexivity.
  - apply Hs.
  - apply Hw; reflexivity.
  - apply Hfi.
  - destruct (parse_string path) as [e|s]; [apply Hs|]. apply Hfi.
  - rewrite H2 by congruence. destruct (nth_error (pw_objects w) i) as [[g c k cursor|g k cu n]|]; try apply Hs.
    unfold item_step_py. change (live_tree (set_objects w l) g) with (live_tree w g).
    destruct call as [ | | | | | | |index| |name|path|op|].
    8:{ destruct (parse_integer index _ _); [apply Hs|apply Hsi]. }
    12:{ apply Hs. }
    all: destruct (live_tree w g) as [[v t]|].
    all: try (destruct (node_value t k) as [d| | |]); try apply Hs.
    + destruct (pe_text en _ _); [destruct (pe_decodes en a)|..]; apply Hs.
    + destruct (get_number_of_sub_items t k); apply Hs.
    + destruct (get_number_of_sub_items t k); try apply Hs. apply Ha.
    + destruct (parse_string name); [apply Hs|]. apply Hfo.
    + destruct (parse_string name); apply Hs.
    + destruct (parse_string path); [apply Hs|]. apply Hfo.
    + destruct (parse_string path); apply Hs.
    + assert (HS : agree_result j
        (let (r, cursor') := py_stream_step (pe_host en) (ev_reader ev) v d op cursor in
          (match r with Returns v => value_answer v | Raises e => ARaise e | PyUndefined => PyUndef end,
           set_object w i (OItem g c k cursor')))
        (let (r, cursor') := py_stream_step (pe_host en) (ev_reader ev) v d op cursor in
          (match r with Returns v => value_answer v | Raises e => ARaise e | PyUndefined => PyUndef end,
           set_object (set_objects w l) i (OItem g c k cursor')))).
      { destruct (py_stream_step _ _ _ _ _ _) as [r cursor']. split; [reflexivity|]. now apply agree_replace. }
      destruct c; [apply Hs|exact HS..].
    + destruct c; apply Hs.
  - rewrite H2 by congruence. destruct (nth_error (pw_objects w) i) as [[g c k cursor|g k cu n]|]; try apply Hs.
    destruct call as [|v| |]; cbn [sequence_step]; try apply Hs.
    + destruct v; try apply Hs. destruct (_ || _); [apply Hs|]. destruct (n <? 0); [apply Hs|].
      destruct (_ || _); [apply Hs|]. apply Hsi.
    + destruct (cu <? 0); [apply Hs|]. destruct (n <? 0); [apply Hs|]. destruct (n <=? cu); [apply Hs|].
      destruct (Hsi g k cu) as [E1 E2]. destruct (sub_item_by_index en w g k cu) as [a w2].
      destruct (sub_item_by_index en (set_objects w l) g k cu) as [a' w2']. cbn [fst snd] in *. subst a'.
      destruct a; try (split; [reflexivity|exact E2]). split; [reflexivity|]. cbn [snd].
      destruct E2 as (l2 & -> & E3 & E4). now apply agree_replace.
Qed.

Lemma py_step_grows_length en ev w call i : (i < length (pw_objects w))%nat ->
  (i < length (pw_objects (snd (py_step en ev w call))))%nat.
Proof.
  intros H. destruct (nth_error (pw_objects w) i) as [ob|] eqn:E; [|apply nth_error_None in E; lia].
  destruct (step_object en ev w call i ob E) as (ob' & H' & _). apply nth_error_Some. congruence.
Qed.

Lemma agree_run en j h : forall w w', (j < length (pw_objects w))%nat -> agree_except j w w' -> apart_from j h ->
  fst (py_run en h w') = fst (py_run en h w).
Proof.
  induction h as [|[ev call] h IH]; intros w w' Hj Ha Hh; [reflexivity|]. inversion Hh; subst. cbn [py_run].
  destruct (agree_step en ev j w w' call Hj Ha H1) as [E1 E2].
  pose proof (py_step_grows_length en ev w call j Hj) as Hj'.
  destruct (py_step en ev w call) as [a w1]. destruct (py_step en ev w' call) as [a' w1']. cbn [fst snd] in *. subst a'.
  specialize (IH w1 w1' Hj' E2 H2). destruct (py_run en h w1), (py_run en h w1'). cbn [fst] in *. congruence.
Qed.

(** ** Iterators *)
Lemma run_sequence en j h : forall w g k current n, nth_error (pw_objects w) j = Some (OSequence g k current n) ->
  nth_error (pw_objects (snd (py_run en h w))) j =
  Some (OSequence g k (current + yielded j (combine (map snd h) (fst (py_run en h w)))) n).
Proof.
  induction h as [|[ev call] h IH]; intros w g k current n Ho.
  - cbn. unfold yielded. cbn. rewrite Z.add_0_r. exact Ho.
  - destruct (step_object en ev w call j _ Ho) as (ob' & H1 & H2). cbn [object_kept] in H2. subst ob'. cbn [py_run].
    destruct (py_step en ev w call) as [a w1]. cbn [fst snd] in H1. specialize (IH w1 _ _ _ _ H1).
    destruct (py_run en h w1) as [r w2]. cbn [fst snd map combine] in *. rewrite IH. do 2 f_equal. unfold yielded. cbn [filter].
    destruct (yields j (call, a)); [rewrite zlen_cons|]; lia.
Qed.

Lemma run_item en i h : forall w g c k cursor, nth_error (pw_objects w) i = Some (OItem g c k cursor) ->
  exists cursor', nth_error (pw_objects (snd (py_run en h w))) i = Some (OItem g c k cursor') /\
    (apart_from i h -> cursor' = cursor).
Proof.
  induction h as [|[ev call] h IH]; intros w g c k cursor Ho.
  - exists cursor. auto.
  - destruct (step_object en ev w call i _ Ho) as (ob' & H1 & c1 & -> & H2). cbn [py_run].
    destruct (py_step en ev w call) as [a w1]. cbn [fst snd] in H1. destruct (IH w1 _ _ _ _ H1) as (c2 & H3 & H4).
    destruct (py_run en h w1) as [r w2]. exists c2. split; [exact H3|]. intros Hp. inversion Hp; subst.
    rewrite H4 by assumption. apply H2. assumption.
Qed.

Section Iteration.
Variable en : pyenv.
Hypothesis Hen : pyenv_ok en.

Lemma run_closed h : forall w, pinv en w -> program_bytes h -> no_close (map snd h) ->
  pw_closed (snd (py_run en h w)) = pw_closed w.
Proof.
  induction h as [|[ev call] h IH]; intros w Hi Hb Hn; [reflexivity|]. inversion Hb; inversion Hn; subst. cbn [py_run].
  destruct (py_step_inv en Hen ev w call Hi H1) as (Hi' & _ & Hg & _). destruct (Hg H5) as [E _].
  destruct (py_step en ev w call) as [a w1]. cbn [snd] in *. specialize (IH w1 Hi' H2 H6).
  destruct (py_run en h w1). cbn [snd] in *. congruence.
Qed.

Lemma sub_items_answer ev w p j : fst (py_step en ev w (OnItem p CallSubItems)) = AObject j -> pinv en w ->
  exists c k cursor n, nth_error (pw_objects (snd (py_step en ev w (OnItem p CallSubItems)))) p = Some (OItem (pw_closed w) c k cursor) /\
    nth_error (pw_objects (snd (py_step en ev w (OnItem p CallSubItems)))) j = Some (OSequence (pw_closed w) k 0 n) /\
    pw_closed (snd (py_step en ev w (OnItem p CallSubItems))) = pw_closed w.
Proof.
  intros Ha Hi. cbn [py_step] in *. destruct (nth_error (pw_objects w) p) as [[g c k cursor|g k cu n]|] eqn:Ep; try discriminate Ha.
  unfold item_step_py in *. destruct (live_tree w g) as [[v t]|] eqn:El; [|discriminate Ha].
  destruct (live_tree_inv en w g v t Hi El) as (Hg & _). subst g.
  destruct (node_value t k); try discriminate Ha. destruct (get_number_of_sub_items t k) as [n| | |]; try discriminate Ha.
  cbn in Ha. injection Ha as <-. cbn [fst snd add_object set_objects pw_objects pw_closed]. exists c, k, cursor, n.
  split; [now apply nth_app_same|]. split; [|reflexivity]. rewrite nth_error_app2 by lia. rewrite Nat.sub_diag. reflexivity.
Qed.

Lemma number_answer ev w p c k cursor : pinv en w -> nth_error (pw_objects w) p = Some (OItem (pw_closed w) c k cursor) ->
  forall j m n, nth_error (pw_objects w) j = Some (OSequence (pw_closed w) k m n) ->
  py_step en ev w (OnItem p CallNumberOfSubItems) = (ANumber n, w).
Proof.
  intros Hi Hp j m n Hj.
  destruct (node_live en w _ _ _ _ Hi (proj1 (Forall_forall _ _) (pi_objects _ _ Hi) _ (nth_error_In _ _ Hp)) eq_refl)
    as (v & t & nd & _ & _ & _ & Hl & Hn & Ht & _).
  destruct (sequence_ok en w j _ k m n Hi Hj) as (_ & _ & Hs). destruct (Hs eq_refl) as (t' & nd' & Ht' & Hn' & ->).
  assert (t' = t) by congruence. subst t'. assert (nd' = nd) by congruence. subst nd'.
  cbn [py_step]. rewrite Hp. unfold item_step_py. rewrite Hl. unfold node_value, get_number_of_sub_items, sub_nodes. rewrite Hn. reflexivity.
Qed.

Lemma next_answer ev w p c k cursor j m n : pinv en w ->
  nth_error (pw_objects w) p = Some (OItem (pw_closed w) c k cursor) ->
  nth_error (pw_objects w) j = Some (OSequence (pw_closed w) k m n) ->
  (n <= m -> py_step en ev w (OnSequence j CallNext) = (ARaise StopIteration, w)) /\
  (m < n -> m < 2147483648 ->
   agree_result j (py_step en ev w (OnItem p (CallSubItem (PInt m)))) (py_step en ev w (OnSequence j CallNext))).
Proof.
  intros Hi Hp Hj. destruct (sequence_ok en w j _ k m n Hi Hj) as (_ & Hm & _).
  cbn [py_step]. rewrite Hp, Hj. cbn [sequence_step].
  replace (m <? 0) with false by lia. replace (n <? 0) with false by lia. split; intros H.
  - replace (n <=? m) with true by lia. reflexivity.
  - intros H31. replace (n <=? m) with false by lia. unfold item_step_py. cbn [parse_integer].
    replace ((-2147483648 <=? m) && (m <=? 2147483647)) with true by (symmetry; apply andb_true_iff; lia).
    destruct (sub_index_objects en w (pw_closed w) k m) as (new & E1 & _).
    destruct (sub_item_by_index en w (pw_closed w) k m) as [a w2]. cbn [snd] in E1.
    destruct a; try (split; [reflexivity|apply agree_refl]). split; [reflexivity|]. cbn [snd].
    eexists. split; [reflexivity|]. rewrite replace_nth_length. split; [reflexivity|].
    intros x Hx. apply replace_nth_other. congruence.
Qed.

Lemma index_answer ev w p c k cursor j m n z : pinv en w ->
  nth_error (pw_objects w) p = Some (OItem (pw_closed w) c k cursor) ->
  nth_error (pw_objects w) j = Some (OSequence (pw_closed w) k m n) -> n <= 2147483648 ->
  py_step en ev w (OnSequence j (CallIndex (PInt z))) =
  if (z <? - 2 ^ 63) || (2 ^ 63 <=? z) then (ARaise IndexError, w)
  else if (z <? - n) || (n <=? z) then (ARaise ValueError, w)
  else py_step en ev w (OnItem p (CallSubItem (PInt (if z <? 0 then n + z else z)))).
Proof.
  intros Hi Hp Hj Hn. destruct (sequence_ok en w j _ k m n Hi Hj) as (_ & Hm & _).
  cbn [py_step]. rewrite Hp, Hj. cbn [sequence_step]. change (2 ^ 63) with 9223372036854775808.
  replace (9223372036854775807 <? z) with (9223372036854775808 <=? z).
  2:{ destruct (9223372036854775808 <=? z) eqn:E; symmetry; [apply Z.ltb_lt; apply Z.leb_le in E; lia|apply Z.ltb_ge; apply Z.leb_gt in E; lia]. }
  destruct (_ || _); [reflexivity|]. replace (n <? 0) with false by lia. cbv zeta.
  replace (n + z) with (z + n) by lia.
  assert (Hr : (((if z <? 0 then z + n else z) <? 0) || (n <=? (if z <? 0 then z + n else z))) = ((z <? - n) || (n <=? z))).
  { destruct (z <? 0) eqn:E; [apply Z.ltb_lt in E|apply Z.ltb_ge in E]; apply eq_true_iff_eq; rewrite !orb_true_iff, !Z.ltb_lt, !Z.leb_le; lia. }
  rewrite Hr. destruct ((z <? - n) || (n <=? z)) eqn:E; [reflexivity|]. apply orb_false_iff in Hr as [R1 R2].
  apply Z.ltb_ge in R1. apply Z.leb_gt in R2.
  set (y := if z <? 0 then z + n else z) in *. unfold item_step_py. cbn [parse_integer].
  replace ((-2147483648 <=? y) && (y <=? 2147483647)) with true by (symmetry; apply andb_true_iff; lia).
  replace (s32 y) with y; [reflexivity|]. unfold s32, TWO32, INT_MAX. rewrite Z.mod_small by lia.
  replace (y <=? _) with true by (symmetry; apply Z.leb_le; lia). reflexivity.
Qed.

Section Made.
Variables (h : list (env * pycall)) (s p j t : nat).
Hypothesis Hb : program_bytes h.
Hypothesis Hcall : nth_error (map snd h) s = Some (OnItem p CallSubItems).
Hypothesis Hans : nth_error (fst (py_run en h py_start)) s = Some (AObject j).
Hypothesis Hst : (s < t <= length h)%nat.
Hypothesis Hopen : no_close (firstn (t - S s) (skipn (S s) (map snd h))).
Let before := firstn t (fst (py_run en h py_start)).
Let steps := skipn (S s) (firstn t (combine (map snd h) (fst (py_run en h py_start)))).

Lemma sequence_at : exists c k cursor n,
  let w := snd (py_run en (firstn t h) py_start) in
  pinv en w /\ nth_error (pw_objects w) p = Some (OItem (pw_closed w) c k cursor) /\
  nth_error (pw_objects w) j = Some (OSequence (pw_closed w) k (yielded j steps) n).
Proof.
  destruct (nth_error h s) as [[ev call]|] eqn:Eh.
  2:{ apply nth_error_None in Eh. lia. }
  pose proof (map_nth_error snd _ _ Eh) as Ec. cbn [snd] in Ec. rewrite Hcall in Ec. injection Ec as <-.
  rewrite (py_run_nth en h py_start s ev _ Eh) in Hans. injection Hans as Ha.
  pose proof (py_run_inv en Hen (firstn s h) py_start (program_bytes_firstn h s Hb) (start_inv en)) as Hi.
  destruct (sub_items_answer ev _ p j Ha Hi) as (c & k & cursor & n & H1 & H2 & H3).
  set (w1 := snd (py_step en ev (snd (py_run en (firstn s h) py_start)) (OnItem p CallSubItems))) in *.
  assert (E1 : w1 = snd (py_run en (firstn (S s) h) py_start)).
  { rewrite (firstn_S_nth h s _ Eh), py_run_app, py_run_one. reflexivity. }
  set (seg := firstn (t - S s) (skipn (S s) h)).
  assert (Esplit : firstn t h = firstn (S s) h ++ seg).
  { unfold seg. rewrite <- (firstn_skipn (S s) h) at 1. rewrite firstn_app, firstn_length.
    replace (Nat.min (S s) (length h)) with (S s) by lia. f_equal. rewrite firstn_firstn. f_equal. lia. }
  assert (Hi1 : pinv en w1) by (rewrite E1; apply py_run_inv; auto; [apply program_bytes_firstn; exact Hb|apply start_inv]).
  assert (Hbs : program_bytes seg).
  { unfold program_bytes, seg in *. apply Forall_forall. intros x Hx. apply (proj1 (Forall_forall _ _) Hb).
    rewrite <- (firstn_skipn (S s) h). apply in_or_app. right. rewrite <- (firstn_skipn (t - S s) (skipn (S s) h)).
    apply in_or_app. left. exact Hx. }
  assert (Hns : no_close (map snd seg)).
  { unfold seg. rewrite <- firstn_map, <- skipn_map. exact Hopen. }
  assert (E2 : snd (py_run en (firstn t h) py_start) = snd (py_run en seg w1)).
  { rewrite Esplit, py_run_app. cbn [snd]. rewrite <- E1. reflexivity. }
  destruct (run_item en p seg w1 _ _ _ _ H1) as (cursor' & H4 & _).
  pose proof (run_sequence en j seg w1 _ _ _ _ H2) as H5.
  pose proof (run_closed seg w1 Hi1 Hbs Hns) as H6.
  exists c, k, cursor', n. cbv zeta. rewrite E2. rewrite H6, H3. split; [apply py_run_inv; auto|].
  split; [exact H4|]. rewrite H5. do 2 f_equal. rewrite Z.add_0_l. f_equal.
  unfold steps. rewrite combine_firstn, firstn_map, <- py_run_prefix, Esplit, py_run_app. cbn [fst].
  rewrite <- E1. rewrite map_app.
  assert (El : length (map snd (firstn (S s) h)) = length (fst (py_run en (firstn (S s) h) py_start)))
    by (rewrite map_length, py_run_length; reflexivity).
  assert (Ecomb : forall (a1 a2 : list pycall) (b1 b2 : list reply), length a1 = length b1 ->
    combine (a1 ++ a2) (b1 ++ b2) = combine a1 b1 ++ combine a2 b2).
  { induction a1 as [|x a1 IH]; intros a2 [|y b1] b2 Hl; try discriminate Hl; [reflexivity|]. cbn. f_equal. apply IH. now injection Hl. }
  rewrite Ecomb by exact El. rewrite skipn_app, combine_length, <- El, Nat.min_id, map_length, firstn_length.
  replace (S s - Nat.min (S s) (length h))%nat with 0%nat by lia. rewrite skipn_O.
  rewrite (skipn_all2 (combine _ _)); [reflexivity|]. rewrite combine_length, <- El, Nat.min_id, map_length, firstn_length. lia.
Qed.

Theorem iteration_exact : exists n,
  (forall ev, fst (py_run en (firstn t h ++ [(ev, OnItem p CallNumberOfSubItems)]) py_start) = before ++ [ANumber n]) /\
  (forall ev, fst (py_run en (firstn t h ++ [(ev, OnSequence j CallLength)]) py_start) = before ++ [ANumber n]) /\
  (n <= yielded j steps -> forall ev,
     fst (py_run en (firstn t h ++ [(ev, OnSequence j CallNext)]) py_start) = before ++ [ARaise StopIteration]) /\
  (yielded j steps < n -> yielded j steps < 2 ^ 31 -> forall ev rest, apart_from j rest ->
     fst (py_run en (firstn t h ++ (ev, OnSequence j CallNext) :: rest) py_start) =
     fst (py_run en (firstn t h ++ (ev, OnItem p (CallSubItem (PInt (yielded j steps)))) :: rest) py_start)) /\
  (n <= 2 ^ 31 -> forall ev z rest,
     fst (py_run en (firstn t h ++ (ev, OnSequence j (CallIndex (PInt z))) :: rest) py_start) =
     if (z <? - 2 ^ 63) || (2 ^ 63 <=? z) then before ++ ARaise IndexError :: skipn t (fst (py_run en (firstn t h ++ rest) py_start))
     else if (z <? - n) || (n <=? z) then before ++ ARaise ValueError :: skipn t (fst (py_run en (firstn t h ++ rest) py_start))
     else fst (py_run en (firstn t h ++ (ev, OnItem p (CallSubItem (PInt (if z <? 0 then n + z else z)))) :: rest) py_start)).
Proof.
  destruct sequence_at as (c & k & cursor & n & Hi & Hp & Hj). exists n.
  set (w := snd (py_run en (firstn t h) py_start)) in *.
  assert (Eb : fst (py_run en (firstn t h) py_start) = before) by (apply py_run_prefix).
  split; [|split; [|split; [|split]]].
  - intros ev. rewrite py_run_app, py_run_one. cbn [fst]. fold w. rewrite Eb, (number_answer ev w p c k cursor Hi Hp _ _ _ Hj). reflexivity.
  - intros ev. rewrite py_run_app, py_run_one. cbn [fst]. fold w. rewrite Eb. cbn [py_step]. rewrite Hj. reflexivity.
  - intros Hm ev. rewrite py_run_app, py_run_one. cbn [fst]. fold w. rewrite Eb.
    destruct (next_answer ev w p c k cursor j _ n Hi Hp Hj) as [A _]. rewrite (A Hm). reflexivity.
  - intros Hm H31 ev rest Hrest. rewrite !py_run_app. cbn [fst]. fold w. f_equal. cbn [py_run].
    destruct (next_answer ev w p c k cursor j _ n Hi Hp Hj) as [_ A]. destruct (A Hm H31) as [E1 E2].
    pose proof (py_step_grows_length en ev w (OnItem p (CallSubItem (PInt (yielded j steps)))) j) as Hg.
    destruct (py_step en ev w (OnItem p _)) as [a w1]. destruct (py_step en ev w (OnSequence j CallNext)) as [a' w1'].
    cbn [fst snd] in *. subst a'.
    assert (Hl : (j < length (pw_objects w1))%nat) by (apply Hg; apply nth_error_Some; congruence).
    pose proof (agree_run en j rest w1 w1' Hl E2 Hrest) as E.
    destruct (py_run en rest w1), (py_run en rest w1'). cbn [fst] in *. congruence.
  - intros Hn ev z rest. rewrite !py_run_app. cbn [fst]. fold w. cbn [py_run].
    rewrite (index_answer ev w p c k cursor j _ n z Hi Hp Hj) by (change (2 ^ 31) with 2147483648 in Hn; lia).
    assert (El : length (fst (py_run en (firstn t h) py_start)) = t) by (rewrite py_run_length, firstn_length; lia).
    assert (Esk : skipn t (fst (py_run en (firstn t h) py_start) ++ fst (py_run en rest w)) = fst (py_run en rest w)).
    { rewrite skipn_app, El, Nat.sub_diag, skipn_all2 by lia. reflexivity. }
    rewrite Esk, <- Eb. destruct (_ || _); [destruct (py_run en rest w); reflexivity|].
    destruct (_ || _); [destruct (py_run en rest w); reflexivity|]. reflexivity.
Qed.
End Made.
End Iteration.
