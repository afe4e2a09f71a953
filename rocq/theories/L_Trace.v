(** Lemmas on calls that leave no trace. *)
From Coq Require Import ZArith List Bool Lia.
From Verif Require Import Base M_Header M_Table M_Load M_Stream M_Tree M_Open M_Item M_File M_Prop M_Python M_Items.
From Verif Require Import M_Api Spec_Trace.
Import ListNotations.
Open Scope Z_scope.

(** ** The flag *)
Definition calm (x : fstate) : fstate :=
  {| fs_io := {| io_major := io_major (fs_io x); io_minor := io_minor (fs_io x); io_sector_size := io_sector_size (fs_io x);
                 io_short_sector_size := io_short_sector_size (fs_io x); io_minimum_size := io_minimum_size (fs_io x);
                 io_byte_order := io_byte_order (fs_io x); io_start := io_start (fs_io x); io_codepage := io_codepage (fs_io x);
                 io_abort := 0 |};
     fs_handle := fs_handle x; fs_created := fs_created x; fs_opened := fs_opened x; fs_data := fs_data x |}.

Definition calm_io (i : io_state) : io_state :=
  {| io_major := io_major i; io_minor := io_minor i; io_sector_size := io_sector_size i;
     io_short_sector_size := io_short_sector_size i; io_minimum_size := io_minimum_size i;
     io_byte_order := io_byte_order i; io_start := io_start i; io_codepage := io_codepage i; io_abort := 0 |}.

Lemma calm_abort x : calm (file_signal_abort x) = calm x.
Proof. reflexivity. Qed.

Lemma calm_open_read u rd i old :
  file_open_read u rd (calm_io i) old = (fst (file_open_read u rd i old), calm_io (snd (file_open_read u rd i old))).
Proof.
  unfold file_open_read. destruct old; [reflexivity|]. destruct ((dio _ <- _; _) _) as [[[h m1]| | |] t1]; try reflexivity.
  destruct (open_lists rd h m1 t1) as [[[[[a b] c] l]| | |] t2]; try reflexivity.
  destruct (stored_start l), (create_tree u (fh_byte_order h) l); reflexivity.
Qed.

Lemma calm_open_handle u ev w x h flags :
  let '(r, x', w') := file_open_handle u ev w x h flags in file_open_handle u ev w (calm x) h flags = (r, calm x', w').
Proof.
  unfold file_open_handle. cbn [calm fs_handle fs_io fs_opened fs_data fs_created].
  destruct (fs_handle x); [reflexivity|]. destruct (_ && _); [reflexivity|]. destruct (flag_write flags); [reflexivity|].
  destruct (negb (ev_is_open ev)); [reflexivity|]. destruct (_ && _); [destruct (fs_opened x); reflexivity|].
  change {| io_major := io_major (fs_io x); io_minor := io_minor (fs_io x); io_sector_size := io_sector_size (fs_io x);
            io_short_sector_size := io_short_sector_size (fs_io x); io_minimum_size := io_minimum_size (fs_io x);
            io_byte_order := io_byte_order (fs_io x); io_start := io_start (fs_io x); io_codepage := io_codepage (fs_io x);
            io_abort := 0 |} with (calm_io (fs_io x)).
  rewrite calm_open_read. destruct (file_open_read u (ev_reader ev) (fs_io x) (fs_data x)) as [[fd| | |] io1]; cbn [fst snd]; try reflexivity.
  destruct (_ && _); reflexivity.
Qed.

Lemma calm_close ev w x :
  let '(r, x', w') := file_close ev w x in file_close ev w (calm x) = (r, calm x', w').
Proof. unfold file_close. cbn [calm fs_handle fs_opened fs_created]. destruct (fs_handle x); reflexivity. Qed.

Lemma calm_free ev w x : file_free ev w (calm x) = file_free ev w x.
Proof. unfold file_free, file_close. cbn [calm fs_handle fs_opened fs_created]. destruct (fs_handle x); reflexivity. Qed.

Lemma calm_step u ev op x w : op <> FSignalAbort ->
  let '(r, x', w') := file_step u ev op x w in file_step u ev op (calm x) w = (r, calm x', w').
Proof.
  intros Hop. destruct op; cbn [file_step]; try reflexivity; try congruence.
  - unfold file_open. set (w1 := {| w_open := w_open w; w_own := w_own w + 1 |}).
    pose proof (calm_open_handle u ev w1 x Own flags) as H.
    destruct (file_open_handle u ev w1 x Own flags) as [[r x'] w']. rewrite H. destruct r as [[]| | |]; reflexivity.
  - pose proof (calm_open_handle u ev w x (User n) flags) as H. destruct (file_open_handle u ev w x (User n) flags) as [[r x'] w']. now rewrite H.
  - pose proof (calm_close ev w x) as H. destruct (file_close ev w x) as [[r x'] w']. now rewrite H.
  - unfold file_set_codepage. destruct (existsb _ _); reflexivity.
  - change (file_tree (calm x)) with (file_tree x). destruct (file_tree x); reflexivity.
  - change (file_tree (calm x)) with (file_tree x). destruct (file_tree x); reflexivity.
  - change (file_tree (calm x)) with (file_tree x). change (file_volume (calm x)) with (file_volume x).
    destruct (file_tree x), (file_volume x); try reflexivity. destruct (node_value _ _); try reflexivity. destruct (item_step _ _ _ _ _); reflexivity.
Qed.

(** ** C programs *)
Definition calm_files (l : heap (fstate * option nat)) : heap (fstate * option nat) :=
  map (option_map (fun p => (calm (fst p), snd p))) l.
Definition calm_memory (m : memory) : memory := set_files m (calm_files (m_files m)).
Definition calm_state (s : cstate) : cstate := with_memory s (calm_memory (cs_memory s)).

Lemma calm_cell l a : cell (calm_files l) a = option_map (fun p => (calm (fst p), snd p)) (cell l a).
Proof. unfold cell, calm_files. rewrite nth_error_map. destruct (nth_error l a) as [[p|]|]; reflexivity. Qed.
Lemma calm_put l a c : calm_files (put l a c) = put (calm_files l) a (option_map (fun p => (calm (fst p), snd p)) c).
Proof. revert a. induction l as [|x l IH]; intros [|a]; cbn; try reflexivity. f_equal. apply IH. Qed.
Lemma calm_length l : length (calm_files l) = length l.
Proof. apply map_length. Qed.
Lemma put_same {A} (l : heap A) a c : cell l a = Some c -> put l a (Some c) = l.
Proof.
  revert a. induction l as [|x l IH]; intros [|a]; cbn; intros H; try reflexivity.
  - unfold cell in H. cbn in H. now subst.
  - f_equal. apply IH. exact H.
Qed.

(** Two states that differ in the flag give the same answers. *)
Definition calm_run (r : answer * cstate) : answer * cstate := (fst r, calm_state (snd r)).
Definition signals (c : call) : bool := match c with FileCall _ QSignalAbort => true | _ => false end.

Lemma on_file_calm s f k k' :
  (forall a x t, cell (m_files (cs_memory s)) a = Some (x, t) -> k' a (calm x) t = calm_run (k a x t)) ->
  on_file (calm_state s) f k' = calm_run (on_file s f k).
Proof.
  intros H. unfold on_file. cbn [calm_state with_memory cs_files cs_memory]. destruct (cs_files s f) as [a|]; [|reflexivity].
  cbn [calm_memory set_files m_files]. rewrite calm_cell. destruct (cell (m_files (cs_memory s)) a) as [[x t]|] eqn:E; [|reflexivity].
  exact (H a x t E).
Qed.
Lemma on_item_calm s i k k' : (forall a it, k' a it = calm_run (k a it)) -> on_item (calm_state s) i k' = calm_run (on_item s i k).
Proof.
  intros H. unfold on_item. cbn [calm_state with_memory cs_items cs_memory calm_memory set_files m_items].
  destruct (cs_items s i) as [a|]; [|reflexivity]. destruct (cell (m_items (cs_memory s)) a) as [it|]; [apply H|reflexivity].
Qed.
Lemma order_calm s it : order_in (calm_memory (cs_memory s)) it = order_in (cs_memory s) it.
Proof. unfold order_in, calm_memory. cbn [m_files set_files]. rewrite calm_cell. destruct (cell _ _) as [[x t]|]; reflexivity. Qed.
Lemma stream_calm s it : stream_in (calm_memory (cs_memory s)) it = stream_in (cs_memory s) it.
Proof.
  unfold stream_in. change (entry_in (calm_memory (cs_memory s)) it) with (entry_in (cs_memory s) it).
  destruct (entry_in _ it); try reflexivity. unfold calm_memory. cbn [m_files set_files]. rewrite calm_cell. destruct (cell _ _) as [[x t]|]; reflexivity.
Qed.
Lemma value_calm lib s it q : item_value lib (calm_memory (cs_memory s)) it q = item_value lib (cs_memory s) it q.
Proof. unfold item_value. rewrite order_calm. reflexivity. Qed.
Lemma found_calm lib s it l : sub_found lib (calm_memory (cs_memory s)) it l = sub_found lib (cs_memory s) it l.
Proof. unfold sub_found. rewrite order_calm. reflexivity. Qed.
Lemma new_item_calm ce f t j r s : new_item ce f t j r (calm_state s) = calm_run (new_item ce f t j r s).
Proof.
  unfold new_item. destruct r as [[k|]| | |]; try reflexivity. destruct (ce_memory ce); [|reflexivity].
  change (tree_in (cs_memory (calm_state s)) t) with (tree_in (cs_memory s) t). destruct (node_value _ _); reflexivity.
Qed.

Lemma put_file_calm m a x t : calm_memory (put_file m a (x, t)) = put_file (calm_memory m) a (calm x, t).
Proof. unfold put_file, calm_memory. cbn [set_files m_files]. rewrite calm_put. reflexivity. Qed.

Lemma c_step_calm lib ce c s : signals c = false -> c_step lib ce c (calm_state s) = calm_run (c_step lib ce c s).
Proof.
  intros Hc. destruct c; cbn [c_step].
  - (* FileInitialize *)
    unfold file_initialize. cbn [calm_state with_memory cs_files cs_memory]. destruct (cs_files s f); [reflexivity|].
    destruct (ce_memory ce); [|reflexivity]. unfold calm_run, calm_state, calm_memory. cbn -[calm_files]. unfold calm_files. rewrite map_app, map_length. reflexivity.
  - (* FileFree *)
    unfold c_file_free. cbn [calm_state with_memory cs_files cs_memory]. destruct (cs_files s f) as [a|]; [|reflexivity].
    cbn [calm_memory set_files m_files]. rewrite calm_cell. destruct (cell (m_files (cs_memory s)) a) as [[x t]|]; [|reflexivity].
    cbn [option_map fst snd]. rewrite calm_free. cbn [cs_world]. destruct (file_free _ _ _) as [r w']. cbn [fs_handle calm].
    unfold calm_run. cbn [fst snd]. f_equal. unfold calm_state, calm_memory, with_world, with_file, with_memory, set_files, tree_free, set_trees.
    destruct (fs_handle x), t; cbn -[calm_files]; rewrite calm_put; reflexivity.
  - (* FileOpen *)
    unfold file_opening. apply on_file_calm. intros a x t E.
    pose proof (calm_step (cl_una lib) (ce_io ce) (FOpen flags) x (cs_world s) ltac:(discriminate)) as H.
    change (cs_world (calm_state s)) with (cs_world s).
    destruct (file_step _ _ _ x _) as [[r x'] w']. rewrite H. change (file_tree (calm x')) with (file_tree x').
    destruct r; try (unfold calm_run, calm_state, with_world, with_memory; cbn [fst snd cs_memory cs_world]; rewrite put_file_calm; reflexivity).
    destruct (file_tree x'); unfold calm_run, calm_state, with_world, with_memory; cbn -[calm_memory put_file]; [|rewrite put_file_calm; reflexivity].
    unfold put_file, calm_memory, set_trees, set_files. cbn -[calm_files]. rewrite calm_put. reflexivity.
  - (* FileOpenHandle *)
    unfold file_opening. apply on_file_calm. intros a x t E.
    pose proof (calm_step (cl_una lib) (ce_io ce) (FOpenHandle n flags) x (cs_world s) ltac:(discriminate)) as H.
    change (cs_world (calm_state s)) with (cs_world s).
    destruct (file_step _ _ _ x _) as [[r x'] w']. rewrite H. change (file_tree (calm x')) with (file_tree x').
    destruct r; try (unfold calm_run, calm_state, with_world, with_memory; cbn [fst snd cs_memory cs_world]; rewrite put_file_calm; reflexivity).
    destruct (file_tree x'); unfold calm_run, calm_state, with_world, with_memory; cbn -[calm_memory put_file]; [|rewrite put_file_calm; reflexivity].
    unfold put_file, calm_memory, set_trees, set_files. cbn -[calm_files]. rewrite calm_put. reflexivity.
  - (* FileClose *)
    unfold c_file_close. apply on_file_calm. intros a x t E.
    pose proof (calm_step (cl_una lib) (ce_io ce) FClose x (cs_world s) ltac:(discriminate)) as H.
    change (cs_world (calm_state s)) with (cs_world s).
    destruct (file_step _ _ _ x _) as [[r x'] w']. rewrite H. cbn [fs_handle calm]. destruct (fs_handle x); [|reflexivity].
    unfold calm_run, calm_state, with_world, with_memory. cbn [fst snd cs_memory cs_world]. rewrite put_file_calm. destruct t; reflexivity.
  - (* FileCall *)
    unfold file_call. apply on_file_calm. intros a x t E. destruct (query_op q) as [op|] eqn:Q; [|reflexivity].
    assert (Hop : op <> FSignalAbort) by (intros ->; destruct q; discriminate).
    pose proof (calm_step (cl_una lib) (ce_io ce) op x (cs_world s) Hop) as H.
    change (cs_world (calm_state s)) with (cs_world s).
    destruct (file_step _ _ _ x _) as [[r x'] w']. rewrite H. unfold calm_run, calm_state, with_memory. cbn [fst snd cs_memory]. rewrite put_file_calm. reflexivity.
  - unfold file_item. apply on_file_calm. intros a x t E. change (cs_items (calm_state s) i) with (cs_items s i). destruct (cs_items s i); [reflexivity|].
    apply new_item_calm.
  - unfold file_item. apply on_file_calm. intros a x t E. change (cs_items (calm_state s) i) with (cs_items s i). destruct (cs_items s i); [reflexivity|].
    apply new_item_calm.
  - unfold file_item. apply on_file_calm. intros a x t E. change (cs_items (calm_state s) i) with (cs_items s i). destruct (cs_items s i); [reflexivity|].
    apply new_item_calm.
  - unfold item_free. change (cs_items (calm_state s) i) with (cs_items s i). destruct (cs_items s i) as [a|]; [|reflexivity].
    change (m_items (cs_memory (calm_state s))) with (m_items (cs_memory s)). destruct (cell _ a); reflexivity.
  - apply on_item_calm. intros a it. cbn [calm_state with_memory cs_memory]. rewrite value_calm. reflexivity.
  - unfold item_sub. apply on_item_calm. intros a it. change (cs_items (calm_state s) j) with (cs_items s j). destruct (cs_items s j); [reflexivity|].
    cbn [calm_state with_memory cs_memory]. rewrite found_calm. apply new_item_calm.
  - unfold item_stream. apply on_item_calm. intros a it. cbn [calm_state with_memory cs_memory]. rewrite stream_calm.
    destruct (stream_in _ it) as [[[d v] cp]|]; [|reflexivity]. destruct (item_step _ _ _ _ _); reflexivity.
  - unfold item_set. apply on_item_calm. intros a it. change (cs_sets (calm_state s) x) with (cs_sets s x). destruct (cs_sets s x); [reflexivity|].
    destruct (negb _); [reflexivity|]. cbn [calm_state with_memory cs_memory]. rewrite stream_calm.
    destruct (stream_in _ it) as [[[d v] cp]|]; [|reflexivity]. destruct (fst _) as [[y c]| | |]; reflexivity.
  - unfold c_set_free. change (cs_sets (calm_state s) x) with (cs_sets s x). destruct (cs_sets s x) as [a|]; [|reflexivity].
    change (m_sets (cs_memory (calm_state s))) with (m_sets (cs_memory s)). destruct (cell _ a); reflexivity.
  - unfold on_set. change (cs_sets (calm_state s) x) with (cs_sets s x). destruct (cs_sets s x) as [a|]; [|reflexivity].
    change (m_sets (cs_memory (calm_state s))) with (m_sets (cs_memory s)). destruct (cell _ a); reflexivity.
  - unfold on_set. change (cs_sets (calm_state s) x) with (cs_sets s x). destruct (cs_sets s x) as [a|]; [|reflexivity].
    change (m_sets (cs_memory (calm_state s))) with (m_sets (cs_memory s)). destruct (cell _ a); reflexivity.
  - unfold set_section, on_set. change (cs_sets (calm_state s) x) with (cs_sets s x). destruct (cs_sets s x) as [a|]; [|reflexivity].
    change (m_sets (cs_memory (calm_state s))) with (m_sets (cs_memory s)). destruct (cell _ a); [|reflexivity].
    change (cs_sections (calm_state s) c) with (cs_sections s c). destruct (cs_sections s c); [reflexivity|]. destruct (get_section _ _); reflexivity.
  - reflexivity.
  - change (cs_sections (calm_state s) c) with (cs_sections s c). destruct (cs_sections s c) as [p|]; [|reflexivity]. destruct (size <? 16); [reflexivity|].
    change (section_in (cs_memory (calm_state s)) p) with (section_in (cs_memory s) p). destruct (section_in _ p); reflexivity.
  - unfold on_section. change (cs_sections (calm_state s) c) with (cs_sections s c). destruct (cs_sections s c) as [p|]; [|reflexivity].
    change (section_in (cs_memory (calm_state s)) p) with (section_in (cs_memory s) p). destruct (section_in _ p); reflexivity.
  - unfold section_value. change (cs_sections (calm_state s) c) with (cs_sections s c). destruct (cs_sections s c) as [p|]; [|reflexivity].
    change (cs_values (calm_state s) v) with (cs_values s v). destruct (cs_values s v); [reflexivity|].
    change (section_in (cs_memory (calm_state s)) p) with (section_in (cs_memory s) p). destruct (section_in _ p); [|reflexivity]. destruct (get_property _ _); reflexivity.
  - reflexivity.
  - change (cs_values (calm_state s) v) with (cs_values s v). destruct (cs_values s v) as [p|]; [|reflexivity].
    change (value_in (cs_memory (calm_state s)) p) with (value_in (cs_memory s) p). destruct (value_in _ p); reflexivity.
  - reflexivity.
  - reflexivity.
Qed.

Lemma c_step_signal lib ce c s : signals c = true ->
  fst (c_step lib ce c (calm_state s)) = fst (c_step lib ce c s) /\ calm_state (snd (c_step lib ce c (calm_state s))) = calm_state s /\
  calm_state (snd (c_step lib ce c s)) = calm_state s.
Proof.
  intros Hc. destruct c; try discriminate. destruct q; try discriminate. clear Hc.
  assert (G : forall s, fst (c_step lib ce (FileCall f QSignalAbort) s) =
      match cs_files s f with None => CError | Some a => match cell (m_files (cs_memory s)) a with Some _ => CDone | None => CUndefined end end /\
      calm_state (snd (c_step lib ce (FileCall f QSignalAbort) s)) = calm_state s).
  { clear s. intros s. cbn [c_step]. unfold file_call, on_file. destruct (cs_files s f) as [a|]; [|auto].
    destruct (cell (m_files (cs_memory s)) a) as [[x t]|] eqn:E; [|auto]. cbn [query_op file_step fst snd]. split; [reflexivity|].
    unfold calm_state, with_memory. cbn [cs_memory]. rewrite put_file_calm, calm_abort. unfold put_file.
    rewrite put_same; [reflexivity|]. unfold calm_memory. cbn [set_files m_files]. rewrite calm_cell, E. reflexivity. }
  destruct (G s) as (G1 & G2), (G (calm_state s)) as (G3 & G4). rewrite G3, G1, G2, G4. split.
  - cbn [calm_state with_memory cs_files cs_memory calm_memory set_files m_files]. destruct (cs_files s f) as [a|]; [|reflexivity].
    rewrite calm_cell. destruct (cell _ a); reflexivity.
  - split; [|reflexivity]. unfold calm_state, with_memory, calm_memory, set_files. cbn -[calm_files]. unfold calm_files. rewrite map_map.
    do 2 f_equal. apply map_ext. intros [[x t]|]; reflexivity.
Qed.

Lemma calm_twice s : calm_state (calm_state s) = calm_state s.
Proof.
  unfold calm_state, with_memory, calm_memory, set_files. cbn -[calm_files]. unfold calm_files. rewrite map_map.
  do 2 f_equal. apply map_ext. intros [[x t]|]; reflexivity.
Qed.

(** States that differ in the flag only. *)
Lemma c_step_alike lib ce c s s' : calm_state s = calm_state s' ->
  fst (c_step lib ce c s) = fst (c_step lib ce c s') /\ calm_state (snd (c_step lib ce c s)) = calm_state (snd (c_step lib ce c s')).
Proof.
  intros H. destruct (signals c) eqn:Hc.
  - destruct (c_step_signal lib ce c s Hc) as (A1 & _ & A3), (c_step_signal lib ce c s' Hc) as (B1 & _ & B3). rewrite <- A1, <- B1, H, A3, B3. auto.
  - pose proof (c_step_calm lib ce c s Hc) as A. pose proof (c_step_calm lib ce c s' Hc) as B. rewrite H in A. rewrite A in B.
    unfold calm_run in B. apply pair_equal_spec in B as (B1 & B2). auto.
Qed.

Lemma move_same s a it : cell (m_items (cs_memory s)) a = Some it -> with_memory s (move_item (cs_memory s) a it (ci_cursor it)) = s.
Proof.
  intros H. unfold move_item. rewrite put_same by (destruct it; exact H). unfold set_items, with_memory. destruct s as [[] ? ? ? ? ? ?]. reflexivity.
Qed.
Lemma put_file_same s a x t : cell (m_files (cs_memory s)) a = Some (x, t) -> with_memory s (put_file (cs_memory s) a (x, t)) = s.
Proof.
  intros H. unfold put_file. rewrite put_same by exact H. unfold set_files, with_memory. destruct s as [[] ? ? ? ? ? ?]. reflexivity.
Qed.

Lemma traceless_step lib ce c s : c_traceless c (fst (c_step lib ce c s)) = true -> calm_state (snd (c_step lib ce c s)) = calm_state s.
Proof.
  destruct (signals c) eqn:Hs; [intros _; apply (c_step_signal lib ce c s Hs)|].
  intros H. f_equal. unfold c_traceless in H. destruct (c_asks c) eqn:Ha.
  - clear H. destruct c; try discriminate Ha; cbn [c_step].
    + unfold file_call, on_file. destruct (cs_files s f) as [a|]; [|reflexivity]. destruct (cell _ a) as [[x t]|] eqn:E; [|reflexivity].
      destruct q; try discriminate; cbn [query_op file_step snd]; try apply put_file_same; try exact E; reflexivity.
    + unfold on_item. destruct (cs_items s i) as [a|]; [|reflexivity]. destruct (cell _ a); reflexivity.
    + destruct op; try discriminate. unfold item_stream, on_item. destruct (cs_items s i) as [a|]; [|reflexivity]. destruct (cell _ a) as [it|] eqn:E; [|reflexivity].
      destruct (stream_in _ it) as [[[d v] cp]|]; [|reflexivity]. cbn [item_step]. destruct (stream_get_offset _ _); cbn [snd]; apply move_same, E.
    + unfold on_set. destruct (cs_sets s x) as [a|]; [|reflexivity]. destruct (cell _ a); reflexivity.
    + unfold on_set. destruct (cs_sets s x) as [a|]; [|reflexivity]. destruct (cell _ a); reflexivity.
    + destruct (cs_sections s c) as [p|]; [|reflexivity]. destruct (size <? 16); [reflexivity|]. destruct (section_in _ p); reflexivity.
    + unfold on_section. destruct (cs_sections s c) as [p|]; [|reflexivity]. destruct (section_in _ p); reflexivity.
    + destruct (cs_values s v) as [p|]; [|reflexivity]. destruct (value_in _ p); reflexivity.
  - cbn [orb] in H. apply andb_true_iff in H as (H1 & H2).
    assert (N : forall f t j r, match fst (new_item ce f t j r s) with CError | CNothing => true | _ => false end = true -> snd (new_item ce f t j r s) = s).
    { intros f t j r. unfold new_item. destruct r as [[k|]| | |]; try reflexivity. destruct (ce_memory ce); [|reflexivity].
      destruct (node_value _ _); try reflexivity. discriminate. }
    destruct c; try discriminate H1; cbn [c_step] in *.
    + unfold file_initialize in *. destruct (cs_files s f); [reflexivity|]. destruct (ce_memory ce); [discriminate|reflexivity].
    + unfold file_call, on_file in *. destruct (cs_files s f) as [a|]; [|reflexivity]. destruct (cell _ a) as [[x t]|] eqn:E; [|reflexivity].
      destruct q; try discriminate. cbn [query_op file_step] in *. unfold file_set_codepage in *. destruct (existsb _ _); [discriminate|]. cbn [snd] in *.
      apply put_file_same, E.
    + unfold file_item, on_file in *. destruct (cs_files s f) as [a|]; [|reflexivity]. destruct (cell _ a) as [[x t]|]; [|reflexivity].
      destruct (cs_items s i); [reflexivity|]. apply N, H2.
    + unfold file_item, on_file in *. destruct (cs_files s f) as [a|]; [|reflexivity]. destruct (cell _ a) as [[x t]|]; [|reflexivity].
      destruct (cs_items s i); [reflexivity|]. apply N, H2.
    + unfold file_item, on_file in *. destruct (cs_files s f) as [a|]; [|reflexivity]. destruct (cell _ a) as [[x t]|]; [|reflexivity].
      destruct (cs_items s i); [reflexivity|]. apply N, H2.
    + unfold item_sub, on_item in *. destruct (cs_items s i) as [a|]; [|reflexivity]. destruct (cell _ a) as [it|]; [|reflexivity].
      destruct (cs_items s j); [reflexivity|]. apply N, H2.
    + unfold item_stream, on_item in *. destruct (cs_items s i) as [a|]; [|reflexivity]. destruct (cell _ a) as [it|] eqn:E; [|reflexivity].
      destruct (stream_in _ it) as [[[d v] cp]|]; [|reflexivity]. destruct op; try discriminate; cbn [item_step] in *.
      * destruct (stream_read_buffer _ _ _ _ _ _ _) as [[[l c]| | |] t]; try discriminate; cbn [snd]; apply move_same, E.
      * destruct (stream_seek_offset _ _ _ _); try discriminate; cbn [snd]; apply move_same, E.
    + unfold set_section, on_set in *. destruct (cs_sets s x) as [a|]; [|reflexivity]. destruct (cell _ a) as [y|]; [|reflexivity].
      destruct (cs_sections s c); [reflexivity|]. destruct (get_section _ _); try discriminate; reflexivity.
    + unfold section_value in *. destruct (cs_sections s c) as [p|]; [|reflexivity]. destruct (cs_values s v); [reflexivity|].
      destruct (section_in _ p); [|reflexivity]. destruct (get_property _ _); try discriminate; reflexivity.
Qed.

(** Whole programs. *)
Lemma c_run_app lib h1 : forall h2 s, c_run lib (h1 ++ h2) s =
  (fst (c_run lib h1 s) ++ fst (c_run lib h2 (snd (c_run lib h1 s))), snd (c_run lib h2 (snd (c_run lib h1 s)))).
Proof.
  induction h1 as [|[ce c] h1 IH]; intros h2 s; cbn [c_run List.app fst snd]; [apply surjective_pairing|].
  destruct (c_step lib ce c s) as [a s1]. rewrite IH. destruct (c_run lib h1 s1). reflexivity.
Qed.
Lemma c_run_length lib h : forall s, length (fst (c_run lib h s)) = length h.
Proof.
  induction h as [|[ce c] h IH]; intros s; cbn [c_run]; [reflexivity|]. destruct (c_step lib ce c s) as [a s1]. specialize (IH s1).
  destruct (c_run lib h s1). cbn in *. congruence.
Qed.

Lemma c_kept_alike lib h : forall s s', calm_state s = calm_state s' ->
  calm_state (snd (c_run lib h s)) = calm_state (snd (c_run lib (c_kept h (fst (c_run lib h s))) s')).
Proof.
  induction h as [|[ce c] h IH]; intros s s' H; [exact H|]. cbn [c_run].
  pose proof (traceless_step lib ce c s) as T. destruct (c_step_alike lib ce c s s' H) as (A1 & A2).
  destruct (c_step lib ce c s) as [a s1]. cbn [fst snd] in *. specialize (IH s1). destruct (c_run lib h s1) as [r s2] eqn:E. cbn [fst snd c_kept] in *.
  destruct (c_traceless c a) eqn:K.
  - apply IH. rewrite (T eq_refl). exact H.
  - cbn [c_run]. destruct (c_step lib ce c s') as [a' s1']. cbn [fst snd] in *. specialize (IH s1' A2). destruct (c_run lib (c_kept h r) s1'). exact IH.
Qed.

Lemma c_traceless_ok lib h ce c h' :
  let k := c_kept h (fst (c_run lib h c_start)) in
  nth_error (fst (c_run lib (h ++ (ce, c) :: h') c_start)) (length h) = nth_error (fst (c_run lib (k ++ [(ce, c)]) c_start)) (length k).
Proof.
  cbv zeta. set (k := c_kept h (fst (c_run lib h c_start))). rewrite !c_run_app. cbn [fst].
  rewrite !nth_error_app2 by (rewrite c_run_length; lia). rewrite !c_run_length, !Nat.sub_diag. cbn [c_run].
  destruct (c_step_alike lib ce c (snd (c_run lib h c_start)) (snd (c_run lib k c_start))) as (A & _); [apply c_kept_alike; reflexivity|].
  destruct (c_step lib ce c (snd (c_run lib h c_start))) as [a s1], (c_step lib ce c (snd (c_run lib k c_start))) as [a' s1'].
  cbn [fst] in A. subst a'. destruct (c_run lib h' s1). reflexivity.
Qed.

(** ** Python programs *)
Definition calm_py (w : pyworld) : pyworld := set_file w (calm (pw_state w)) (pw_world w).
Definition calm_reply (r : reply * pyworld) : reply * pyworld := (fst r, calm_py (snd r)).

Lemma live_calm w g : live_tree (calm_py w) g = live_tree w g.
Proof. reflexivity. Qed.
Lemma new_sub_calm en w v t k : new_sub_item en (calm_py w) v t k = calm_reply (new_sub_item en w v t k).
Proof. unfold new_sub_item. destruct (node_value t k); try reflexivity. destruct (item_type_object _ _ _); reflexivity. Qed.
Lemma by_index_calm en w g k i : sub_item_by_index en (calm_py w) g k i = calm_reply (sub_item_by_index en w g k i).
Proof.
  unfold sub_item_by_index. rewrite live_calm. destruct (live_tree w g) as [[v t]|]; [|reflexivity].
  destruct (get_sub_item t k i); try reflexivity. apply new_sub_calm.
Qed.
Lemma found_item_calm en w v t r : found_item en (calm_py w) v t r = calm_reply (found_item en w v t r).
Proof. unfold found_item. destruct r as [[j|]| | |]; try reflexivity. apply new_sub_calm. Qed.
Lemma new_file_item_calm w r : new_file_item (calm_py w) r = calm_reply (new_file_item w r).
Proof.
  unfold new_file_item. destruct r as [[k|]| | |]; try reflexivity. change (file_tree (pw_state (calm_py w))) with (file_tree (pw_state w)).
  destruct (file_tree _); [|reflexivity]. destruct (node_value _ _); reflexivity.
Qed.

Lemma item_step_calm en rd w i g c k cu call :
  item_step_py en rd (calm_py w) i g c k cu call = calm_reply (item_step_py en rd w i g c k cu call).
Proof.
  unfold item_step_py. rewrite live_calm.
  destruct call; try reflexivity;
    try (destruct (parse_integer _ _ _); [reflexivity|apply by_index_calm]);
    destruct (live_tree w g) as [[v t]|]; try reflexivity;
    try (destruct (node_value t k); try reflexivity);
    try (destruct (pe_text _ _ _); try reflexivity; destruct (pe_decodes _ _); reflexivity);
    try (destruct (get_number_of_sub_items t k); reflexivity);
    try (destruct (parse_string _); [reflexivity|first [apply found_item_calm|reflexivity]]);
    destruct c; try reflexivity; destruct (py_stream_step _ _ _ _ _ _); reflexivity.
Qed.
Lemma sequence_step_calm en w i g k cu n call :
  sequence_step en (calm_py w) i g k cu n call = calm_reply (sequence_step en w i g k cu n call).
Proof.
  unfold sequence_step. destruct call; try reflexivity.
  - destruct v; try reflexivity. destruct (_ || _); [reflexivity|]. cbv zeta. destruct (n <? 0); [reflexivity|]. destruct (_ || _); [reflexivity|]. apply by_index_calm.
  - destruct (cu <? 0); [reflexivity|]. destruct (n <? 0); [reflexivity|]. destruct (n <=? cu); [reflexivity|]. rewrite by_index_calm.
    destruct (sub_item_by_index en w g k cu) as [[] w']; reflexivity.
Qed.

Lemma calm_open u ev w x flags :
  let '(r, x', w') := file_open u ev w x flags in file_open u ev w (calm x) flags = (r, calm x', w').
Proof.
  unfold file_open. set (w1 := {| w_open := w_open w; w_own := w_own w + 1 |}).
  pose proof (calm_open_handle u ev w1 x Own flags) as H.
  destruct (file_open_handle u ev w1 x Own flags) as [[r x'] w']. rewrite H. destruct r as [[]| | |]; reflexivity.
Qed.

Lemma py_step_calm en ev w c : c <> CallSignalAbort -> py_step en ev (calm_py w) c = calm_reply (py_step en ev w c).
Proof.
  intros Hc. destruct c; cbn [py_step]; try congruence; try reflexivity.
  - destruct (mode_accepted mode); [|reflexivity]. pose proof (calm_open (pe_una en) ev (pw_world w) (pw_state w) 1) as H.
    change (pw_world (calm_py w)) with (pw_world w). change (pw_state (calm_py w)) with (calm (pw_state w)).
    destruct (file_open _ _ _ (pw_state w) _) as [[r s'] w']. rewrite H. reflexivity.
  - destruct (mode_accepted mode); [|reflexivity]. change (pw_handle (calm_py w)) with (pw_handle w). destruct (pw_handle w); [reflexivity|]. cbv zeta.
    pose proof (calm_open_handle (pe_una en) ev (set_open (pw_world w) (pw_next w) true) (pw_state w) (User (pw_next w)) 1) as H.
    change (pw_world (calm_py w)) with (pw_world w). change (pw_state (calm_py w)) with (calm (pw_state w)). change (pw_next (calm_py w)) with (pw_next w).
    destruct (file_open_handle _ _ _ (pw_state w) _ _) as [[r s'] w']. rewrite H. reflexivity.
  - pose proof (calm_close ev (pw_world w) (pw_state w)) as H.
    change (pw_world (calm_py w)) with (pw_world w). change (pw_state (calm_py w)) with (calm (pw_state w)).
    destruct (file_close ev (pw_world w) (pw_state w)) as [[r s'] w']. rewrite H. reflexivity.
  - destruct (parse_string name); [reflexivity|]. destruct (pe_codepage en l); [|reflexivity]. unfold file_set_codepage. destruct (existsb _ _); reflexivity.
  - apply new_file_item_calm.
  - destruct (parse_string path); [reflexivity|]. apply new_file_item_calm.
  - change (pw_objects (calm_py w)) with (pw_objects w). destruct (nth_error (pw_objects w) i) as [[g cl k cu|]|]; try reflexivity. apply item_step_calm.
  - change (pw_objects (calm_py w)) with (pw_objects w). destruct (nth_error (pw_objects w) i) as [[|g k cu n]|]; try reflexivity. apply sequence_step_calm.
Qed.

Lemma py_step_alike en ev c w w' : calm_py w = calm_py w' ->
  fst (py_step en ev w c) = fst (py_step en ev w' c) /\ calm_py (snd (py_step en ev w c)) = calm_py (snd (py_step en ev w' c)).
Proof.
  intros H. assert (D : c = CallSignalAbort \/ c <> CallSignalAbort) by (destruct c; auto; right; discriminate).
  destruct D as [->|Hc]; [split; [reflexivity|exact H]|].
  pose proof (py_step_calm en ev w c Hc) as A. pose proof (py_step_calm en ev w' c Hc) as B. rewrite H in A. rewrite A in B.
  unfold calm_reply in B. apply pair_equal_spec in B as (B1 & B2). auto.
Qed.

Lemma replace_same i : forall x l, nth_error l i = Some x -> replace_nth i x l = l.
Proof. induction i as [|i IH]; intros x [|y l] H; try discriminate; cbn in *; [congruence|]. f_equal. auto. Qed.
Lemma set_object_same w i x : nth_error (pw_objects w) i = Some x -> set_object w i x = w.
Proof. intros H. unfold set_object, set_objects. rewrite replace_same by exact H. destruct w. reflexivity. Qed.

Definition refuses (a : reply) : bool := match a with ARaise _ | ANone => true | _ => false end.
Lemma new_sub_refuses en w v t k : refuses (fst (new_sub_item en w v t k)) = true -> snd (new_sub_item en w v t k) = w.
Proof. unfold new_sub_item. destruct (node_value t k); try reflexivity. destruct (item_type_object _ _ _); try reflexivity. discriminate. Qed.
Lemma by_index_refuses en w g k i : refuses (fst (sub_item_by_index en w g k i)) = true -> snd (sub_item_by_index en w g k i) = w.
Proof.
  unfold sub_item_by_index. destruct (live_tree w g) as [[v t]|]; [|reflexivity]. destruct (get_sub_item t k i); try reflexivity. apply new_sub_refuses.
Qed.
Lemma found_refuses en w v t r : refuses (fst (found_item en w v t r)) = true -> snd (found_item en w v t r) = w.
Proof. unfold found_item. destruct r as [[j|]| | |]; try reflexivity. apply new_sub_refuses. Qed.
Lemma new_file_item_refuses w r : refuses (fst (new_file_item w r)) = true -> snd (new_file_item w r) = w.
Proof.
  unfold new_file_item. destruct r as [[k|]| | |]; try reflexivity. destruct (file_tree _); [|reflexivity]. destruct (node_value _ _); try reflexivity. discriminate.
Qed.

Lemma py_traceless_step en ev c w : py_traceless c (fst (py_step en ev w c)) = true -> calm_py (snd (py_step en ev w c)) = calm_py w.
Proof.
  assert (D : c = CallSignalAbort \/ c <> CallSignalAbort) by (destruct c; auto; right; discriminate).
  destruct D as [->|Hc]; [reflexivity|]. intros H. f_equal. unfold py_traceless in H. destruct (py_asks c) eqn:Ha.
  - clear H. destruct c; try discriminate Ha; try reflexivity; try congruence; cbn [py_step].
    + destruct (nth_error (pw_objects w) i) as [[g cl k cu|]|] eqn:E; try reflexivity. unfold item_step_py.
      destruct call; try discriminate Ha; try reflexivity; destruct (live_tree w g) as [[v t]|]; try reflexivity;
        try (destruct (node_value t k); try reflexivity);
        try (destruct (pe_text _ _ _); try reflexivity; destruct (pe_decodes _ _); reflexivity);
        try (destruct (get_number_of_sub_items t k); reflexivity);
        destruct op; try discriminate Ha; destruct cl; try reflexivity.
      all: cbn [py_stream_step]; unfold py_stream_tell; destruct (stream_get_offset _ _); cbn [snd]; apply set_object_same, E.
    + destruct (nth_error (pw_objects w) i) as [[|g k cu n]|] eqn:E; try reflexivity. destruct call; try discriminate Ha; reflexivity.
  - cbn [orb] in H. apply andb_true_iff in H as (H1 & H2).
    destruct c; try discriminate H1; cbn [py_step] in *.
    + destruct (parse_string name); [reflexivity|]. destruct (pe_codepage en l); [|reflexivity]. unfold file_set_codepage in *. destruct (existsb _ _); [discriminate|].
      cbn [snd]. destruct w. reflexivity.
    + apply new_file_item_refuses. destruct (fst _); try discriminate; reflexivity.
    + destruct (parse_string path); [reflexivity|]. apply new_file_item_refuses. destruct (fst _); try discriminate; reflexivity.
    + destruct (nth_error (pw_objects w) i) as [[g cl k cu|]|] eqn:E; try reflexivity. unfold item_step_py in *.
      destruct call; try discriminate H1.
      * destruct (parse_integer _ _ _); [reflexivity|]. apply by_index_refuses. destruct (fst _); try discriminate; reflexivity.
      * destruct (live_tree w g) as [[v t]|]; try reflexivity. destruct (node_value t k); try reflexivity.
        destruct (get_number_of_sub_items t k); try reflexivity. discriminate.
      * destruct (live_tree w g) as [[v t]|]; try (destruct (parse_string name); reflexivity). destruct (node_value t k); try reflexivity.
        destruct (parse_string name); [reflexivity|]. apply found_refuses. destruct (fst _); try discriminate; reflexivity.
      * destruct (live_tree w g) as [[v t]|]; try (destruct (parse_string path); reflexivity). destruct (node_value t k); try reflexivity.
        destruct (parse_string path); [reflexivity|]. apply found_refuses. destruct (fst _); try discriminate; reflexivity.
      * destruct (live_tree w g) as [[v t]|]; [|destruct cl; reflexivity]. destruct (node_value t k); try reflexivity.
        destruct op; try discriminate H1. destruct cl; try reflexivity.
        all: cbn [py_stream_step] in *; unfold py_stream_seek in *;
          (destruct (parse_integer _ _ _); [cbn [snd]; apply set_object_same, E|]);
          (destruct whence as [x|]; [destruct (parse_integer x _ _); [cbn [snd]; apply set_object_same, E|]|]);
          destruct (stream_seek_offset _ _ _ _); try discriminate; cbn [snd]; apply set_object_same, E.
    + destruct (nth_error (pw_objects w) i) as [[|g k cu n]|] eqn:E; try reflexivity. unfold sequence_step in *. destruct call; try discriminate H1.
      * destruct v; try reflexivity. destruct (_ || _); [reflexivity|]. cbv zeta in *. destruct (n <? 0); [reflexivity|]. destruct (_ || _); [reflexivity|].
        apply by_index_refuses. destruct (fst _); try discriminate; reflexivity.
      * destruct (cu <? 0); [reflexivity|]. destruct (n <? 0); [reflexivity|]. destruct (n <=? cu); [reflexivity|].
        pose proof (by_index_refuses en w g k cu) as R. destruct (sub_item_by_index en w g k cu) as [a w']. cbn [fst snd] in R.
        destruct a; try discriminate H2; apply R; reflexivity.
Qed.

Lemma py_run_app en h1 : forall h2 w, py_run en (h1 ++ h2) w =
  (fst (py_run en h1 w) ++ fst (py_run en h2 (snd (py_run en h1 w))), snd (py_run en h2 (snd (py_run en h1 w)))).
Proof.
  induction h1 as [|[ev c] h1 IH]; intros h2 w; cbn [py_run List.app fst snd]; [apply surjective_pairing|].
  destruct (py_step en ev w c) as [a w1]. rewrite IH. destruct (py_run en h1 w1). reflexivity.
Qed.
Lemma py_run_length en h : forall w, length (fst (py_run en h w)) = length h.
Proof.
  induction h as [|[ev c] h IH]; intros w; cbn [py_run]; [reflexivity|]. destruct (py_step en ev w c) as [a w1]. specialize (IH w1).
  destruct (py_run en h w1). cbn in *. congruence.
Qed.
Lemma py_kept_alike en h : forall w w', calm_py w = calm_py w' ->
  calm_py (snd (py_run en h w)) = calm_py (snd (py_run en (py_kept h (fst (py_run en h w))) w')).
Proof.
  induction h as [|[ev c] h IH]; intros w w' H; [exact H|]. cbn [py_run].
  pose proof (py_traceless_step en ev c w) as T. destruct (py_step_alike en ev c w w' H) as (A1 & A2).
  destruct (py_step en ev w c) as [a w1]. cbn [fst snd] in *. specialize (IH w1). destruct (py_run en h w1) as [r w2] eqn:E. cbn [fst snd py_kept] in *.
  destruct (py_traceless c a) eqn:K.
  - apply IH. rewrite (T eq_refl). exact H.
  - cbn [py_run]. destruct (py_step en ev w' c) as [a' w1']. cbn [fst snd] in *. specialize (IH w1' A2). destruct (py_run en (py_kept h r) w1'). exact IH.
Qed.

Lemma py_traceless_ok en h ev c h' :
  let k := py_kept h (fst (py_run en h py_start)) in
  nth_error (fst (py_run en (h ++ (ev, c) :: h') py_start)) (length h) = nth_error (fst (py_run en (k ++ [(ev, c)]) py_start)) (length k).
Proof.
  cbv zeta. set (k := py_kept h (fst (py_run en h py_start))). rewrite !py_run_app. cbn [fst].
  rewrite !nth_error_app2 by (rewrite py_run_length; lia). rewrite !py_run_length, !Nat.sub_diag. cbn [py_run].
  destruct (py_step_alike en ev c (snd (py_run en h py_start)) (snd (py_run en k py_start))) as (A & _); [apply py_kept_alike; reflexivity|].
  destruct (py_step en ev (snd (py_run en h py_start)) c) as [a s1], (py_step en ev (snd (py_run en k py_start)) c) as [a' s1'].
  cbn [fst] in A. subst a'. destruct (py_run en h' s1). reflexivity.
Qed.
