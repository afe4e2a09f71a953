(** Lemmas on C programs: what is undefined, what the variables refer to. *)
From Coq Require Import ZArith List Bool Lia Arith.
From Verif Require Import Base Spec_IO M_Header M_Table M_Load M_Stream M_Tree M_Open M_Item M_File M_Prop
  Spec_Stream Spec_Load Spec_Open Spec_Tree Spec_Item Spec_File
  L_Base L_Stream L_Stream2 L_Stream3 L_Tree L_Tree2 L_Tree3 L_Open L_Open2 L_Item L_Session L_File L_Prop3 L_Items
  M_Api Spec_Api L_Api.
Import ListNotations.
Open Scope Z_scope.

(** * The invariant *)
Record ainv (u : una) (a : astate) : Prop := {
  ai_files : forall f x, as_files a f = Some x -> file_inv u x;
  ai_items : forall i f k c, as_items a i = Some (Some (f, k, c)) ->
    0 <= c /\ exists x t, as_files a f = Some x /\ file_tree x = Some t /\ valid_item t k;
  ai_sections : forall c x i, as_sections a c = Some (Some (x, i)) ->
    exists y z, as_sets a x = Some y /\ znth (ps_sections y) i = Some z;
  ai_values : forall v x i j, as_values a v = Some (Some (x, i, j)) ->
    exists y z p, as_sets a x = Some y /\ znth (ps_sections y) i = Some z /\ znth (sc_properties z) j = Some p
}.

Lemma ainv_start u : ainv u a_start.
Proof. constructor; cbn; discriminate. Qed.

(** Calls through variables that dangle, and the calls of Spec_Api.v that do
    not fit. *)
Definition a_stale (a : astate) (c : call) : Prop :=
  match c with
  | ItemCall i _ | ItemSub i _ _ | ItemStream i _ | ItemSet i _ => as_items a i = Some None
  | SectionClass c _ | SectionNumber c | SectionValue c _ _ => as_sections a c = Some None
  | ValueCall v _ => as_values a v = Some None
  | _ => False
  end.
Definition a_too (a : astate) (c : call) : Prop :=
  exists i op f k z x d, c = ItemStream i op /\ as_items a i = Some (Some (f, k, z)) /\ as_files a f = Some x /\
    a_entry a (Some (f, k, z)) = Ok d /\ de_type d = TYPE_STREAM /\ a_stream a (Some (f, k, z)) <> None /\
    ((exists o, op = OpSeek o 1 /\ 2 ^ 63 <= z + o) \/ (exists o, op = OpSeek o 2 /\ 2 ^ 63 <= de_size d + o) \/
     exists n, (op = OpRead n \/ exists o, op = OpReadAt o n) /\ 2 ^ 30 < n /\ io_short_sector_size (fs_io x) < 4).

(** * The position after a property set is read *)
Definition pos {A} (cur : A -> Z) (m : io A) : Prop := forall t x t', m t = (Ok x, t') -> 0 <= cur x.
Lemma pos_bind {A B} curA (cur : B -> Z) (m : io A) k : pos curA m -> (forall a, 0 <= curA a -> pos cur (k a)) -> pos cur (ibind m k).
Proof. intros H1 H2 t x t' H. apply ibind_ok in H as (y & t1 & Hy & H). exact (H2 y (H1 _ _ _ Hy) _ _ _ H). Qed.
Lemma pos_lift {A B} (cur : B -> Z) (r : res A) k : (forall a, pos cur (k a)) -> pos cur (ibind (ilift r) k).
Proof. intros H2 t x t' H. apply ibind_ok in H as (y & t1 & Hy & H). exact (H2 y _ _ _ H). Qed.
Lemma pos_ret {A} (cur : A -> Z) x : 0 <= cur x -> pos cur (iret x).
Proof. intros H t y t' E. apply iret_ok in E as [E _]. rewrite <- E. exact H. Qed.
Lemma pos_err {A} (cur : A -> Z) : pos cur ierr.
Proof. intros t x t' H. discriminate. Qed.
Lemma pos_read rd v d c n : dirent_ok d -> pos snd (pread rd v d c n).
Proof.
  intros HD t [l c'] t' H. unfold pread in H. apply ibind_ok in H as ([l0 c0] & t1 & H0 & H).
  destruct (Z.eqb_spec (zlen l0) n) as [E|E]; [|discriminate]. apply iret_ok in H as [H _]. injection H as <- <-. cbn.
  pose proof (zlen_nonneg l0). apply read_buffer_basic in H0 as (_ & H0 & _ & _ & ->); auto; lia.
Qed.
Lemma pos_seek d c off : pos (fun x => x) (pseek d c off).
Proof.
  intros t x t' H. unfold pseek, ilift in H. destruct (stream_seek_offset d c off SEEK_SET) eqn:E; try discriminate.
  injection H as <- _. apply seek_result in E as [E _]. exact E.
Qed.
Lemma pos_value lib rd v d t k enc c size : dirent_ok d -> 0 <= c -> pos snd (read_value lib rd v d t k enc c size).
Proof.
  intros HD Hc. unfold read_value. destruct (0 <? size) eqn:E0; [|apply pos_lift; intros f; apply pos_ret; exact Hc].
  cbv zeta. destruct (_ || _); [apply pos_err|].
  eapply pos_bind; [apply pos_read; exact HD|]. intros [l c'] Hc'. apply pos_lift. intros m. apply pos_lift. intros f.
  apply pos_ret. exact Hc'.
Qed.
Lemma pos_data lib rd v d cp e c off : dirent_ok d -> pos snd (read_data lib rd v d cp e c off).
Proof.
  intros HD. unfold read_data. destruct (UINT32_MAX - 4 <=? off); [apply pos_err|].
  eapply pos_bind; [apply pos_seek|]. intros c0 _. eapply pos_bind; [apply pos_read; exact HD|]. intros [b c1] Hc1. cbv zeta.
  cbn [snd] in Hc1. apply pos_lift. intros t. destruct (shape_of cp e t) as [k size|k enc| |].
  - eapply pos_bind; [apply pos_value; assumption|]. intros [f c2] Hc2. apply pos_ret. exact Hc2.
  - eapply pos_bind; [apply pos_read; exact HD|]. intros [b2 c2] Hc2. apply pos_lift. intros size.
    eapply pos_bind; [apply pos_value; assumption|]. intros [f c3] Hc3. apply pos_ret. exact Hc3.
  - destruct (UINT32_MAX - 4 <=? _); [apply pos_err|]. eapply pos_bind; [apply pos_read; exact HD|]. intros [b2 c2] Hc2.
    apply pos_lift. intros n. eapply (pos_bind (fun x => x)).
    + cbn [snd] in Hc2. generalize (u32 (u32 (off + 4) + 4)). generalize (Z.to_nat n). clear - HD Hc2. intros k. revert c2 Hc2.
      induction k as [|k IH]; intros c2 Hc2 z; cbn [multi_loop]; [apply pos_ret; exact Hc2|].
      destruct (UINT32_MAX - 4 <=? z); [apply pos_err|]. eapply pos_bind; [apply pos_read; exact HD|]. intros [b3 c3] Hc3. cbv zeta.
      apply pos_lift. intros size. destruct (_ <=? _); [apply pos_err|]. destruct (_ || _); [apply pos_err|].
      eapply pos_bind; [apply pos_read; exact HD|]. intros [b4 c4] Hc4. apply IH. exact Hc4.
    + intros c3 Hc3. apply pos_ret. exact Hc3.
  - apply pos_ret. exact Hc1.
Qed.

Lemma pos_properties lib rd v d cp e base : dirent_ok d -> forall k c p acc, 0 <= c ->
  pos snd (properties_loop lib rd v d cp k e base c p acc).
Proof.
  intros HD k. induction k as [|k IH]; intros c p acc Hc; cbn [properties_loop]; [apply pos_ret; exact Hc|].
  eapply pos_bind; [apply pos_seek|]. intros c0 _. unfold read_list_entry.
  eapply (pos_bind snd).
  { eapply pos_bind; [apply pos_read; exact HD|]. intros [b c1] Hc1. apply pos_lift. intros i. apply pos_lift. intros r.
    apply pos_ret. exact Hc1. }
  intros [[i r] c1] Hc1. destruct (r <=? 8); [apply pos_err|]. apply pos_lift. intros p'.
  eapply pos_bind; [apply pos_data; exact HD|]. intros [[t f] c2] Hc2. apply IH. exact Hc2.
Qed.
Lemma pos_sections lib rd v d cp e : dirent_ok d -> forall k c p acc, 0 <= c ->
  pos snd (sections_loop lib rd v d cp k e c p acc).
Proof.
  intros HD k. induction k as [|k IH]; intros c p acc Hc; cbn [sections_loop]; [apply pos_ret; exact Hc|].
  eapply pos_bind; [apply pos_seek|]. intros c0 _. unfold section_list_entry. eapply (pos_bind snd).
  { eapply pos_bind; [apply pos_read; exact HD|]. intros [b c1] Hc1. apply pos_lift. intros i. apply pos_ret. exact Hc1. }
  intros [[i r] c1] Hc1. apply pos_lift. intros p'. eapply (pos_bind snd).
  { unfold section_read. eapply pos_bind; [apply pos_seek|]. intros c2 _. eapply pos_bind; [apply pos_read; exact HD|]. intros [b c3] Hc3.
    apply pos_lift. intros size. apply pos_lift. intros n. apply pos_properties; [exact HD|exact Hc3]. }
  intros [props c2] Hc2. apply IH. exact Hc2.
Qed.
Lemma get_set_cursor lib rd v d cp c t y c' : dirent_ok d -> fst (get_set lib rd v d cp c t) = Ok (y, c') -> 0 <= c'.
Proof.
  intros HD H. assert (HP : pos snd (get_set lib rd v d cp c)).
  { unfold get_set. eapply pos_bind; [apply pos_seek|]. intros c0 _. eapply pos_bind; [apply pos_read; exact HD|]. intros [b c1] Hc1.
    apply pos_lift. intros h. eapply pos_bind; [apply pos_sections; [exact HD|exact Hc1]|]. intros [secs c2] Hc2. apply pos_ret. exact Hc2. }
  destruct (get_set lib rd v d cp c t) as [r t'] eqn:E. cbn in H. subst r. exact (HP _ _ _ E).
Qed.

Section Inv.
Variable lib : clib.
Hypothesis HL : clib_ok lib.
Let u := cl_una lib.
Let Hu : una_ok u := co_una lib HL.

Lemma live_facts a i f k c : ainv u a -> as_items a i = Some (Some (f, k, c)) ->
  0 <= c /\ exists x t d rd o tt, as_files a f = Some x /\ file_tree x = Some t /\ item_entry t k d /\ dirent_ok d /\
    io_bytes rd /\ open_read u rd [] = (Ok o, tt) /\ o_tree o = Some t /\ file_volume x = Some (opened_volume o) /\
    volume_ok (opened_volume o) /\ file_endian x = fh_byte_order (o_header o) /\
    v_short_sector_size (opened_volume o) = io_short_sector_size (fs_io x).
Proof.
  intros HI Hi. destruct (ai_items _ _ HI _ _ _ _ Hi) as (Hc & x & t & Hx & Ht & d & Hd). split; [exact Hc|].
  destruct (live_opened _ _ _ (ai_files _ _ HI _ _ Hx) Ht) as (rd & o & tt & H1 & H2 & H3 & H4 & H5 & _ & H6).
  exists x, t, d, rd, o, tt. do 3 (split; [assumption|]). split.
  - destruct (opened_made _ rd Hu H1 o tt H2 t H3) as (root & HMa).
    destruct (opened_entries _ rd Hu H1 o tt H2) as (_ & Hf & _).
    apply (proj1 (Forall_forall _ _) Hf). apply (made_incl _ _ _ root t HMa). destruct Hd as (nd & Hn & <-).
    unfold tree_entries. apply in_map. eapply nth_error_In; eauto.
  - do 4 (split; [assumption|]). split; [exact (opened_volume_ok _ rd Hu H1 o tt H2)|]. split; [exact H5|].
    destruct H6 as (_ & _ & _ & -> & _). reflexivity.
Qed.

(** Streams. *)
Lemma item_step_undef rd v d op c : volume_ok v -> dirent_ok d -> 0 <= c ->
  match op with OpRead n => 0 <= n | OpReadAt _ n => 0 <= n | OpSeek o _ => - 2 ^ 63 <= o < 2 ^ 63 | OpTell => True end ->
  fst (item_step rd v d op c) = RUndefined -> de_type d = TYPE_STREAM /\
  ((exists o, op = OpSeek o 1 /\ 2 ^ 63 <= c + o) \/ (exists o, op = OpSeek o 2 /\ 2 ^ 63 <= de_size d + o) \/
   exists n, (op = OpRead n \/ exists o, op = OpReadAt o n) /\ 2 ^ 30 < n /\ v_short_sector_size v < 4).
Proof.
  intros HV HD Hc Hop HU.
  assert (Hty : de_type d = TYPE_STREAM).
  { destruct (Z.eqb_spec (de_type d) TYPE_STREAM) as [E|E]; [exact E|exfalso]. apply Z.eqb_neq in E.
    destruct op; cbn [item_step] in HU; unfold stream_read_buffer, stream_read_at, stream_seek_offset, stream_get_offset in HU;
      rewrite E in HU; discriminate HU. }
  split; [exact Hty|].
  assert (Hrd : forall n, (op = OpRead n \/ exists o, op = OpReadAt o n) -> 0 <= n -> 2 ^ 30 < n /\ v_short_sector_size v < 4).
  { intros n Hn H0. destruct (Z_le_gt_dec n (2 ^ 30)) as [L|G].
    - exfalso. apply (read_step_defined rd v d op c HV HD); [|exact HU].
      destruct Hn as [->|(o & ->)]; cbn; (split; [exact H0|]); right; change 1073741824 with (2 ^ 30); lia.
    - split; [lia|]. destruct (Z_lt_le_dec (v_short_sector_size v) 4) as [H|H]; [exact H|exfalso].
      apply (read_step_defined rd v d op c HV HD); [|exact HU]. pose proof (volume_ss_pos v HV).
      assert (Hs : 4 <= (if de_size d <? v_minimum_size v then v_short_sector_size v else v_sector_size v))
        by (destruct (_ <? _); lia).
      destruct Hn as [->|(o & ->)]; cbn; (split; [exact H0|]); left; exact Hs. }
  destruct op as [n|o n|o w|].
  - right. right. exists n. split; [auto|]. apply Hrd; auto.
  - right. right. exists n. split; [eauto|]. apply Hrd; eauto.
  - cbn [item_step] in HU. assert (Hint : int64 o) by (unfold int64, INT64_MIN, INT64_MAX; lia).
    rewrite (seek_exact d c o w HD Hty Hc Hint) in HU. unfold seek_base in HU.
    destruct (Z.eqb_spec w 0) as [->|W0].
    + cbv iota in HU. destruct (INT64_MAX <? 0 + o) eqn:E1; [apply Z.ltb_lt in E1; unfold INT64_MAX in E1; lia|].
      destruct (0 + o <? 0); discriminate HU.
    + destruct (Z.eqb_spec w 1) as [->|W1].
      * left. exists o. split; [reflexivity|]. destruct (INT64_MAX <? c + o) eqn:E1.
        -- apply Z.ltb_lt in E1. unfold INT64_MAX in E1. lia.
        -- destruct (c + o <? 0); discriminate HU.
      * destruct (Z.eqb_spec w 2) as [->|W2]; [|discriminate HU]. right. left. exists o. split; [reflexivity|].
        destruct (INT64_MAX <? de_size d + o) eqn:E1.
        -- apply Z.ltb_lt in E1. unfold INT64_MAX in E1. lia.
        -- destruct (de_size d + o <? 0); discriminate HU.
  - cbn [item_step] in HU. unfold stream_get_offset in HU. destruct (negb _); discriminate HU.
Qed.

Lemma item_step_pos rd v d op c : dirent_ok d -> 0 <= c ->
  match op with OpRead n => 0 <= n | OpReadAt _ n => 0 <= n | OpSeek o _ => - 2 ^ 63 <= o < 2 ^ 63 | OpTell => True end ->
  0 <= snd (item_step rd v d op c).
Proof.
  intros HD Hc Hop. destruct op as [n|o n|o w|]; cbn [item_step].
  - destruct (stream_read_buffer rd v d c n n []) as [[[l c']| | |] t'] eqn:E; cbn [snd]; auto.
    apply read_buffer_basic in E as (_ & _ & _ & _ & E); auto. pose proof (zlen_nonneg l). lia.
  - unfold stream_read_at. destruct (stream_seek_offset d c o SEEK_SET) as [c1| | |] eqn:Es; try exact Hc.
    apply seek_result in Es as [Es _].
    destruct (stream_read_buffer rd v d c1 n n []) as [[[l c2]| | |] t'] eqn:E2; cbn [snd]; try exact Es.
    apply read_buffer_basic in E2 as (_ & _ & _ & _ & E2); auto. pose proof (zlen_nonneg l). lia.
  - destruct (stream_seek_offset d c o w) as [c1| | |] eqn:Es; cbn [snd]; try exact Hc. apply seek_result in Es as [Es _]. exact Es.
  - destruct (stream_get_offset d c); exact Hc.
Qed.

(** Lookups. *)
Lemma tree_found_valid rd o tt t k l : io_bytes rd -> open_read u rd [] = (Ok o, tt) -> o_tree o = Some t -> valid_item t k ->
  defined (tree_found lib (fh_byte_order (o_header o)) t k l) /\
  forall j, tree_found lib (fh_byte_order (o_header o)) t k l = Ok (Some j) -> valid_item t j.
Proof.
  intros H1 H2 H3 Hk. destruct l as [i|n|n|p|p]; cbn [tree_found].
  - destruct Hk as (d & nd & Hn & _). unfold get_sub_item, sub_nodes. rewrite Hn. cbn [rbind].
    destruct (znth (n_subs nd) i) as [j|] eqn:Ej; cbn [rbind]; (split; [exact I|]); [|discriminate].
    intros j' H. apply Ok_inj in H. injection H as <-.
    exact (Forall_znth _ _ _ _ (opened_subs_valid _ rd Hu H1 o tt H2 t k nd H3 Hn) Ej).
  - apply (by_name_defined _ rd Hu H1 o tt H2 t k); auto. intros; apply (uo_utf8 _ Hu).
  - apply (by_name_defined _ rd Hu H1 o tt H2 t k); auto. intros; apply (uo_utf16 _ Hu).
  - apply (utf8_path_defined _ rd Hu H1 o tt H2 t k p H3 Hk). apply (co_char8 _ HL).
  - apply (utf16_path_defined _ rd Hu H1 o tt H2 t k p H3 Hk). apply (co_char16 _ HL).
Qed.

Lemma none_path char s : char_ok char -> defined (do k <- sub_item_by_path char (fun _ _ => Err) s 0%nat;
  match k with Some _ => Err | None => @Ok (option nat) None end).
Proof.
  intros Hc. destruct (sub_item_by_path_defined (fun _ => True) char (fun _ _ => Err) s 0%nat Hc) as [H _]; [|exact I|].
  { intros k n _. split; [exact I|]. discriminate. }
  destruct (sub_item_by_path char (fun _ _ => Err) s 0%nat) as [[j|]| | |]; cbn in *; auto.
Qed.

Lemma file_lookup_valid x p : file_inv u x ->
  defined (get_root_item (file_tree x)) /\
  defined (item_by_utf8_path u (file_endian x) (file_tree x) p) /\
  defined (item_by_utf16_path u (file_endian x) (file_tree x) p) /\
  forall t k, file_tree x = Some t ->
    (get_root_item (file_tree x) = Ok (Some k) \/ item_by_utf8_path u (file_endian x) (file_tree x) p = Ok (Some k) \/
     item_by_utf16_path u (file_endian x) (file_tree x) p = Ok (Some k)) -> valid_item t k.
Proof.
  intros Hx. destruct (file_tree x) as [t|] eqn:Et.
  - destruct (live_opened _ _ _ Hx Et) as (rd & o & tt & H1 & H2 & H3 & _ & -> & _).
    assert (Hr : valid_item t 0).
    { destruct (opened_root _ rd Hu H1 o tt H2 t H3) as (root & _ & Hr & _). exists root. exact Hr. }
    destruct (tree_found_valid rd o tt t 0 (ByUtf8Path p) H1 H2 H3 Hr) as [A1 A2].
    destruct (tree_found_valid rd o tt t 0 (ByUtf16Path p) H1 H2 H3 Hr) as [B1 B2]. cbn [tree_found] in *.
    split; [exact I|]. split; [exact A1|]. split; [exact B1|]. intros t' k [= <-] [H|[H|H]].
    + injection H as <-. exact Hr.
    + apply A2. exact H.
    + apply B2. exact H.
  - split; [exact I|]. split; [apply none_path, (co_char8 _ HL)|]. split; [apply none_path, (co_char16 _ HL)|]. discriminate.
Qed.

Lemma open_defined ev op x w : env_bytes ev -> file_inv u x -> L_Api.opens op = true ->
  of_file (fst (fst (file_step u ev op x w))) <> CUndefined.
Proof.
  intros HB Hi Ho. assert (Hop : is_open_call op) by (destruct op; try discriminate; exact I).
  destruct (fs_handle x) as [h|] eqn:Hh.
  - rewrite open_call_error by (auto; left; congruence). discriminate.
  - destruct (open_call_cases u ev op x w Hu HB Hop Hi Hh) as [(io' & w' & _ & -> & _)|(io' & o & t & w' & h & _ & _ & _ & -> & _)];
      discriminate.
Qed.

(** ** Changes *)
Lemma ainv_world a w : ainv u a -> ainv u (a_world a w).
Proof. intros []. constructor; cbn; auto. Qed.
Lemma ainv_file_same a f x x' : ainv u a -> as_files a f = Some x -> file_inv u x' -> 
  (file_tree x = None \/ file_tree x' = file_tree x) -> ainv u (a_file a f (Some x')).
Proof.
  intros [HF HI HS HV] Hf Hx Ht. constructor; cbn; auto.
  - intros g y. unfold upd. destruct (Nat.eqb_spec g f) as [->|N]; [intros [= <-]; exact Hx|apply HF].
  - intros i g k c Hi. destruct (HI _ _ _ _ Hi) as (H0 & y & t & H1 & H2 & H3). split; [exact H0|].
    unfold upd. destruct (Nat.eqb_spec g f) as [->|N]; [|eauto]. exists x', t. split; [reflexivity|].
    rewrite Hf in H1. injection H1 as <-. destruct Ht as [Ht|Ht]; rewrite Ht in *; [discriminate|auto].
Qed.
Lemma ainv_kill a f x' : ainv u a -> (forall y, x' = Some y -> file_inv u y) -> ainv u (a_file (kill_items a f) f x').
Proof.
  intros [HF HI HS HV] Hx. constructor; cbn; auto.
  - intros g y. unfold upd. destruct (Nat.eqb_spec g f) as [->|N]; [apply Hx|apply HF].
  - intros i g k c. destruct (as_items a i) as [[[[g' k'] c']|]|] eqn:Ei; try discriminate.
    destruct (Nat.eqb_spec g' f) as [->|N]; [discriminate|]. intros [= <- <- <-].
    destruct (HI _ _ _ _ Ei) as (H0 & y & t & H1 & H2). split; [exact H0|]. exists y, t. rewrite upd_other by exact N. auto.
Qed.
Lemma ainv_new_file a f x : ainv u a -> as_files a f = None -> file_inv u x -> ainv u (a_file a f (Some x)).
Proof.
  intros [HF HI HS HV] Hf Hx. constructor; cbn; auto.
  - intros g y. unfold upd. destruct (Nat.eqb_spec g f) as [->|N]; [intros [= <-]; exact Hx|apply HF].
  - intros i g k c Hi. destruct (HI _ _ _ _ Hi) as (H0 & y & t & H1 & H2). split; [exact H0|]. exists y, t.
    rewrite upd_other; [auto|]. intros ->. congruence.
Qed.
Lemma ainv_item a i o : ainv u a -> (forall f k c, o = Some (Some (f, k, c)) ->
    0 <= c /\ exists x t, as_files a f = Some x /\ file_tree x = Some t /\ valid_item t k) -> ainv u (a_item a i o).
Proof.
  intros [HF HI HS HV] Ho. constructor; cbn; auto. intros j f k c. unfold upd. destruct (Nat.eqb j i); [apply Ho|apply HI].
Qed.
Lemma ainv_set a i y : ainv u a -> as_sets a i = None -> ainv u (a_set a i (Some y)).
Proof.
  intros [HF HI HS HV] Ho. constructor; cbn; auto.
  - intros c x j Hc. destruct (HS _ _ _ Hc) as (z & q & H1 & H2). exists z, q. rewrite upd_other; [auto|]. intros ->. congruence.
  - intros c x j l Hc. destruct (HV _ _ _ _ Hc) as (z & q & p & H1 & H2). exists z, q, p.
    rewrite upd_other; [auto|]. intros ->. congruence.
Qed.
Lemma ainv_drop_set a i : ainv u a -> ainv u (a_set (kill_parts a i) i None).
Proof.
  intros [HF HI HS HV]. constructor; cbn; auto.
  - intros c x j. destruct (as_sections a c) as [[[x' j']|]|] eqn:E; try discriminate.
    destruct (Nat.eqb_spec x' i) as [->|N]; [discriminate|]. intros [= <- <-]. rewrite upd_other by exact N. eapply HS; eauto.
  - intros c x j l. destruct (as_values a c) as [[[[x' j'] l']|]|] eqn:E; try discriminate.
    destruct (Nat.eqb_spec x' i) as [->|N]; [discriminate|]. intros [= <- <- <-]. rewrite upd_other by exact N. eapply HV; eauto.
Qed.
Lemma ainv_section a c o : ainv u a -> (forall x i, o = Some (Some (x, i)) ->
  exists y z, as_sets a x = Some y /\ znth (ps_sections y) i = Some z) -> ainv u (a_section a c o).
Proof.
  intros [HF HI HS HV] Ho. constructor; cbn; auto. intros d x i. unfold upd. destruct (Nat.eqb d c); [apply Ho|apply HS].
Qed.
Lemma ainv_value a c o : ainv u a -> (forall x i j, o = Some (Some (x, i, j)) ->
  exists y z p, as_sets a x = Some y /\ znth (ps_sections y) i = Some z /\ znth (sc_properties z) j = Some p) -> ainv u (a_value a c o).
Proof.
  intros [HF HI HS HV] Ho. constructor; cbn; auto. intros d x i j. unfold upd. destruct (Nat.eqb d c); [apply Ho|apply HV].
Qed.

(** ** One call *)
Lemma new_item_inv ce a f x t j r : ainv u a -> as_files a f = Some x -> file_tree x = Some t ->
  defined r -> (forall k, r = Ok (Some k) -> valid_item t k) ->
  ainv u (snd (a_new_item ce f (Some t) j r a)) /\ fst (a_new_item ce f (Some t) j r a) <> CUndefined.
Proof.
  intros HI Hf Ht Hd Hv. unfold a_new_item. destruct r as [[k|]| | |]; try destruct Hd; cbn [fst snd]; try (split; [exact HI|discriminate]).
  destruct (ce_memory ce); [|cbn; split; [exact HI|discriminate]]. destruct (Hv k eq_refl) as (d & Hk).
  rewrite (proj2 (node_value_entry t k d) Hk). cbn [fst snd]. split; [|discriminate]. apply ainv_item; [exact HI|].
  intros f' k' c' [= <- <- <-]. split; [lia|]. exists x, t. split; [exact Hf|]. split; [exact Ht|]. exists d. exact Hk.
Qed.

Lemma file_item_inv ce f lookup i a : ainv u a ->
  (forall x, file_inv u x -> defined (lookup x) /\ (file_tree x = None -> forall k, lookup x <> Ok (Some k)) /\
     forall t k, file_tree x = Some t -> lookup x = Ok (Some k) -> valid_item t k) ->
  ainv u (snd (a_file_item ce f lookup i a)) /\ fst (a_file_item ce f lookup i a) <> CUndefined.
Proof.
  intros HI Hlk. unfold a_file_item, a_on_file. destruct (as_files a f) as [x|] eqn:Ef; [|cbn; split; [exact HI|discriminate]].
  destruct (as_items a i); [cbn; split; [exact HI|discriminate]|].
  destruct (Hlk x (ai_files _ _ HI _ _ Ef)) as (H1 & H2 & H3). destruct (file_tree x) as [t|] eqn:Et.
  - apply (new_item_inv ce a f x t); auto.
  - unfold a_new_item. destruct (lookup x) as [[k|]| | |]; try destruct H1; cbn; try (split; [exact HI|discriminate]).
    destruct (H2 eq_refl k). reflexivity.
Qed.

Lemma path_none e p k : item_by_utf8_path u e None p <> Ok (Some k) /\ item_by_utf16_path u e None p <> Ok (Some k).
Proof. apply path_no_tree. Qed.

Lemma number_fine (r : res Z) : defined r -> of_number r <> CUndefined.
Proof. destruct r; cbn; try discriminate; intros []. Qed.
Lemma bytes_fine (r : res (list Z)) : defined r -> of_bytes r <> CUndefined.
Proof. destruct r; cbn; try discriminate; intros []. Qed.

Lemma on_value_defined {A} p (f : fvalue -> option A) : defined (on_value p f).
Proof. unfold on_value. destruct (pv_value p) as [w|]; [|exact I]. destruct (f w); exact I. Qed.
Lemma value_fine p q : value_value lib p q <> CUndefined.
Proof.
  destruct q; cbn [value_value]; try discriminate; try apply number_fine; try apply bytes_fine;
    unfold get_data_size, get_data, get_boolean, get_16bit, get_32bit, get_64bit, get_filetime, get_utf8, get_utf16;
    try match goal with |- defined (if ?b then _ else _) => destruct b end; try exact I; apply on_value_defined.
Qed.

Lemma a_step_inv ce c a : ainv u a -> env_bytes (ce_io ce) -> 0 <= ce_position ce -> call_fits c ->
  ainv u (snd (a_step lib ce c a)) /\ (fst (a_step lib ce c a) = CUndefined -> a_stale a c \/ a_too a c).
Proof.
  intros HI HB HP HC.
  assert (Hfine : forall r : answer * astate, ainv u (snd r) /\ fst r <> CUndefined ->
            ainv u (snd r) /\ (fst r = CUndefined -> a_stale a c \/ a_too a c)).
  { intros r [H1 H2]. split; [exact H1|]. intros E. destruct (H2 E). }
  assert (Hopening : forall f op, L_Api.opens op = true ->
     let r := a_on_file a f (fun x => match file_step u (ce_io ce) op x (as_world a) with
             (r, x', w') => (of_file r, a_world (a_file a f (Some x')) w') end) in ainv u (snd r) /\ fst r <> CUndefined).
  { intros f op Ho. unfold a_on_file. destruct (as_files a f) as [x|] eqn:Ef; [|cbn; split; [exact HI|discriminate]].
    pose proof (open_defined (ce_io ce) op x (as_world a) HB (ai_files _ _ HI _ _ Ef) Ho) as Hd.
    pose proof (file_step_inv u (ce_io ce) op x (as_world a) Hu HB (ai_files _ _ HI _ _ Ef)) as Hi.
    destruct (file_step u (ce_io ce) op x (as_world a)) as [[r x'] w'] eqn:E. cbn [fst snd] in *. split; [|exact Hd].
    apply ainv_world. eapply ainv_file_same; eauto.
    assert (He : closed_empty x).
    { unfold closed_empty, file_tree. intros Hh. pose proof (ai_files _ _ HI _ _ Ef) as Hx. unfold file_inv in Hx. rewrite Hh in Hx.
      destruct Hx as (-> & _). reflexivity. }
    destruct (opening_shape _ _ _ _ _ _ _ _ Ho E He) as (_ & S2 & S3). destruct r; auto; right; apply S3; discriminate. }
  destruct c; cbn [a_step]; fold u.
  - (* FileInitialize *) apply Hfine. destruct (as_files a f) eqn:Ef; [cbn; split; [exact HI|discriminate]|].
    destruct (ce_memory ce); cbn [fst snd]; (split; [|discriminate]); [|exact HI].
    apply ainv_new_file; auto. apply new_inv.
  - (* FileFree *) apply Hfine. destruct (as_files a f) as [x|] eqn:Ef; [|cbn; split; [exact HI|discriminate]].
    destruct (file_free (ce_io ce) (as_world a) x) as [r w'] eqn:E. cbn [fst snd]. split.
    + apply ainv_world, ainv_kill; [exact HI|discriminate].
    + unfold file_free, file_close in E. destruct (fs_handle x).
      * injection E as <- _. destruct (fs_opened x); [destruct (ev_close (ce_io ce))|]; discriminate.
      * injection E as <- _. discriminate.
  - apply Hfine, Hopening. reflexivity.
  - apply Hfine, Hopening. reflexivity.
  - (* FileClose *) apply Hfine. unfold a_on_file. destruct (as_files a f) as [x|] eqn:Ef; [|cbn; split; [exact HI|discriminate]].
    pose proof (file_step_inv u (ce_io ce) FClose x (as_world a) Hu HB (ai_files _ _ HI _ _ Ef)) as Hi.
    assert (Hd : of_file (fst (fst (file_step u (ce_io ce) FClose x (as_world a)))) <> CUndefined).
    { cbn [file_step]. unfold file_close. destruct (fs_handle x); [|discriminate].
      destruct (fs_opened x); [destruct (ev_close (ce_io ce))|]; discriminate. }
    destruct (file_step u (ce_io ce) FClose x (as_world a)) as [[r x'] w']. cbn [fst snd] in *.
    destruct (fs_handle x); cbn [fst snd]; (split; [|exact Hd]); [|exact HI]. apply ainv_world, ainv_kill; [exact HI|].
    intros y [= <-]. exact Hi.
  - (* FileCall *) apply Hfine. unfold a_on_file. destruct (as_files a f) as [x|] eqn:Ef; [|cbn; split; [exact HI|discriminate]].
    destruct (query_op q) as [op|] eqn:Eq; [|cbn; split; [exact HI|discriminate]].
    pose proof (file_step_inv u (ce_io ce) op x (as_world a) Hu HB (ai_files _ _ HI _ _ Ef)) as Hi.
    assert (He : closed_empty x).
    { unfold closed_empty, file_tree. intros Hh. pose proof (ai_files _ _ HI _ _ Ef) as Hx. unfold file_inv in Hx. rewrite Hh in Hx.
      destruct Hx as (-> & _). reflexivity. }
    assert (Hd : of_file (fst (fst (file_step u (ce_io ce) op x (as_world a)))) <> CUndefined).
    { destruct q; try discriminate Eq; injection Eq as <-; cbn [file_step]; try discriminate.
      - unfold get_size32. destruct (_ <? _); discriminate.
      - unfold get_size32. destruct (_ <? _); discriminate.
      - unfold file_set_codepage. destruct (existsb _ _); discriminate. }
    destruct (file_step u (ce_io ce) op x (as_world a)) as [[r x'] w'] eqn:E. cbn [fst snd] in *. split; [|exact Hd].
    destruct (query_shape _ _ _ _ _ _ _ _ _ Eq E He) as [_ Hs]. eapply ainv_file_same; eauto.
  - apply Hfine, file_item_inv; [exact HI|]. intros x Hx. destruct (file_lookup_valid x [] Hx) as (A & _ & _ & B).
    split; [exact A|]. split; [intros -> k; discriminate|]. intros t k Ht H. apply (B t k Ht). auto.
  - apply Hfine, file_item_inv; [exact HI|]. intros x Hx. destruct (file_lookup_valid x path Hx) as (_ & A & _ & B).
    split; [exact A|]. split; [intros -> k; apply path_none|]. intros t k Ht H. apply (B t k Ht). auto.
  - apply Hfine, file_item_inv; [exact HI|]. intros x Hx. destruct (file_lookup_valid x path Hx) as (_ & _ & A & B).
    split; [exact A|]. split; [intros -> k; apply path_none|]. intros t k Ht H. apply (B t k Ht). auto.
  - apply Hfine. cbn. split; [|discriminate]. apply ainv_item; [exact HI|discriminate].
  - (* ItemCall *) destruct (as_items a i) as [o|] eqn:Ei; [|apply Hfine; cbn; split; [exact HI|discriminate]].
    cbn [fst snd]. split; [exact HI|]. intros HU. left. destruct o as [[[f k] z]|]; [exfalso|exact Ei].
    destruct (live_facts a i f k z HI Ei) as (Hz & x & t & d & rd & o & tt & H1 & H2 & H3 & H4 & H5 & H6 & H7 & H8 & H9 & H10).
    assert (He : a_entry a (Some (f, k, z)) = Ok d).
    { unfold a_entry. cbn. rewrite H1, H2. apply node_value_entry. exact H3. }
    revert HU. destruct q; cbn [a_item_value]; rewrite ?He; cbn [rbind of_number]; try discriminate.
    + apply number_fine, (co_utf8_size _ HL).
    + destruct (SSIZE_MAX <? size); [discriminate|]. apply bytes_fine, (co_utf8 _ HL).
    + apply number_fine, (co_utf16_size _ HL).
    + apply bytes_fine, (co_utf16 _ HL).
    + apply number_fine. unfold get_number_of_sub_items, sub_nodes. cbn. rewrite H1, H2. destruct H3 as (nd & -> & _). exact I.
  - (* ItemSub *) destruct (as_items a i) as [o|] eqn:Ei; [|apply Hfine; cbn; split; [exact HI|discriminate]].
    destruct (as_items a j) eqn:Ej; [apply Hfine; cbn; split; [exact HI|discriminate]|].
    destruct o as [[[f k] z]|].
    + apply Hfine. destruct (live_facts a i f k z HI Ei) as (Hz & x & t & d & rd & o & tt & H1 & H2 & H3 & H4 & H5 & H6 & H7 & H8 & H9 & H10 & _).
      assert (Hx : a_tree a (Some (f, k, z)) = t) by (cbn; rewrite H1, H2; reflexivity).
      assert (Hb : a_order a (Some (f, k, z)) = fh_byte_order (o_header o)) by (cbn; rewrite H1; exact H10).
      rewrite Hx, Hb. cbn [a_node]. destruct (tree_found_valid rd o tt t k l H5 H6 H7 (ex_intro _ d H3)) as [A B].
      apply (new_item_inv ce a f x t); auto.
    + split; [|intros _; left; exact Ei]. unfold a_new_item. cbn [a_tree].
      destruct (tree_found _ _ _ _ _) as [[k|]| | |]; cbn; auto. destruct (ce_memory ce); cbn; auto. rewrite freed_node_value. exact HI.
  - (* ItemStream *) destruct (as_items a i) as [o|] eqn:Ei; [|apply Hfine; cbn; split; [exact HI|discriminate]].
    destruct o as [[[f k] z]|]; [|cbn; split; [exact HI|]; intros _; left; exact Ei].
    destruct (live_facts a i f k z HI Ei) as (Hz & x & t & d & rd & o & tt & H1 & H2 & H3 & H4 & H5 & H6 & H7 & H8 & H9 & H10 & H11).
    assert (He : a_entry a (Some (f, k, z)) = Ok d).
    { unfold a_entry. cbn. rewrite H1, H2. apply node_value_entry. exact H3. }
    assert (Hs : a_stream a (Some (f, k, z)) = Some (d, opened_volume o, io_codepage (fs_io x))).
    { unfold a_stream. rewrite He, H1, H8. reflexivity. }
    rewrite Hs. pose proof (item_step_undef (ev_reader (ce_io ce)) (opened_volume o) d op z H9 H4 Hz) as HU.
    pose proof (item_step_pos (ev_reader (ce_io ce)) (opened_volume o) d op z H4 Hz) as Hp.
    assert (Hop : match op with OpRead n => 0 <= n | OpReadAt _ n => 0 <= n | OpSeek o _ => - 2 ^ 63 <= o < 2 ^ 63 | OpTell => True end)
      by (destruct op; exact HC).
    specialize (HU Hop). specialize (Hp Hop).
    destruct (item_step (ev_reader (ce_io ce)) (opened_volume o) d op z) as [r c']. cbn [fst snd] in *. split.
    + apply ainv_item; [exact HI|]. intros f' k' c1 [= <- <- <-]. split; [exact Hp|]. exists x, t. split; [exact H1|].
      split; [exact H2|]. exists d. exact H3.
    + intros E. right. assert (Er : r = RUndefined) by (destruct r; try discriminate E; reflexivity).
      destruct (HU Er) as [Hty Hc]. exists i, op, f, k, z, x, d. do 5 (split; [assumption || reflexivity|]).
      split; [rewrite Hs; discriminate|]. rewrite H11 in Hc. exact Hc.
  - (* ItemSet *) destruct (as_items a i) as [o|] eqn:Ei; [|apply Hfine; cbn; split; [exact HI|discriminate]].
    destruct (as_sets a x) eqn:Ex; [apply Hfine; cbn; split; [exact HI|discriminate]|].
    destruct (negb (ce_memory ce)); [apply Hfine; cbn; split; [exact HI|discriminate]|].
    destruct o as [[[f k] z]|]; [|cbn; split; [exact HI|]; intros _; left; exact Ei]. apply Hfine.
    destruct (live_facts a i f k z HI Ei) as (Hz & y & t & d & rd & o & tt & H1 & H2 & H3 & H4 & H5 & H6 & H7 & H8 & H9 & H10 & H11).
    assert (He : a_entry a (Some (f, k, z)) = Ok d).
    { unfold a_entry. cbn. rewrite H1, H2. apply node_value_entry. exact H3. }
    assert (Hs : a_stream a (Some (f, k, z)) = Some (d, opened_volume o, io_codepage (fs_io y))).
    { unfold a_stream. rewrite He, H1, H8. reflexivity. }
    rewrite Hs.
    pose proof (get_set_defined (cl_values lib) (ev_reader (ce_io ce)) (opened_volume o) d (io_codepage (fs_io y)) H9 H4 HB z []) as Hd.
    pose proof (get_set_cursor (cl_values lib) (ev_reader (ce_io ce)) (opened_volume o) d (io_codepage (fs_io y)) z []) as Hcur0.
    assert (Hcur : forall w c', fst (get_set (cl_values lib) (ev_reader (ce_io ce)) (opened_volume o) d (io_codepage (fs_io y)) z []) =
              Ok (w, c') -> 0 <= c') by (intros; eapply Hcur0; eauto).
    destruct (get_set _ _ _ _ _ _ _) as [[[w c']| | |] tr]; try destruct Hd; cbn [fst snd] in *; (split; [|discriminate]).
    + apply ainv_set; [|exact Ex]. apply ainv_item; [exact HI|]. intros f' k' c1 [= <- <- <-]. split; [eapply Hcur; eauto|].
      exists y, t. split; [exact H1|]. split; [exact H2|]. exists d. exact H3.
    + apply ainv_item; [exact HI|]. intros f' k' c1 [= <- <- <-]. split; [exact HP|].
      exists y, t. split; [exact H1|]. split; [exact H2|]. exists d. exact H3.
  - (* SetFree *) apply Hfine. destruct (as_sets a x); cbn; (split; [|discriminate]); [|exact HI]. apply ainv_drop_set. exact HI.
  - apply Hfine. destruct (as_sets a x); [destruct (size <? 16)|]; cbn; (split; [exact HI|discriminate]).
  - apply Hfine. destruct (as_sets a x); cbn; (split; [exact HI|discriminate]).
  - (* SetSection *) apply Hfine. destruct (as_sets a x) as [y|] eqn:Ex; [|cbn; split; [exact HI|discriminate]].
    destruct (as_sections a c); [cbn; split; [exact HI|discriminate]|]. unfold get_section.
    destruct (znth (ps_sections y) index) as [z|] eqn:Ez; cbn; (split; [|discriminate]); [|exact HI].
    apply ainv_section; [exact HI|]. intros x' i' [= <- <-]. eauto.
  - apply Hfine. cbn. split; [|discriminate]. apply ainv_section; [exact HI|discriminate].
  - (* SectionClass *) destruct (as_sections a c) as [o|] eqn:Ec; [|apply Hfine; cbn; split; [exact HI|discriminate]].
    destruct (size <? 16); [apply Hfine; cbn; split; [exact HI|discriminate]|]. destruct o as [[x i]|].
    + apply Hfine. destruct (ai_sections _ _ HI _ _ _ Ec) as (y & z & H1 & H2). cbn. rewrite H1, H2. cbn. split; [exact HI|discriminate].
    + cbn. split; [exact HI|]. intros _. left. exact Ec.
  - destruct (as_sections a c) as [o|] eqn:Ec; [|apply Hfine; cbn; split; [exact HI|discriminate]]. destruct o as [[x i]|].
    + apply Hfine. destruct (ai_sections _ _ HI _ _ _ Ec) as (y & z & H1 & H2). cbn. rewrite H1, H2. cbn. split; [exact HI|discriminate].
    + cbn. split; [exact HI|]. intros _. left. exact Ec.
  - (* SectionValue *) destruct (as_sections a c) as [o|] eqn:Ec; [|apply Hfine; cbn; split; [exact HI|discriminate]].
    destruct (as_values a v); [apply Hfine; cbn; split; [exact HI|discriminate]|]. destruct o as [[x i]|].
    + apply Hfine. destruct (ai_sections _ _ HI _ _ _ Ec) as (y & z & H1 & H2). cbn [a_part]. rewrite H1, H2. unfold get_property.
      destruct (znth (sc_properties z) index) as [p|] eqn:Ep; cbn; (split; [|discriminate]); [|exact HI].
      apply ainv_value; [exact HI|]. intros x' i' j' [= <- <- <-]. exists y, z, p. auto.
    + cbn. split; [exact HI|]. intros _. left. exact Ec.
  - apply Hfine. cbn. split; [|discriminate]. apply ainv_value; [exact HI|discriminate].
  - (* ValueCall *) destruct (as_values a v) as [o|] eqn:Ev; [|apply Hfine; cbn; split; [exact HI|discriminate]]. destruct o as [[[x i] j]|].
    + apply Hfine. destruct (ai_values _ _ HI _ _ _ _ Ev) as (y & z & p & H1 & H2 & H3). cbn. rewrite H1, H2, H3. cbn.
      split; [exact HI|]. apply value_fine.
    + cbn. split; [exact HI|]. intros _. left. exact Ev.
  - apply Hfine. cbn. split; [|discriminate]. apply ainv_world. exact HI.
  - apply Hfine. cbn. split; [|discriminate]. apply ainv_world. exact HI.
Qed.
End Inv.
