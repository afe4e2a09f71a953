(** Lemmas on documents mounted on Windows. *)
From Coq Require Import ZArith List Bool Lia.
From Verif Require Import Base Spec_IO M_Header M_Table M_Load M_Stream M_Tree M_Open M_Item
  Spec_Stream Spec_Load Spec_Tree Spec_Open Spec_Content Spec_Item M_Mount M_WMount M_Fuse M_Dokan Spec_Mount Spec_WMount Spec_Fuse Spec_Dokan
  L_Base L_Item L_Mount L_WMount L_Fuse L_Dokan L_Dokan2 P_Dokan L_Load L_Write L_Write2 L_Write6 L_Write7 Spec_Write Spec_Doc L_Doc
  Spec_DocMount L_DocMount Spec_DocDokan.
Import ListNotations.
Open Scope Z_scope.

Section Mounted.
Variable m : mounted.
Variable rd : reader.
Variable h : file_header.
Variable root : dirent.
Variable doc : document.
Variable chars : list Z -> list Z.
Hypothesis HM : wmounts m rd h root doc chars.

Notation same := (fun q n => same_list q (chars n)).

Lemma wmounted_tree : exists o t tr, wmount_of m o rd t /\ o_tree o = Some tr /\ mt_tree m = Some tr /\
  v_byte_order (mt_volume m) = fh_byte_order h /\ 4 <= v_sector_size (mt_volume m) /\
  v_short_sector_size (mt_volume m) = fh_short_sector_size h /\
  item_at rd (mt_volume m) tr doc Top 0 /\
  (forall k nd, nth_error (tr_nodes tr) k = Some nd -> de_type (n_entry nd) = 1 -> de_size (n_entry nd) = 0) /\
  (forall d, item_entry tr 0 d -> de_size d = de_size root).
Proof.
  pose proof (wm_holds _ _ _ _ _ _ HM) as HH.
  destruct (holds_opens _ _ _ _ _ HH) as (o & t & tr & H1 & H2 & H3 & H4 & H5 & H6).
  destruct (wm_mounted _ _ _ _ _ _ HM o t H1) as (M1 & M2).
  exists o, t, tr. rewrite M1.
  split.
  { split; [exact (wm_ok _ _ _ _ _ _ HM)|]. split; [exact (hd_una _ _ _ _ _ HH)|].
    split; [exact (hd_bytes _ _ _ _ _ HH)|]. auto. }
  split; [exact H2|]. split; [congruence|]. cbn [opened_volume v_byte_order v_sector_size v_short_sector_size]. rewrite H3.
  split; [reflexivity|]. split; [exact (holds_sector _ _ _ _ _ HH)|]. split; [reflexivity|]. split; [exact H4|]. split; [exact H5|].
  intros d (x & X1 & <-). destruct H6 as (y & Y1 & <-). congruence.
Qed.

Lemma wwalk_reached tr css ns p k : v_byte_order (mt_volume m) = fh_byte_order h ->
  (forall k nd, nth_error (tr_nodes tr) k = Some nd -> de_type (n_entry nd) = 1 -> de_size (n_entry nd) = 0) ->
  Forall2 (text (mt_codec m)) css ns -> Forall path_name css -> item_at rd (mt_volume m) tr doc p k ->
  (forall cs l, path_name cs -> text (mt_codec m) cs l ->
     names_ok (fun n => una_utf16_compare (mt_una m) l n (fh_byte_order h) = Ok (same_list cs (chars n))) (below doc p)) ->
  answer rd (mt_volume m) tr doc (reached doc same p css)
    (lookup_names (sub_node_by_utf16_name (mt_una m) (fh_byte_order h) tr) k ns).
Proof.
  intros He Hnd HT. revert p k. induction HT as [|cs n css ns Ht HT IH]; intros p k HPN HI HC; cbn [reached lookup_names].
  - exists k. auto.
  - inversion HPN as [|? ? Hcs HPN']; subst. pose proof HI as (nd & H1 & _ & H3 & _). unfold sub_node_by_utf16_name at 1, sub_nodes. rewrite H1. cbn [rbind].
    pose proof (loop_finds rd (mt_volume m) tr doc (fun x => una_utf16_compare (mt_una m) n x (fh_byte_order h))
                  (fun x => same_list cs (chars x)) _ _ (shows_members rd (mt_volume m) tr doc Hnd _ _ H3)) as HL.
    specialize (HL (names_members _ _ (HC cs n Hcs Ht))). destruct (find _ _) as [i|] eqn:E.
    + destruct HL as (j & -> & Hj). apply IH; [exact HPN'|exact Hj|]. apply find_some in E as (E & _).
      intros cs' l Hp Hl. eapply names_below; [|exact E]. exact (HC cs' l Hp Hl).
    + rewrite HL. reflexivity.
Qed.

Lemma wpath_names css path : wmount_path_of m css path ->
  exists ns fs, path = wmount_path fs /\ wfile_names_of m css ns fs.
Proof.
  intros (H1 & H2 & fs & H3 & -> & H4).
  destruct (mapped (fun cs l => text (mt_codec m) cs l /\ zlen l <= 461168601842738790) css H2) as (ns & HN).
  exists ns, fs. split; [reflexivity|].
  assert (HT : Forall2 (text (mt_codec m)) css ns).
  { clear - HN. induction HN; constructor; tauto. }
  split; [exact HT|]. split; [exact H1|]. split; [|exact H4].
  clear H2 H4 HT. revert fs H3. induction HN as [|cs n css ns (Ht & Hl) HN IH]; intros fs H3; inversion H3; subst; constructor.
  - inversion H1 as [|? ? (P1 & P2) P3]; subst.
    destruct (wfile_name_exact (mt_codec m) cs n (wo_codec _ (wm_ok _ _ _ _ _ _ HM)) Ht P1
      ltac:(eapply Forall_impl; [|exact P2]; cbn; intros; lia) Hl) as (f & F1 & F2).
    rewrite F1. f_equal. eapply wfile_name_text_fun; eassumption.
  - inversion H1; subst. apply IH; assumption.
Qed.

Lemma wwalk_answer tr css ns : v_byte_order (mt_volume m) = fh_byte_order h -> item_at rd (mt_volume m) tr doc Top 0 ->
  (forall k nd, nth_error (tr_nodes tr) k = Some nd -> de_type (n_entry nd) = 1 -> de_size (n_entry nd) = 0) ->
  Forall2 (text (mt_codec m)) css ns -> Forall path_name css ->
  answer rd (mt_volume m) tr doc (reached doc same Top css) (wwalk m tr ns).
Proof.
  intros He H0 Hnd HT HPN. unfold wwalk. rewrite He. apply wwalk_reached; auto. exact (wm_compare _ _ _ _ _ _ HM).
Qed.

Lemma attributes_place p d a : entry_of doc p d -> attributes_of d a -> a = if is_stream_place p then 128 else 16.
Proof.
  intros HE (A1 & A2). destruct p as [|[n c t l|n c t x]]; cbn [entry_of is_stream_place] in *; destruct HE as (E & _).
  - apply A1. auto.
  - apply A2; congruence.
  - apply A1. auto.
Qed.

Lemma entry_place p d : entry_of doc p d -> (p = Top -> de_size d = de_size root) ->
  de_ctime d = place_ctime doc p /\ de_mtime d = place_mtime doc p /\ de_size d = place_size root p.
Proof.
  intros HE HT. destruct p as [|[n c t l|n c t x]]; cbn [entry_of place_ctime place_mtime place_size] in *; intuition.
Qed.

Lemma wlooks_informs p d i x : entry_of doc p d -> (p = Top -> de_size d = de_size root) ->
  informs (mt_time m) d i x -> wlooks m root doc p i x.
Proof.
  intros HE HT [D1 D2 D3 D4 D5 D6 D7]. destruct (entry_place p d HE HT) as (E1 & E2 & E3). rewrite E1, E2, E3 in *.
  constructor; auto. exact (attributes_place p d _ HE D1).
Qed.

Lemma wfinds_describes p d f s x : entry_of doc p d -> (p = Top -> de_size d = de_size root) ->
  find_describes (mt_time m) d f s x -> wfinds m root doc p f s x.
Proof.
  intros HE HT [D1 D2 D3 D4 D5 D6 D7]. destruct (entry_place p d HE HT) as (E1 & E2 & E3). rewrite E1, E2, E3 in *.
  constructor; auto. exact (attributes_place p d _ HE D1).
Qed.

(** What is found at a path, with its entry. *)
Lemma wfound tr css path : mt_tree m = Some tr -> v_byte_order (mt_volume m) = fh_byte_order h ->
  item_at rd (mt_volume m) tr doc Top 0 ->
  (forall k nd, nth_error (tr_nodes tr) k = Some nd -> de_type (n_entry nd) = 1 -> de_size (n_entry nd) = 0) ->
  (forall d, item_entry tr 0 d -> de_size d = de_size root) ->
  wmount_path_of m css path ->
  exists ns fs, path = wmount_path fs /\ wfile_names_of m css ns fs /\
  match reached doc same Top css with
  | Some p => exists k d, wwalk m tr ns = Ok (Some k) /\ item_entry tr k d /\
      item_at rd (mt_volume m) tr doc p k /\ entry_of doc p d /\ (p = Top -> de_size d = de_size root)
  | None => wwalk m tr ns = Ok None
  end.
Proof.
  intros Ht He H0 Hnd Hsz HP. destruct (wpath_names css path HP) as (ns & fs & -> & HN).
  exists ns, fs. split; [reflexivity|]. split; [exact HN|].
  pose proof (wwalk_answer tr css ns He H0 Hnd (proj1 HN) (proj1 (proj2 HN))) as HA.
  destruct (reached doc same Top css) as [p|] eqn:HR; [|exact HA]. destruct HA as (k & Hw & HI).
  pose proof HI as (nd & N1 & N2 & _). exists k, (n_entry nd). split; [exact Hw|].
  split; [exists nd; auto|]. split; [exact HI|]. split; [exact N2|].
  intros ->. apply reached_top in HR. subst css. destruct HN as (HT & _). inversion HT; subst. unfold wwalk in Hw. cbn in Hw.
  assert (k = 0%nat) by congruence. subst k. apply Hsz. exists nd. auto.
Qed.

(** The listing of the items. *)
Lemma witems_listed tr o t js l : wmount_of m o rd t -> o_tree o = Some tr -> v_byte_order (mt_volume m) = fh_byte_order h ->
  Forall2 (fun j i => item_at rd (mt_volume m) tr doc (At i) j) js l ->
  Forall (fun i => path_name (chars (name_of i)) /\
      exists x, mt_name m (name_of i) (fh_byte_order h) = Some x /\ text (mt_codec m) (chars (name_of i)) x) l ->
  Forall (fun i => forall n, text (mt_codec m) (chars (name_of i)) n -> zlen n <= 25) l ->
  exists rest, Forall2 (find_lists m tr) js rest /\
    Forall2 (fun i y => exists n f, text (mt_codec m) (chars (name_of i)) n /\ wfile_name_text (mt_codec m) (chars (name_of i)) f /\
               wfinds m root doc (At i) f (if zlen n =? 1 then f else []) y) l rest.
Proof.
  intros HO Ho He HF. induction HF as [|j i js l HI HF IH]; intros HN HT; [exists []; split; constructor|].
  inversion HN as [|? ? ((P1 & P2) & x & X1 & X2) HN']; subst. inversion HT as [|? ? T1 HT']; subst.
  destruct (IH HN' HT') as (rest & R1 & R2).
  pose proof HI as (nd & N1 & N2 & _). assert (Hk : item_entry tr j (n_entry nd)) by (exists nd; auto).
  destruct (C79_opened m o rd t tr HO Ho) as (Ht & _ & HB).
  pose proof (wm_ok _ _ _ _ _ _ HM) as HK.
  assert (P0 : Forall (fun c => c <> 0) (chars (name_of i))) by (eapply Forall_impl; [|exact P2]; cbn; intros; lia).
  pose proof (T1 x X2) as Hx.
  destruct (wfile_name_exact (mt_codec m) _ x (wo_codec _ HK) X2 P1 P0 ltac:(lia)) as (f & F1 & F2).
  destruct (wfile_name_good (mt_codec m) _ x f (wo_codec _ HK) X2 P1 P0 F1) as (_ & _ & F3).
  pose proof (set_find_ok m (n_entry nd) f (if zlen x =? 1 then f else []) HK (proj1 (HB j _ Hk))) as HS.
  match type of HS with find_describes _ _ _ _ ?y => exists (y :: rest) end.
  split; constructor; auto.
  - exists (n_entry nd), x, f.
    assert (En : de_name (n_entry nd) = name_of i) by (destruct i; cbn [entry_of name_of] in *; tauto).
    split; [split; [exact Hk|]; rewrite En, He; auto|]. split; [exact Hx|]. rewrite F3. exact HS.
  - exists x, f. split; [exact X2|]. split; [exact F2|]. apply (wfinds_describes (At i) (n_entry nd)); [exact N2|discriminate|exact HS].
Qed.
End Mounted.
