(** Lemmas about the lifetime of the parts of a property set. *)
From Coq Require Import ZArith List Bool Lia Permutation.
From Verif Require Import Base M_Table M_Load M_Stream M_Prop M_PropFree Spec_PropFree.
Import ListNotations.
Open Scope Z_scope.

(** ** The parts as lists *)
Fixpoint array_parts {A} (f : nat -> A -> list part) (j : nat) (l : list A) : list part :=
  match l with [] => [] | x :: l' => f j x ++ array_parts f (S j) l' end.

Definition value_parts (k j : nat) (p : property) : list part :=
  PartValue k j :: match pv_value p with Some _ => [PartData k j] | None => [] end.
Definition section_parts (k : nat) (ps : list property) : list part :=
  PartSection k :: array_parts (value_parts k) 0 ps.
Definition sections_parts (l : list section) : list part :=
  array_parts (fun k s => section_parts k (sc_properties s)) 0 l.

Definition value_drops (k j : nat) (p : property) : list part :=
  match pv_value p with Some _ => [PartData k j] | None => [] end ++ [PartValue k j].
Definition section_drops (k : nat) (ps : list property) : list part :=
  array_parts (value_drops k) 0 ps ++ [PartSection k].
Definition set_drops (l : list section) : list part :=
  array_parts (fun k s => section_drops k (sc_properties s)) 0 l ++ [PartSet].

Lemma array_free_map {A} (f : nat -> A -> list pevent) g l : (forall j x, f j x = map Drop (g j x)) ->
  forall j, array_free f j l = map Drop (array_parts g j l).
Proof. intros H. induction l as [|x l IH]; intros j; [reflexivity|]. cbn. rewrite H, IH, map_app. reflexivity. Qed.

Lemma set_free_map l : set_free l = map Drop (set_drops l).
Proof.
  unfold set_free, set_drops. rewrite map_app.
  rewrite (array_free_map _ (fun k s => section_drops k (sc_properties s))); [reflexivity|].
  intros k s. unfold section_free, section_drops. rewrite map_app.
  rewrite (array_free_map _ (value_drops k)); [reflexivity|].
  intros j p. unfold value_free, value_drops. destruct (pv_value p); reflexivity.
Qed.

Lemma array_perm {A} (f g : nat -> A -> list part) l : (forall j x, Permutation (f j x) (g j x)) ->
  forall j, Permutation (array_parts f j l) (array_parts g j l).
Proof. intros H. induction l as [|x l IH]; intros j; [constructor|]. cbn. apply Permutation_app; auto. Qed.

Lemma set_perm l : Permutation (PartSet :: sections_parts l) (set_drops l).
Proof.
  unfold set_drops. etransitivity; [|apply Permutation_cons_append]. apply perm_skip.
  apply array_perm. intros k s. unfold section_drops, section_parts.
  etransitivity; [|apply Permutation_cons_append]. apply perm_skip. apply array_perm. intros j p.
  unfold value_parts, value_drops. apply Permutation_cons_append.
Qed.

Lemma array_in {A} (f : nat -> A -> list part) l p : forall j,
  In p (array_parts f j l) <-> exists i x, nth_error l i = Some x /\ In p (f (j + i)%nat x).
Proof.
  induction l as [|x l IH]; intros j; cbn [array_parts].
  - split; [contradiction|]. intros ([|i] & y & H & _); discriminate.
  - rewrite in_app_iff, IH. split.
    + intros [H|(i & y & H & Hp)]; [exists 0%nat, x; rewrite Nat.add_0_r; auto|].
      exists (S i), y. replace (j + S i)%nat with (S j + i)%nat by lia. auto.
    + intros ([|i] & y & H & Hp); cbn in H.
      * injection H as ->. rewrite Nat.add_0_r in Hp. auto.
      * right. exists i, y. replace (S j + i)%nat with (j + S i)%nat by lia. auto.
Qed.

Lemma value_parts_in k j q p : In p (value_parts k j q) <-> p = PartValue k j \/ p = PartData k j /\ pv_value q <> None.
Proof.
  unfold value_parts. destruct (pv_value q); cbn; split; intros H.
  - destruct H as [<-|[<-|[]]]; [auto|right; split; [auto|discriminate]].
  - destruct H as [->|[-> _]]; auto.
  - destruct H as [<-|[]]. auto.
  - destruct H as [->|[_ H]]; [auto|congruence].
Qed.

Lemma section_parts_in k ps p : In p (section_parts k ps) <-> section_part k ps p.
Proof.
  unfold section_parts, section_part. cbn [In]. rewrite array_in.
  split; (intros [H|(j & q & H & Hp)]; [left; auto|right; exists j, q; split; [exact H|now apply value_parts_in]]).
Qed.

Lemma sections_parts_in l p : In p (sections_parts l) <-> exists k s, nth_error l k = Some s /\ section_part k (sc_properties s) p.
Proof.
  unfold sections_parts. rewrite array_in.
  split; intros (k & s & H & Hp); exists k, s; (split; [exact H|]); now apply section_parts_in.
Qed.

(** The section that a part is in. *)
Definition at_section (p : part) : option nat :=
  match p with PartSet => None | PartSection k | PartValue k _ | PartData k _ => Some k end.
Definition at_value (p : part) : option nat :=
  match p with PartValue _ j | PartData _ j => Some j | _ => None end.

Lemma array_nodup {A} (at_ : part -> option nat) (f : nat -> A -> list part) l :
  (forall j x, NoDup (f j x)) -> (forall j x p, In p (f j x) -> at_ p = Some j) ->
  forall j, NoDup (array_parts f j l).
Proof.
  intros Hn Ha. induction l as [|x l IH]; intros j; [constructor|]. cbn. 
  assert (Hd : forall p, In p (f j x) -> ~ In p (array_parts f (S j) l)).
  { intros p Hp Hq. apply array_in in Hq as (i & y & _ & Hy). apply Ha in Hp. apply Ha in Hy.
    rewrite Hp in Hy. injection Hy as Hy. lia. }
  revert Hd. pose proof (Hn j x) as Hx. induction Hx as [|p l' Hp Hx IHx]; intros Hd; [apply IH|].
  cbn. constructor.
  - rewrite in_app_iff. intros [H|H]; [contradiction|]. apply (Hd p); [now left|exact H].
  - apply IHx. intros q Hq. apply Hd. now right.
Qed.

Lemma values_nodup k j ps : NoDup (array_parts (value_parts k) j ps).
Proof.
  apply (array_nodup at_value).
  - intros i q. unfold value_parts. destruct (pv_value q); repeat constructor; cbn; intuition discriminate.
  - intros i q p H. apply value_parts_in in H as [->|[-> _]]; reflexivity.
Qed.

Lemma section_part_at k ps p : section_part k ps p -> at_section p = Some k.
Proof. intros [->|(j & q & _ & [->|[-> _]])]; reflexivity. Qed.

Lemma section_nodup k ps : NoDup (section_parts k ps).
Proof.
  unfold section_parts. constructor; [|apply values_nodup].
  rewrite array_in. intros (j & q & _ & H). apply value_parts_in in H as [H|[H _]]; discriminate.
Qed.

Lemma sections_nodup l : NoDup (PartSet :: sections_parts l).
Proof.
  constructor.
  - rewrite sections_parts_in. intros (k & s & _ & H). apply section_part_at in H. discriminate.
  - unfold sections_parts. apply (array_nodup at_section); [intros; apply section_nodup|].
    intros k s p H. apply section_parts_in in H. eapply section_part_at. exact H.
Qed.

(** ** The heap *)
Lemma heap_app a : forall live b,
  heap live (a ++ b) = match heap live a with Some live' => heap live' b | None => None end.
Proof.
  induction a as [|[p|p] a IH]; intros live b; cbn; auto.
  - destruct (in_dec _ _ _); auto.
  - destruct (in_dec _ _ _); auto.
Qed.

Lemma heap_makes l : forall live, NoDup l -> (forall p, In p l -> ~ In p live) ->
  exists live', heap live (map Make l) = Some live' /\ (NoDup live -> NoDup live') /\
    forall p, In p live' <-> In p l \/ In p live.
Proof.
  induction l as [|q l IH]; intros live Hn Hd; [exists live; cbn; intuition|].
  inversion Hn as [|? ? Hq Hl]; subst. cbn [map heap].
  destruct (in_dec part_dec q live) as [H|H]; [exfalso; apply (Hd q); [now left|exact H]|].
  destruct (IH (q :: live) Hl) as (live' & H1 & H2 & H3).
  - intros p Hp [->|Hl']; [contradiction|]. apply (Hd p); [now right|exact Hl'].
  - exists live'. split; [exact H1|]. split; [intros Hv; apply H2; now constructor|].
    intros p. rewrite H3. cbn. intuition.
Qed.

Lemma remove_nodup q l : NoDup l -> NoDup (remove part_dec q l).
Proof.
  induction 1 as [|p l Hp Hl IH]; [constructor|]. cbn. destruct (part_dec q p); [exact IH|].
  constructor; [|exact IH]. intros H. apply in_remove in H as [H _]. contradiction.
Qed.

Lemma heap_drops l : forall live, NoDup l -> (forall p, In p l -> In p live) ->
  exists live', heap live (map Drop l) = Some live' /\ (NoDup live -> NoDup live') /\
    forall p, In p live' <-> In p live /\ ~ In p l.
Proof.
  induction l as [|q l IH]; intros live Hn Hi; [exists live; cbn; intuition|].
  inversion Hn as [|? ? Hq Hl]; subst. cbn [map heap].
  destruct (in_dec part_dec q live) as [H|H]; [|exfalso; apply H, Hi; now left].
  destruct (IH (remove part_dec q live) Hl) as (live' & H1 & H2 & H3).
  - intros p Hp. apply in_in_remove; [congruence|]. apply Hi. now right.
  - exists live'. split; [exact H1|]. split; [intros Hv; apply H2; now apply remove_nodup|].
    intros p. rewrite H3. split.
    + intros [Hp Hn']. apply in_remove in Hp as [Hp Hpq]. cbn. intuition congruence.
    + intros [Hp Hn']. cbn in Hn'. split; [apply in_in_remove; intuition congruence|]. tauto.
Qed.

(** ** The shape of the log *)
Definition tail_of (k j : nat) (l : list pevent) : Prop :=
  l = [] \/ l = [Make (PartValue k j); Drop (PartValue k j)].

Section Read.
Variable lib : fvlib.
Variable rd : reader.
Variable v : volume.
Variable d : dirent.
Variable cp : Z.

Lemma properties_log n k e base : forall j c pos acc t m,
  let '((r, m'), t') := l_properties_loop lib rd v d cp n k j e base c pos acc t m in
  properties_loop lib rd v d cp n e base c pos acc t = (r, t') /\
  match r with
  | Ok (ps, _) => exists new, ps = acc ++ new /\ m' = m ++ map Make (array_parts (value_parts k) j new)
  | Err => exists new tl, m' = m ++ map Make (array_parts (value_parts k) j new) ++ tl /\ tail_of k (j + length new) tl
  | _ => True
  end.
Proof.
  induction n as [|n IH]; intros j c pos acc t m.
  - cbn. split; [reflexivity|]. exists []. rewrite !app_nil_r. auto.
  - cbn [l_properties_loop properties_loop]. unfold lbind, llift, ltell, on_error, ibind.
    destruct (pseek d c pos t) as [[c1| | |] t1]; try (split; [reflexivity|exact I]).
    2: { split; [reflexivity|]. exists [], []. split; [now rewrite app_nil_r|]. now left. }
 destruct (read_list_entry rd v d e c1 t1) as [[[[id rel] c2]| | |] t2];
      try (split; [reflexivity|exact I]).
    2: { split; [reflexivity|]. exists [], [Make (PartValue k j); Drop (PartValue k j)].
         split; [cbn; now rewrite <- app_assoc|]. right. now rewrite Nat.add_0_r. }
    destruct (rel <=? 8).
    { cbn. split; [reflexivity|]. exists [], [Make (PartValue k j); Drop (PartValue k j)].
      split; [cbn; now rewrite <- app_assoc|]. right. now rewrite Nat.add_0_r. }
 destruct (ilift (stream_get_offset d c2) t2) as [[pos2| | |] t3];
      try (split; [reflexivity|exact I]).
    2: { split; [reflexivity|]. exists [], [Make (PartValue k j); Drop (PartValue k j)].
         split; [cbn; now rewrite <- app_assoc|]. right. now rewrite Nat.add_0_r. }
 destruct (read_data lib rd v d cp e c2 (u32 (base + rel)) t3) as [[[[ty f] c3]| | |] t4];
      try (split; [reflexivity|exact I]).
    2: { split; [reflexivity|]. exists [], [Make (PartValue k j); Drop (PartValue k j)].
         split; [cbn; now rewrite <- app_assoc|]. right. now rewrite Nat.add_0_r. }
    cbn [iret pv_value].
    set (p := {| pv_id := id; pv_type := ty; pv_value := f |}).
    set (m2 := (m ++ [Make (PartValue k j)]) ++ match f with Some _ => [Make (PartData k j)] | None => [] end).
    specialize (IH (S j) c3 pos2 (acc ++ [p]) t4 m2).
    destruct (l_properties_loop lib rd v d cp n k (S j) e base c3 pos2 (acc ++ [p]) t4 m2) as [[r m'] t'].
    destruct IH as [H1 H2]. split; [exact H1|].
    assert (Hm : forall new, m2 ++ map Make (array_parts (value_parts k) (S j) new) =
                 m ++ map Make (array_parts (value_parts k) j (p :: new))).
    { intros new. cbn [array_parts]. unfold m2, value_parts at 2. cbn [pv_value p].
      rewrite <- !app_assoc. cbn [app map]. rewrite map_app. destruct f; reflexivity. }
    destruct r as [[ps c4]| | |]; auto.
    + destruct H2 as (new & -> & ->). exists (p :: new). rewrite <- app_assoc. split; [reflexivity|]. apply Hm.
    + destruct H2 as (new & tl & -> & Ht). exists (p :: new), tl. rewrite app_assoc, Hm, <- app_assoc.
      split; [reflexivity|]. cbn [length]. now rewrite Nat.add_succ_r.
Qed.

Lemma section_log k e c base t m :
  let '((r, m'), t') := l_section_read lib rd v d cp k e c base t m in
  section_read lib rd v d cp e c base t = (r, t') /\
  match r with
  | Ok (ps, _) => m' = m ++ map Make (array_parts (value_parts k) 0 ps)
  | Err => exists new tl, m' = m ++ map Make (array_parts (value_parts k) 0 new) ++ tl /\ tail_of k (length new) tl
  | _ => True
  end.
Proof.
  unfold l_section_read, section_read. unfold lbind, llift, ibind.
  assert (He : exists new tl, m = m ++ map Make (array_parts (value_parts k) 0 new) ++ tl /\ tail_of k (length new) tl).
  { exists [], []. split; [now rewrite app_nil_r|now left]. }
  destruct (pseek d c base t) as [[c1| | |] t1]; try (split; [reflexivity|exact I || exact He]).
 destruct (pread rd v d c1 8 t1) as [[[b c2]| | |] t2]; try (split; [reflexivity|exact I || exact He]).
 destruct (ilift (get_u32 e b 0) t2) as [[size| | |] t3]; try (split; [reflexivity|exact I || exact He]).
 destruct (ilift (get_u32 e b 4) t3) as [[n| | |] t4]; try (split; [reflexivity|exact I || exact He]).
  cbn [iret]. pose proof (properties_log (Z.to_nat n) k e base 0 c2 (base + 8) [] t4 m) as H.
  destruct (l_properties_loop _ _ _ _ _ _ _ _ _ _ _ _ _ _ _) as [[r m'] t']. destruct H as [H1 H2].
  split; [exact H1|]. destruct r as [[ps c3]| | |]; auto. destruct H2 as (new & -> & ->). reflexivity.
Qed.

(** What a failure leaves. *)
Definition failed_log (acc : list section) (k : nat) (ev : list pevent) : Prop :=
  exists new tl, tail_of k (length new) tl /\
    ev = map Make (section_parts k new) ++ tl ++ set_free acc.

Lemma sections_log n e : forall k c pos acc t m, k = length acc ->
  let '((r, m'), t') := l_sections_loop lib rd v d cp n k e c pos acc t m in
  sections_loop lib rd v d cp n e c pos acc t = (r, t') /\
  match r with
  | Ok (secs, _) => exists new, secs = acc ++ new /\
      m' = m ++ map Make (array_parts (fun k s => section_parts k (sc_properties s)) k new)
  | Err => exists new ev, failed_log (acc ++ new) (k + length new) ev /\
      m' = m ++ map Make (array_parts (fun k s => section_parts k (sc_properties s)) k new) ++ ev
  | _ => True
  end.
Proof.
  induction n as [|n IH]; intros k c pos acc t m Hk.
  - cbn. split; [reflexivity|]. exists []. rewrite !app_nil_r. auto.
  - cbn [l_sections_loop sections_loop]. unfold lbind, llift, ltell, on_error, ibind.
    assert (He : exists new ev, failed_log (acc ++ new) (k + length new) ev /\
      (m ++ [Make (PartSection k)]) ++ set_free acc =
      m ++ map Make (array_parts (fun k s => section_parts k (sc_properties s)) k new) ++ ev).
    { exists [], (Make (PartSection k) :: set_free acc). split.
      - exists [], []. cbn. rewrite app_nil_r, Nat.add_0_r. split; [now left|reflexivity].
      - cbn. now rewrite <- app_assoc. }
 destruct (pseek d c pos t) as [[c1| | |] t1]; try (split; [reflexivity|exact I || exact He]).
 destruct (section_list_entry rd v d e c1 t1) as [[[[class base] c2]| | |] t2];
      try (split; [reflexivity|exact I || exact He]).
 destruct (ilift (stream_get_offset d c2) t2) as [[pos2| | |] t3];
      try (split; [reflexivity|exact I || exact He]).
    cbn [iret].
    pose proof (section_log k e c2 base t3 (m ++ [Make (PartSection k)])) as H.
    destruct (l_section_read lib rd v d cp k e c2 base t3 (m ++ [Make (PartSection k)])) as [[[[props c3]| | |] m1] t4];
      destruct H as [H1 H2]; rewrite H1; try (split; [reflexivity|exact I]).
    + cbn [lret]. subst m1.
      set (s := {| sc_class := class; sc_properties := props |}).
      set (m2 := (m ++ [Make (PartSection k)]) ++ map Make (array_parts (value_parts k) 0 props)).
      specialize (IH (S k) c3 pos2 (acc ++ [s]) t4 m2).
      assert (Hk' : S k = length (acc ++ [s])) by (rewrite app_length; cbn; lia). specialize (IH Hk').
      destruct (l_sections_loop lib rd v d cp n (S k) e c3 pos2 (acc ++ [s]) t4 m2) as [[r m'] t'].
      destruct IH as [I1 I2]. split; [exact I1|].
      assert (Hm : forall new, m2 ++ map Make (array_parts (fun k s => section_parts k (sc_properties s)) (S k) new) =
                 m ++ map Make (array_parts (fun k s => section_parts k (sc_properties s)) k (s :: new))).
      { intros new. cbn [array_parts]. unfold m2, section_parts at 2. cbn [sc_properties s].
        rewrite map_app. rewrite <- !app_assoc. reflexivity. }
      destruct r as [[secs c4]| | |]; auto.
      * destruct I2 as (new & -> & ->). exists (s :: new). rewrite <- app_assoc. split; [reflexivity|]. apply Hm.
      * destruct I2 as (new & ev & Hf & ->). exists (s :: new), ev. rewrite <- app_assoc in Hf. cbn [length].
        rewrite Nat.add_succ_r. split; [exact Hf|]. rewrite app_assoc, Hm, <- app_assoc. reflexivity.
    + split; [reflexivity|]. destruct H2 as (new & tl & -> & Ht).
      exists [], ((Make (PartSection k) :: map Make (array_parts (value_parts k) 0 new)) ++ tl ++ set_free acc).
      cbn [length array_parts map app]. rewrite app_nil_r, Nat.add_0_r. split.
      * exists new, tl. split; [exact Ht|]. reflexivity.
      * rewrite <- !app_assoc. reflexivity.
Qed.

Definition header_io (c : Z) : io (property_set * Z) :=
  dio c <- pseek d c 0;
  dio (b, c) <- pread rd v d c 28;
  dio h <- ilift (read_header b);
  iret (h, c).

Lemma get_set_log c t :
  let '((r, m), t') := l_get_set lib rd v d cp c t [] in
  get_set lib rd v d cp c t = (r, t') /\
  match r with
  | Ok (x, _) => m = map Make (PartSet :: sections_parts (ps_sections x))
  | Err => fst (header_io c t) = Err /\ m = [Make PartSet; Drop PartSet] \/
      exists secs ev, failed_log secs (length secs) ev /\
        m = map Make (PartSet :: sections_parts secs) ++ ev
  | _ => True
  end.
Proof.
  unfold l_get_set, get_set, header_io. unfold lbind, llift, ltell, on_error, lret, ibind.
  destruct (pseek d c 0 t) as [[c1| | |] t1]; try (split; [reflexivity|exact I || (left; split; reflexivity)]).
 destruct (pread rd v d c1 28 t1) as [[[b c2]| | |] t2]; try (split; [reflexivity|exact I || (left; split; reflexivity)]).
 destruct (ilift (read_header b) t2) as [[h| | |] t3]; try (split; [reflexivity|exact I || (left; split; reflexivity)]).
  cbn [iret]. cbn [app].
  pose proof (sections_log (Z.to_nat (ps_count h)) (ps_order h) 0 c2 28 [] t3 [Make PartSet] eq_refl) as H.
  destruct (l_sections_loop _ _ _ _ _ _ _ _ _ _ _ _ _) as [[[[secs c3]| | |] m'] t']; destruct H as [H1 H2]; rewrite H1;
    try (split; [reflexivity|exact I]).
  - split; [reflexivity|]. destruct H2 as (new & -> & ->). reflexivity.
  - split; [reflexivity|]. right. destruct H2 as (new & ev & Hf & ->). exists new, ev. cbn [app] in Hf. split; [exact Hf|].
    reflexivity.
Qed.
End Read.

(** ** What is in memory afterwards *)
Lemma made_set l : exists live, heap [] (map Make (PartSet :: sections_parts l)) = Some live /\
  NoDup live /\ forall p, In p live <-> set_part l p.
Proof.
  destruct (heap_makes (PartSet :: sections_parts l) [] (sections_nodup l)) as (live & H1 & H2 & H3); [intros ? ? []|].
  exists live. split; [exact H1|]. split; [apply H2; constructor|]. intros p. rewrite H3. cbn [In].
  rewrite sections_parts_in. unfold set_part. intuition.
Qed.

Lemma freed_set l live extra : NoDup live ->
  (forall p, In p live <-> set_part l p \/ extra p) -> (forall p, extra p -> ~ set_part l p) ->
  exists live', heap live (set_free l) = Some live' /\ forall p, In p live' <-> extra p.
Proof.
  intros Hn Hl He. rewrite set_free_map.
  assert (Hd : forall p, In p (set_drops l) <-> set_part l p).
  { intros p. rewrite <- (set_perm l). cbn [In]. rewrite sections_parts_in. unfold set_part. intuition. }
  destruct (heap_drops (set_drops l) live) as (live' & H1 & _ & H3).
  - rewrite <- (set_perm l). apply sections_nodup.
  - intros p Hp. apply Hl. left. now apply Hd.
  - exists live'. split; [exact H1|]. intros p. rewrite H3, Hl, Hd. split; [tauto|]. intros Hx. split; [now right|now apply He].
Qed.

Lemma set_part_below l p : set_part l p -> match at_section p with Some k => (k < length l)%nat | None => True end.
Proof.
  intros [->|(k & s & H & Hp)]; [exact I|]. apply section_part_at in Hp. rewrite Hp.
  apply nth_error_Some. congruence.
Qed.

Lemma failed_set secs ev : failed_log secs (length secs) ev ->
  exists ps live, heap [] (map Make (PartSet :: sections_parts secs) ++ ev) = Some live /\
    forall p, In p live <-> section_part (length secs) ps p.
Proof.
  intros (ps & tl & Ht & ->). exists ps. destruct (made_set secs) as (live & H1 & H2 & H3).
  rewrite heap_app, H1, heap_app.
  assert (Hdis : forall p, section_part (length secs) ps p -> ~ set_part secs p).
  { intros p Hp Hq. apply set_part_below in Hq. apply section_part_at in Hp. rewrite Hp in Hq. lia. }
  destruct (heap_makes (section_parts (length secs) ps) live (section_nodup _ _)) as (live1 & I1 & I2 & I3).
  { intros p Hp Hl. apply (Hdis p); [now apply section_parts_in|now apply H3]. }
  rewrite I1, heap_app.
  assert (Hx : forall p, In p live1 <-> set_part secs p \/ section_part (length secs) ps p).
  { intros p. rewrite I3, H3, section_parts_in. tauto. }
  assert (Htl : exists live2, heap live1 tl = Some live2 /\ NoDup live2 /\ forall p, In p live2 <-> In p live1).
  { destruct Ht as [->| ->].
    - exists live1. split; [reflexivity|]. split; [now apply I2|reflexivity].
    - cbn [heap]. destruct (in_dec part_dec _ live1) as [Hv|Hv].
      + exfalso. apply Hx in Hv as [Hv|Hv].
        * apply set_part_below in Hv. cbn in Hv. lia.
        * destruct Hv as [Hv|(j & q & Hj & [Hv|[Hv _]])]; try discriminate. injection Hv as <-.
          assert (length ps < length ps)%nat by (apply nth_error_Some; congruence). lia.
      + destruct (in_dec part_dec _ _) as [_|Hw]; [|exfalso; apply Hw; now left].
        eexists. split; [reflexivity|]. cbn [remove]. destruct (part_dec _ _) as [_|Hw]; [|congruence].
        rewrite notin_remove by exact Hv. split; [now apply I2|reflexivity]. }
  destruct Htl as (live2 & J1 & J2 & J3). rewrite J1.
  destruct (freed_set secs live2 (section_part (length secs) ps) J2) as (live3 & K1 & K2).
  - intros p. rewrite J3. apply Hx.
  - exact Hdis.
  - exists live3. split; [exact K1|exact K2].
Qed.
