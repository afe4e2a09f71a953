(** Lemmas on property sets: no undefined behaviour, uniqueness, getters and
    sizes. *)
From Coq Require Import ZArith List Bool Lia.
From Verif Require Import Base Spec_IO M_Table M_Load M_Stream Spec_Stream M_Prop
  Spec_Content Spec_Prop L_Base L_Stream L_Stream2 L_Stream3 L_Prop L_Prop2.
Import ListNotations.
Open Scope Z_scope.

(** * No undefined behaviour *)
Lemma stream_loop_bytes rd v d : io_bytes rd ->
  forall fuel id index so size cap acc t data t',
    Forall is_byte acc ->
    stream_loop fuel rd v d id index so size cap acc t = (Ok data, t') ->
    Forall is_byte data.
Proof.
  intros HB. induction fuel as [|fuel IH]; intros id index so size cap acc t data t' Ha H;
    cbn [stream_loop] in H; [discriminate|].
  destruct (size <=? 0); [apply iret_ok in H as [<- _]; exact Ha|].
  destruct (id =? END_OF_CHAIN); [discriminate|].
  apply ibind_ok in H as (base & t1 & _ & H). cbv zeta in H.
  destruct (cap <? _); [discriminate|].
  apply ibind_ok in H as (chunk & t2 & Hrd & H).
  apply ibind_ok in H as (id' & t3 & _ & H).
  destruct (index =? INT_MAX); [discriminate|].
  apply IH in H; auto. apply Forall_app. split; auto.
  apply read_exact_ok in Hrd as (Hrd & _). eapply HB. exact Hrd.
Qed.

Lemma read_buffer_bytes rd v d c size cap t data c' t' : io_bytes rd ->
  stream_read_buffer rd v d c size cap t = (Ok (data, c'), t') -> Forall is_byte data.
Proof.
  intros HB H. unfold stream_read_buffer in H.
  destruct (negb (de_type d =? TYPE_STREAM)); [discriminate|].
  destruct (c <? 0); [discriminate|].
  destruct (SSIZE_MAX <? size); [discriminate|].
  destruct (de_size d <=? c).
  { apply iret_ok in H as [H _]. apply pair_ok in H as [<- _]. constructor. }
  apply ibind_ok in H as (dat & t1 & H1 & H).
  destruct (zlen dat =? _); [|discriminate].
  apply iret_ok in H as [H _]. apply pair_ok in H as [<- _].
  unfold io_read_stream in H1.
  destruct (c <? 0); [discriminate|]. destruct (SSIZE_MAX <? _); [discriminate|].
  cbv zeta in H1. destruct (_ || _); [discriminate|].
  apply ibind_ok in H1 as (id & t2 & _ & H1).
  eapply stream_loop_bytes; [exact HB| |exact H1]. constructor.
Qed.

Lemma ilift_defined {A B} (r : res A) (k : A -> io B) t :
  defined r -> (forall a, r = Ok a -> defined (fst (k a t))) ->
  defined (fst (ibind (ilift r) k t)).
Proof. intros H Hk. destruct r; try exact H. apply Hk. reflexivity. Qed.

Lemma pread_len rd v d c n t l c' t' : io_bytes rd ->
  pread rd v d c n t = (Ok (l, c'), t') -> zlen l = n /\ Forall is_byte l.
Proof.
  intros HB. unfold pread. intros H. apply ibind_ok in H as ([l0 c0] & t1 & H0 & H).
  destruct (zlen l0 =? n) eqn:E; [|discriminate]. apply Z.eqb_eq in E.
  apply iret_ok in H as [H _]. apply pair_ok in H as [<- _].
  split; auto. eapply read_buffer_bytes; eauto.
Qed.

Section Defined.
Variables (lib : fvlib) (rd : reader) (v : volume) (d : dirent) (cp : Z).
Hypothesis HV : volume_ok v.
Hypothesis HD : dirent_ok d.
Hypothesis HB : io_bytes rd.

Lemma bind_pread {B} c n (k : list Z * Z -> io B) t :
  0 <= n <= 1073741824 ->
  (forall l c' t', zlen l = n -> Forall is_byte l -> defined (fst (k (l, c') t'))) ->
  defined (fst (ibind (pread rd v d c n) k t)).
Proof.
  intros Hn Hk. apply ibind_defined; [apply pread_defined; auto|].
  intros [l c'] t' H. destruct (pread_len _ _ _ _ _ _ _ _ _ HB H) as (H1 & H2). apply Hk; auto.
Qed.

Lemma bind_u32 {B} e l p (k : Z -> io B) t :
  0 <= p -> p + 4 <= zlen l -> Forall is_byte l ->
  (forall x, 0 <= x < 4294967296 -> defined (fst (k x t))) ->
  defined (fst (ibind (ilift (get_u32 e l p)) k t)).
Proof.
  intros H1 H2 HF Hk. rewrite get_u32_number by auto.
  rewrite (ilift_Ok _ _ _ _ eq_refl). apply Hk.
  pose proof (number_in_range e (slice l p 4) (Forall_slice _ _ _ _ HF)) as Hr.
  rewrite zlen_slice in Hr by lia. exact Hr.
Qed.

Lemma multi_loop_defined k : forall e c off t,
  defined (fst (multi_loop rd v d k e c off t)).
Proof.
  induction k as [|k IH]; intros e c off t; cbn [multi_loop]; [exact I|].
  destruct (UINT32_MAX - 4 <=? off); [exact I|].
  apply bind_pread; [lia|]. intros l c1 t1 Hl HF.
  apply bind_u32; [lia|lia|exact HF|]. intros n Hn.
  destruct (u32 (UINT32_MAX - n) <=? u32 (off + 4)) eqn:E1; [exact I|].
  destruct ((n =? 0) || (MAX_ALLOCATION <? n)) eqn:E; [exact I|].
  apply orb_false_elim in E as [E2 E3]. unfold MAX_ALLOCATION in E3.
  apply bind_pread; [lia|]. intros l2 c2 t2 _ _. apply IH.
Qed.

Lemma store_defined k enc data size : size <= zlen data -> defined (store lib k enc data size).
Proof.
  intros Hs. unfold store. destruct (lib_new lib k); [|exact I]. cbn [negb].
  destruct (0 <? size); [|exact I].
  rewrite (proj2 (Z.ltb_ge (zlen data) size)) by lia.
  destruct (lib_set _ _ _ _); exact I.
Qed.

Lemma even_u32 x : u32 (x * 2) mod 2 = 0.
Proof.
  unfold u32, TWO32. change 4294967296 with (2147483648 * 2).
  rewrite Zmult_mod_distr_r. apply Z_mod_mult.
Qed.

Lemma utf16_even l : zlen l mod 2 = 0 -> exists m, utf16_size l = Ok m /\ 0 <= m <= zlen l.
Proof.
  intros H. destruct (utf16_cut (Z.to_nat (zlen l / 2)) l) as (m & Hm & Hr & _).
  - pose proof (Z.div_mod (zlen l) 2 ltac:(lia)). pose proof (zlen_nonneg l).
    assert (0 <= zlen l / 2) by (apply Z.div_pos; lia). unfold zlen in *. lia.
  - eauto.
Qed.

Lemma read_value_defined t k enc c size tr :
  0 <= size < 4294967296 -> defined (fst (read_value lib rd v d t k enc c size tr)).
Proof.
  intros Hs. unfold read_value.
  destruct (0 <? size) eqn:E0.
  - set (m := if t =? 31 then u32 (size * 2) else size).
    assert (Hm : 0 <= m) by (unfold m; destruct (t =? 31); [pose proof (u32_range (size * 2))|]; lia).
    destruct ((m =? 0) || (MAX_ALLOCATION <? m)) eqn:E; [exact I|].
    apply orb_false_elim in E as [E2 E3]. unfold MAX_ALLOCATION in E3.
    apply bind_pread; [lia|]. intros l c1 t1 Hl HF.
    assert (Hx : exists n, (if t =? 30 then Ok (ascii_size l)
       else if t =? 31 then utf16_size l else Ok m) = Ok n /\ n <= zlen l).
    { destruct (t =? 30).
      - exists (ascii_size l). split; [reflexivity|]. apply ascii_cut.
      - destruct (t =? 31) eqn:Et.
        + destruct (utf16_even l) as (n & Hn & Hr).
          * rewrite Hl. unfold m. apply even_u32.
          * exists n. split; auto. lia.
        + exists m. split; [reflexivity|lia]. }
    destruct Hx as (n & Hn & Hle). rewrite (ilift_Ok _ _ _ n) by exact Hn.
    apply ilift_defined; [apply store_defined; exact Hle|]. intros a _. exact I.
  - apply ilift_defined; [apply store_defined; change (zlen (@nil Z)) with 0; lia|].
    intros a _. exact I.
Qed.

Lemma shape_fixed_size e t k n : shape_of cp e t = Fixed k n -> 0 < n <= 16.
Proof.
  intros H. destruct (shape_cases cp e t) as [(k' & n' & Hk & Hin)|[(k' & enc & Hk & Hin)|[->|[->|[(Hk & Hin)|(Hk & Hn)]]]]];
    try (rewrite Hk in H; discriminate); try (simpl in H; discriminate).
  rewrite Hk in H. destruct (shape_fixed cp e t n' Hin) as (k2 & Hk2 & _ & _ & _ & Hr).
  rewrite Hk in Hk2. assert (n = n') by congruence. subst. exact Hr.
Qed.

Lemma read_data_defined e c off t : defined (fst (read_data lib rd v d cp e c off t)).
Proof.
  unfold read_data.
  destruct (UINT32_MAX - 4 <=? off); [exact I|].
  apply ibind_defined; [apply pseek_defined|]. intros c0 t0 _.
  apply bind_pread; [lia|]. intros l c1 t1 Hl HF.
  apply bind_u32; [lia|lia|exact HF|]. intros ty Hty.
  destruct (shape_of cp e ty) as [k n|k enc| |] eqn:Ek.
  - apply shape_fixed_size in Ek.
    apply ibind_defined; [apply read_value_defined; lia|]. intros [w c2] t2 _. exact I.
  - apply bind_pread; [lia|]. intros l2 c2 t2 Hl2 HF2.
    apply bind_u32; [lia|lia|exact HF2|]. intros n Hn.
    apply ibind_defined; [apply read_value_defined; lia|]. intros [w c3] t3 _. exact I.
  - destruct (UINT32_MAX - 4 <=? u32 (off + 4)); [exact I|].
    apply bind_pread; [lia|]. intros l2 c2 t2 Hl2 HF2.
    apply bind_u32; [lia|lia|exact HF2|]. intros n Hn.
    apply ibind_defined; [apply multi_loop_defined|]. intros c3 t3 _. exact I.
  - exact I.
Qed.

Lemma tell_defined c : defined (stream_get_offset d c).
Proof. unfold stream_get_offset. destruct (negb _); exact I. Qed.

Lemma properties_loop_defined n : forall e base c pos acc t,
  defined (fst (properties_loop lib rd v d cp n e base c pos acc t)).
Proof.
  induction n as [|n IH]; intros e base c pos acc t; cbn [properties_loop]; [exact I|].
  apply ibind_defined; [apply pseek_defined|]. intros c0 t0 _.
  apply ibind_defined.
  { unfold read_list_entry. apply bind_pread; [lia|]. intros l c1 t1 Hl HF.
    apply bind_u32; [lia|lia|exact HF|]. intros id Hid.
    apply bind_u32; [lia|lia|exact HF|]. intros rel Hrel. exact I. }
  intros [[id rel] c1] t1 _.
  destruct (rel <=? 8); [exact I|].
  apply ilift_defined; [apply tell_defined|]. intros pos' _.
  apply ibind_defined; [apply read_data_defined|]. intros [[ty w] c2] t2 _. apply IH.
Qed.

Lemma section_read_defined e c base t : defined (fst (section_read lib rd v d cp e c base t)).
Proof.
  unfold section_read.
  apply ibind_defined; [apply pseek_defined|]. intros c0 t0 _.
  apply bind_pread; [lia|]. intros l c1 t1 Hl HF.
  apply bind_u32; [lia|lia|exact HF|]. intros sz Hsz.
  apply bind_u32; [lia|lia|exact HF|]. intros n Hn. apply properties_loop_defined.
Qed.

Lemma sections_loop_defined n : forall e c pos acc t,
  defined (fst (sections_loop lib rd v d cp n e c pos acc t)).
Proof.
  induction n as [|n IH]; intros e c pos acc t; cbn [sections_loop]; [exact I|].
  apply ibind_defined; [apply pseek_defined|]. intros c0 t0 _.
  apply ibind_defined.
  { unfold section_list_entry. apply bind_pread; [lia|]. intros l c1 t1 Hl HF.
    apply bind_u32; [lia|lia|exact HF|]. intros rel Hrel. exact I. }
  intros [[class base] c1] t1 _.
  apply ilift_defined; [apply tell_defined|]. intros pos' _.
  apply ibind_defined; [apply section_read_defined|]. intros [props c2] t2 _. apply IH.
Qed.

Lemma read_header_defined l : zlen l = 28 -> defined (read_header l).
Proof.
  intros Hl. unfold read_header.
  destruct (arr_get_in l 0) as (b0 & ->); [lia|]. cbn [rbind].
  destruct (arr_get_in l 1) as (b1 & ->); [lia|]. cbn [rbind].
  destruct ((b0 =? 254) && (b1 =? 255));
    [|destruct ((b0 =? 255) && (b1 =? 254)); [|exact I]];
    cbn [rbind]; rewrite !get_u16_number, get_u32_number by lia; exact I.
Qed.

Theorem get_set_defined c t : defined (fst (get_set lib rd v d cp c t)).
Proof.
  unfold get_set.
  apply ibind_defined; [apply pseek_defined|]. intros c0 t0 _.
  apply bind_pread; [lia|]. intros l c1 t1 Hl HF.
  apply ilift_defined; [apply read_header_defined; exact Hl|]. intros h _.
  apply ibind_defined; [apply sections_loop_defined|]. intros [secs c2] t2 _. exact I.
Qed.
End Defined.

(** * Uniqueness *)
Lemma fixed_types_fun t n m : In (t, n) fixed_types -> In (t, m) fixed_types -> n = m.
Proof.
  intros Hn Hm.
  destruct (shape_fixed 0 Little t n Hn) as (k & Hk & _).
  destruct (shape_fixed 0 Little t m Hm) as (k' & Hk' & _). congruence.
Qed.

Lemma fixed_not_sized t n : In (t, n) fixed_types -> In t sized_types -> False.
Proof.
  intros Hn Hm.
  destruct (shape_fixed 0 Little t n Hn) as (k & Hk & _).
  destruct (shape_sized 0 Little t Hm) as (Hk' & _). congruence.
Qed.

Lemma fixed_not t n : In (t, n) fixed_types -> t <> 0x1e /\ t <> 0x1f /\ t <> 0x101e /\ t <> 0x101f.
Proof.
  intros Hn. destruct (shape_fixed 0 Little t n Hn) as (k & Hk & _).
  repeat split; intros ->; discriminate Hk.
Qed.

Lemma sized_not t : In t sized_types -> t <> 0x1e /\ t <> 0x1f /\ t <> 0x101e /\ t <> 0x101f.
Proof.
  intros Hn. destruct (shape_sized 0 Little t Hn) as (Hk & H1 & H2).
  repeat split; auto; intros ->; discriminate Hk.
Qed.

Lemma value_at_type s e off t st : value_at s e off t st -> u32_at s e off t.
Proof. intros H. inversion H; subst; auto. Qed.

Lemma value_at_fun s e off t1 st1 t2 st2 :
  value_at s e off t1 st1 -> value_at s e off t2 st2 -> t1 = t2 /\ st1 = st2.
Proof.
  intros H1 H2.
  assert (t1 = t2) as <-
    by (eapply u32_at_fun; [eapply value_at_type; exact H1|eapply value_at_type; exact H2]).
  split; [reflexivity|].
  destruct H1; inversion H2; subst; try reflexivity;
    repeat match goal with
    | A : In (?t, ?n) fixed_types, B : In (?t, ?m) fixed_types |- _ =>
        pose proof (fixed_types_fun _ _ _ A B); clear B; subst
    | A : In (?t, _) fixed_types, B : In ?t sized_types |- _ => exfalso; exact (fixed_not_sized _ _ A B)
    | A : In (?t, _) fixed_types |- _ =>
        pose proof (fixed_not _ _ A); pose proof (in_map fst _ _ A); cbn [fst] in *; clear A
    | A : In ?t sized_types |- _ => pose proof (sized_not _ A); revert A
    end; intros; try tauto; try lia;
    repeat match goal with
    | A : u32_at ?s ?e ?o ?x, B : u32_at ?s ?e ?o ?y |- _ =>
        pose proof (u32_at_fun _ _ _ _ _ A B); clear B; subst
    end; try lia.
  - f_equal. eapply field_fun; eauto.
  - f_equal. eapply field_fun; eauto.
  - f_equal. match goal with A : field _ _ _ ?a, B : field _ _ _ ?b |- _ =>
      rewrite (field_fun _ _ _ _ _ A B) in * end. eapply cut_string_fun; [|eauto|eauto]. lia.
  - f_equal. match goal with A : field _ _ _ ?a, B : field _ _ _ ?b |- _ =>
      rewrite (field_fun _ _ _ _ _ A B) in * end. eapply cut_string_fun; [|eauto|eauto]. lia.
Qed.

Lemma map_ext_znth {A B} (g : A -> B) (l m : list A) :
  zlen l = zlen m ->
  (forall k x y, znth l k = Some x -> znth m k = Some y -> g x = g y) ->
  map g l = map g m.
Proof.
  revert m. induction l as [|a l IH]; intros [|b m] Hl H; auto.
  - unfold zlen in Hl. simpl in Hl. lia.
  - unfold zlen in Hl. simpl in Hl. lia.
  - simpl. f_equal.
    + apply (H 0); reflexivity.
    + apply IH; [unfold zlen in *; simpl in Hl; lia|].
      intros k x y Hx Hy. pose proof (znth_range _ _ _ Hx) as Hr.
      apply (H (k + 1)).
      * unfold znth in *. rewrite (proj2 (Z.ltb_ge (k + 1) 0)) by lia.
        rewrite (proj2 (Z.ltb_ge k 0)) in Hx by lia.
        replace (Z.to_nat (k + 1)) with (S (Z.to_nat k)) by lia. exact Hx.
      * unfold znth in *. rewrite (proj2 (Z.ltb_ge (k + 1) 0)) by lia.
        rewrite (proj2 (Z.ltb_ge k 0)) in Hy by lia.
        replace (Z.to_nat (k + 1)) with (S (Z.to_nat k)) by lia. exact Hy.
Qed.

Lemma property_at_fun s e base k p q :
  property_at s e base k p -> property_at s e base k q -> property_view p = property_view q.
Proof.
  intros (r1 & A1 & A2 & _ & A3) (r2 & B1 & B2 & _ & B3). unfold property_view.
  rewrite (u32_at_fun _ _ _ _ _ A1 B1).
  rewrite (u32_at_fun _ _ _ _ _ A2 B2) in A3.
  destruct (value_at_fun _ _ _ _ _ _ _ A3 B3) as [-> ->]. reflexivity.
Qed.

Lemma section_at_fun s e base ps qs :
  section_at s e base ps -> section_at s e base qs -> map property_view ps = map property_view qs.
Proof.
  intros (_ & A2 & A3) (_ & B2 & B3). apply map_ext_znth.
  - eapply u32_at_fun; eauto.
  - intros k x y Hx Hy. eapply property_at_fun; eauto.
Qed.

Lemma set_at_fun s x y : set_at s x -> set_at s y -> set_view x = set_view y.
Proof.
  intros ((F & A1 & A2 & A3 & A4) & A5 & A6 & A7) ((_ & B1 & B2 & B3 & B4) & B5 & B6 & B7).
  assert (E : ps_order x = ps_order y).
  { rewrite A1 in B1. destruct (ps_order x), (ps_order y); auto; discriminate. }
  rewrite E in *. unfold set_view. rewrite E.
  rewrite (u16_at_fun _ _ _ _ _ A2 B2), (u32_at_fun _ _ _ _ _ A3 B3).
  rewrite (field_fun _ _ _ _ _ A4 B4), (u16_at_fun _ _ _ _ _ A5 B5).
  f_equal. apply map_ext_znth.
  - rewrite A6, B6. eapply u16_at_fun; eauto.
  - intros k p q Hp Hq. destruct (A7 _ _ Hp) as (b1 & C1 & C2 & C3).
    destruct (B7 _ _ Hq) as (b2 & D1 & D2 & D3). unfold section_view.
    rewrite (field_fun _ _ _ _ _ C1 D1). f_equal.
    rewrite (u32_at_fun _ _ _ _ _ C2 D2) in C3. eapply section_at_fun; eauto.
Qed.

(** * Exactness *)
Theorem get_set_exact f rd v d s lib cp c t x :
  io_sound rd f -> io_total rd f -> volume_ok v -> dirent_ok d -> short_ok v d ->
  contents f v d s -> intact v d -> Forall is_byte s -> lib_accepts lib ->
  zlen s < 4294967295 -> 0 <= c -> set_at s x ->
  exists y c' t', get_set lib rd v d cp c t = (Ok (y, c'), t') /\ set_view y = set_view x.
Proof.
  intros HS HT HV HD Hsh HC HI HB HL Hsm Hc Hx.
  destruct (get_set_complete f rd v d s HS HV HD Hsh HC lib cp HB HT HI HL Hsm c t x Hc Hx)
    as (y & c' & t' & H).
  exists y, c', t'. split; auto.
  destruct (get_set_sound f rd v d s HS HV HD Hsh HC lib cp HB c t y c' t' H) as (Hy & _).
  eapply set_at_fun; eauto.
Qed.

(** * Getters *)
Lemma on_value_ok {A} p (g : fvalue -> option A) x :
  on_value p g = Ok x -> exists w, pv_value p = Some w /\ g w = Some x.
Proof.
  unfold on_value. destruct (pv_value p) as [w|]; [|discriminate].
  destruct (g w) eqn:E; [|discriminate]. intros H. apply Ok_inj in H. subst. eauto.
Qed.

Lemma handed_fixed cp e t w k n : handed cp e t w -> shape_of cp e t = Fixed k n ->
  exists l, zlen l = n /\ w = Some {| fv_kind := k; fv_data := Some (l, EncOrder e) |}.
Proof. unfold handed. intros H E. rewrite E in H. destruct H as (l & H1 & _ & H2). eauto. Qed.

Lemma bits_of lib cp e p k n : lib_decodes lib -> handed cp e (pv_type p) (pv_value p) ->
  shape_of cp e (pv_type p) = Fixed k n ->
  In (k, 8 * n) [(FvBoolean, 8); (FvInteger16, 16); (FvInteger32, 32);
                 (FvInteger64, 64); (FvFiletime, 64)] ->
  exists l, stored p = Some l /\ zlen l = n /\
            on_value p (lib_bits lib (8 * n)) = Ok (number_in e l).
Proof.
  intros HL Hh Hk Hin. destruct (handed_fixed _ _ _ _ _ _ Hh Hk) as (l & Hl & Hw).
  exists l. unfold stored, on_value. rewrite Hw. cbn [fv_data].
  split; [reflexivity|]. split; [exact Hl|].
  rewrite (HL k (8 * n) l e Hin) by lia. reflexivity.
Qed.

(** * Sizes *)
Lemma sum_bound l b : Forall (fun x => x <= b) l -> sum l <= zlen l * b.
Proof.
  intros H. induction H as [|x l Hx H IH]; [unfold zlen; simpl; lia|].
  rewrite zlen_cons. change (sum (x :: l)) with (x + sum l). lia.
Qed.

Lemma cut_len unit raw l : cut_string unit raw l -> zlen l <= zlen raw.
Proof.
  intros (chars & rest & -> & -> & _). rewrite zlen_app. pose proof (zlen_nonneg rest). lia.
Qed.

Lemma value_at_size s e off t l : value_at s e off t (Some l) -> zlen l <= zlen s.
Proof.
  intros H. inversion H; subst;
    repeat match goal with A : field _ _ _ _ |- _ =>
      pose proof (field_len _ _ _ _ A); destruct A as (? & ? & ? & _) end; try lia.
  - match goal with A : cut_string _ _ _ |- _ => apply cut_len in A end. lia.
  - match goal with A : cut_string _ _ _ |- _ => apply cut_len in A end. lia.
Qed.

Lemma section_at_size s e base ps : section_at s e base ps ->
  8 * zlen ps <= zlen s /\ Forall (fun p => stored_size p <= zlen s) ps.
Proof.
  intros (Hf & Hn & Hp).
  assert (Hall : forall k p, znth ps k = Some p ->
            8 * k + 8 <= zlen s /\ stored_size p <= zlen s).
  { intros k p Hk. destruct (Hp _ _ Hk) as (rel & A1 & A2 & A3 & A4).
    pose proof (znth_range _ _ _ Hk).
    destruct Hf as (F1 & F2 & F3 & _).
    destruct A2 as (l & (B1 & B2 & B3 & _) & _).
    split; [lia|]. unfold stored_size. destruct (stored p) as [l'|]; [|lia].
    eapply value_at_size. exact A4. }
  split.
  - destruct (Z.eq_dec (zlen ps) 0) as [E|E]; [pose proof (zlen_nonneg s); lia|].
    pose proof (zlen_nonneg ps).
    destruct (znth_some ps (zlen ps - 1)) as (p & Hk); [lia|].
    destruct (Hall _ _ Hk). lia.
  - apply Forall_forall. intros p Hin. destruct (In_znth _ _ Hin) as (k & Hk).
    apply (Hall _ _ Hk).
Qed.

Theorem set_at_size s x : set_at s x ->
  28 + 20 * zlen (ps_sections x) <= zlen s /\
  (forall sec, In sec (ps_sections x) -> 8 * zlen (sc_properties sec) <= zlen s) /\
  160 * set_size x <= zlen s * zlen s * zlen s.
Proof.
  intros ((F & _) & _ & _ & Hs).
  assert (Hall : forall sec, In sec (ps_sections x) ->
     8 * zlen (sc_properties sec) <= zlen s /\
     8 * sum (map stored_size (sc_properties sec)) <= zlen s * zlen s).
  { intros sec Hin. destruct (In_znth _ _ Hin) as (k & Hk).
    destruct (Hs _ _ Hk) as (base & _ & _ & Hsec).
    destruct (section_at_size _ _ _ _ Hsec) as (H1 & H2). split; auto.
    pose proof (sum_bound (map stored_size (sc_properties sec)) (zlen s)) as Hb.
    assert (E : zlen (map stored_size (sc_properties sec)) = zlen (sc_properties sec))
      by (unfold zlen; rewrite map_length; reflexivity).
    rewrite E in Hb.
    assert (Hb' : sum (map stored_size (sc_properties sec)) <= zlen (sc_properties sec) * zlen s).
    { apply Hb. apply Forall_map. exact H2. }
    pose proof (zlen_nonneg s). nia. }
  assert (Hn : 28 + 20 * zlen (ps_sections x) <= zlen s).
  { pose proof (zlen_nonneg (ps_sections x)).
    destruct (Z.eq_dec (zlen (ps_sections x)) 0) as [E|E].
    - destruct F as (_ & _ & F & _). lia.
    - destruct (znth_some (ps_sections x) (zlen (ps_sections x) - 1)) as (sec & Hk); [lia|].
      destruct (Hs _ _ Hk) as (base & _ & (l & (_ & _ & B & _) & _) & _). lia. }
  split; [exact Hn|]. split; [intros sec Hin; apply (Hall sec Hin)|].
  unfold set_size.
  set (g := fun sec => sum (map stored_size (sc_properties sec))).
  assert (Hsum : 8 * sum (map g (ps_sections x)) <= zlen (ps_sections x) * (zlen s * zlen s)).
  { assert (Hall' : forall sec, In sec (ps_sections x) -> 8 * g sec <= zlen s * zlen s)
      by (intros sec Hin; apply (Hall sec Hin)).
    clearbody g. clear Hall Hn Hs. induction (ps_sections x) as [|a l IH]; [unfold zlen; simpl; lia|].
    rewrite zlen_cons. cbn [map]. change (sum (g a :: map g l)) with (g a + sum (map g l)).
    assert (8 * g a <= zlen s * zlen s) by (apply Hall'; left; reflexivity).
    assert (8 * sum (map g l) <= zlen l * (zlen s * zlen s)) by (apply IH; intros; apply Hall'; right; auto).
    lia. }
  pose proof (zlen_nonneg s). pose proof (zlen_nonneg (ps_sections x)).
  assert (20 * zlen (ps_sections x) * (zlen s * zlen s) <= zlen s * (zlen s * zlen s)).
  { apply Z.mul_le_mono_nonneg_r; [apply Z.mul_nonneg_nonneg; lia|lia]. }
  lia.
Qed.
