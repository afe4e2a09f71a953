(** Lemmas on property sets: reading them is decoding their contents. *)
From Coq Require Import ZArith List Bool Lia.
From Verif Require Import Base Spec_IO M_Table M_Load M_Stream Spec_Stream M_Prop
  Spec_Content Spec_Prop L_Base L_Stream L_Stream2 L_Stream3 L_Prop.
Import ListNotations.
Open Scope Z_scope.

Lemma pair_ok {A B} (a c : A) (b d : B) : (a, b) = (c, d) -> a = c /\ b = d.
Proof. intros H. split; congruence. Qed.

Lemma ibind_Ok {A B} (m : io A) (k : A -> io B) t a t1 :
  m t = (Ok a, t1) -> ibind m k t = k a t1.
Proof. intros H. unfold ibind. now rewrite H. Qed.

Lemma ilift_Ok {A B} (r : res A) (k : A -> io B) t a :
  r = Ok a -> ibind (ilift r) k t = k a t.
Proof. intros ->. reflexivity. Qed.

(** * Reads at the level of the contents *)
Section Content.
Variables (f : list Z) (rd : reader) (v : volume) (d : dirent) (s : list Z).
Hypothesis HS : io_sound rd f.
Hypothesis HV : volume_ok v.
Hypothesis HD : dirent_ok d.
Hypothesis Hsh : short_ok v d.
Hypothesis HC : contents f v d s.

Lemma pread_ok c n t l c' t' :
  0 < n -> pread rd v d c n t = (Ok (l, c'), t') -> field s c n l /\ c' = c + n.
Proof.
  intros Hn H. destruct HC as (Hty & Hlen & Hby).
  unfold pread in H. apply ibind_ok in H as ([l0 c0] & t1 & H1 & H).
  destruct (zlen l0 =? n) eqn:E; [|discriminate]. apply Z.eqb_eq in E.
  apply iret_ok in H as [H _]. apply pair_ok in H as [-> ->].
  pose proof (read_buffer_basic _ _ _ _ _ _ _ _ _ _ HD (Z.lt_le_incl _ _ Hn) H1)
    as (_ & Hc & _ & Ha & ->).
  pose proof (read_buffer_position _ _ _ _ _ _ _ _ _ _ _ HS HV HD (Z.lt_le_incl _ _ Hn) Hsh H1)
    as Hpos.
  unfold read_amount in Ha.
  destruct (de_size d <=? c) eqn:Ec; [lia|]. apply Z.leb_gt in Ec.
  split; [|lia]. split; [lia|]. split; [lia|]. split; [lia|].
  apply znth_ext; [rewrite zlen_slice by lia; lia|]. intros i Hi.
  destruct (znth_some l i) as (b & Hb); [lia|].
  destruct (znth_some s (c + i)) as (b' & Hb'); [lia|].
  rewrite znth_slice by lia. rewrite Hb, Hb'. f_equal.
  destruct (Hpos i b Hb) as (p & Hp & Hfp).
  destruct (Hby _ _ Hb') as (p' & Hp' & Hfp').
  rewrite (stream_position_fun _ _ _ _ _ Hp Hp') in Hfp. congruence.
Qed.

Lemma pread_complete c n t l :
  io_total rd f -> intact v d -> 0 < n <= 1073741824 -> field s c n l ->
  exists t', pread rd v d c n t = (Ok (l, c + n), t').
Proof.
  intros HT HI Hn (H0 & _ & Hle & ->). destruct HC as (Hty & Hlen & Hby).
  assert (Hm : Z.min n (de_size d - c) = n) by lia.
  destruct (read_buffer_complete f rd v d c n n t) as (data & t' & Hr & Hl); auto; try lia.
  - unfold SSIZE_MAX. lia.
  - destruct (HI c) as (Hq & _); [lia|]. exact Hq.
  - rewrite Hm. destruct (HI (c + n - 1)) as (_ & Hq); [lia|]. exact Hq.
  - rewrite Hm. intros i Hi. destruct (znth_some s i) as (b & Hb); [lia|].
    destruct (Hby _ _ Hb) as (p & Hp & Hfp). exists p. split; auto.
    apply znth_range in Hfp. lia.
  - rewrite Hm in *. exists t'.
    assert (Hp : pread rd v d c n t = (Ok (data, c + n), t')).
    { unfold pread. rewrite (ibind_Ok _ _ _ _ _ Hr). rewrite Hl, Z.eqb_refl. reflexivity. }
    rewrite Hp. destruct (pread_ok c n t data (c + n) t') as ((_ & _ & _ & ->) & _); auto; lia.
Qed.

Lemma pread_defined c n t : 0 <= n <= 1073741824 -> defined (fst (pread rd v d c n t)).
Proof.
  intros Hn. unfold pread. apply ibind_defined.
  - apply read_buffer_defined; auto; [lia|]. right. lia.
  - intros [l c'] t1 _. destruct (zlen l =? n); exact I.
Qed.

Lemma pseek_ok c off t c' t' : pseek d c off t = (Ok c', t') -> c' = off /\ t' = t.
Proof.
  unfold pseek. intros H. apply ilift_ok in H as [H ->]. split; auto.
  unfold stream_seek_offset in H.
  destruct (negb (de_type d =? TYPE_STREAM)); [discriminate|].
  destruct (c <? 0); [discriminate|]. simpl in H.
  destruct (off <? 0); [discriminate|]. congruence.
Qed.

Lemma pseek_complete c off t : 0 <= c -> 0 <= off -> pseek d c off t = (Ok off, t).
Proof.
  intros Hc Ho. destruct HC as (Hty & _).
  unfold pseek, ilift, stream_seek_offset. rewrite Hty. simpl.
  rewrite (proj2 (Z.ltb_ge c 0)) by lia. simpl.
  rewrite (proj2 (Z.ltb_ge off 0)) by lia. reflexivity.
Qed.

Lemma pseek_defined c off t : defined (fst (pseek d c off t)).
Proof.
  unfold pseek, ilift, stream_seek_offset. simpl.
  destruct (negb (de_type d =? TYPE_STREAM)); [exact I|].
  destruct (c <? 0); [exact I|]. simpl.
  destruct (off <? 0); exact I.
Qed.

Lemma tell_ok c : stream_get_offset d c = Ok c.
Proof. destruct HC as (Hty & _). unfold stream_get_offset. rewrite Hty. reflexivity. Qed.

(** Turns a successful read into a field. *)
Ltac fieldof H Hf :=
  let Hn := fresh "Hn" in
  match type of H with
  | pread _ _ _ ?c ?n ?t = (Ok (?l, ?c'), ?t') =>
      assert (Hn : 0 < n) by lia;
      destruct (pread_ok c n t l c' t' Hn H) as (Hf & ->); clear Hn
  end.

Variables (lib : fvlib) (cp : Z).
Hypothesis HB : Forall is_byte s.

(** * Soundness *)
Lemma pread_u32 c n p t l c' t' e x :
  0 < n -> pread rd v d c n t = (Ok (l, c'), t') -> 0 <= p -> p + 4 <= n ->
  get_u32 e l p = Ok x -> u32_at s e (c + p) x.
Proof.
  intros Hn H Hp Hle Hx. destruct (pread_ok _ _ _ _ _ _ Hn H) as (Hf & _).
  destruct (get_u32_at s e c n l p Hf Hp Hle) as (y & Hy & Hat). congruence.
Qed.

Lemma multi_loop_ok k : forall e c off t c' t',
  multi_loop rd v d k e c off t = (Ok c', t') -> values_at s e c k c'.
Proof.
  induction k as [|k IH]; intros e c off t c' t' H; cbn [multi_loop] in H.
  - apply iret_ok in H as [<- _]. constructor.
  - destruct (UINT32_MAX - 4 <=? off); [discriminate|].
    apply ibind_ok in H as ([b c1] & t1 & H1 & H).
    apply ibind_ok in H as (n & t2 & H2 & H). apply ilift_ok in H2 as [H2 ->].
    pose proof (pread_u32 c 4 0 t b c1 t1 e n ltac:(lia) H1 ltac:(lia) ltac:(lia) H2) as Hu.
    rewrite Z.add_0_r in Hu.
    pose proof (u32_at_range _ _ _ _ HB Hu) as Hr.
    fieldof H1 Hf0.
    destruct (u32 (UINT32_MAX - n) <=? u32 (off + 4)); [discriminate|].
    destruct ((n =? 0) || (MAX_ALLOCATION <? n)) eqn:E; [discriminate|].
    apply orb_false_elim in E as [E1 E2]. unfold MAX_ALLOCATION in E2.
    apply ibind_ok in H as ([l c2] & t3 & H3 & H).
    fieldof H3 Hf.
    apply IH in H. apply vs_cons with n l; auto. lia.
Qed.

(** What [store] passes on. *)
Lemma store_ok k enc data size w :
  0 <= size <= zlen data -> store lib k enc data size = Ok w ->
  fv_kind w = k /\
  match fv_data w with
  | Some (l, enc') => l = slice data 0 size /\ enc' = enc /\ 0 < size
  | None => size = 0
  end.
Proof.
  intros Hs H. unfold store in H. destruct (lib_new lib k); [|discriminate]. simpl in H.
  destruct (0 <? size) eqn:E.
  - rewrite (proj2 (Z.ltb_ge (zlen data) size)) in H by lia.
    destruct (lib_set lib k _ enc); [|discriminate].
    apply Ok_inj in H. subst w. simpl. repeat split; auto; lia.
  - apply Ok_inj in H. subst w. simpl. split; auto. lia.
Qed.

Definition bytes_of (w : fvalue) : list Z :=
  match fv_data w with Some (l, _) => l | None => [] end.

Definition data_ok (w : fvalue) (k : fv_type) (enc : fv_encoding) : Prop :=
  fv_kind w = k /\
  match fv_data w with Some (l, enc') => enc' = enc /\ 0 < zlen l | None => True end.

(** Values that are not strings. *)
Lemma read_value_plain_ok t k enc c size tr w c' tr' :
  t <> 0x1e -> t <> 0x1f -> 0 <= size ->
  read_value lib rd v d t k enc c size tr = (Ok (w, c'), tr') ->
  exists w0, w = Some w0 /\ size <= 134217728 /\ data_ok w0 k enc /\
    (0 <= c -> c <= zlen s -> field s c size (bytes_of w0) /\ c' = c + size).
Proof.
  intros Ha Hu Hsz H. unfold read_value in H.
  rewrite (proj2 (Z.eqb_neq t 0x1e)) in H by auto.
  rewrite (proj2 (Z.eqb_neq t 0x1f)) in H by auto.
  destruct (0 <? size) eqn:E0.
  - destruct ((size =? 0) || (MAX_ALLOCATION <? size)) eqn:E1; [discriminate|].
    apply orb_false_elim in E1 as [E1 E2]. unfold MAX_ALLOCATION in E2.
    apply ibind_ok in H as ([data c1] & t1 & H1 & H).
    rewrite (ilift_Ok _ _ _ size) in H by reflexivity.
    apply ibind_ok in H as (w0 & t2 & H2 & H). apply ilift_ok in H2 as [H2 ->].
    apply iret_ok in H as [H ->]. apply pair_ok in H as [<- <-].
    fieldof H1 Hf.
    pose proof (field_len _ _ _ _ Hf) as Hl.
    apply store_ok in H2; [|lia]. destruct H2 as (Hk & Hd).
    exists w0. split; [reflexivity|]. split; [lia|].
    unfold data_ok, bytes_of. destruct (fv_data w0) as [[l enc']|]; [|lia].
    destruct Hd as (-> & -> & _).
    rewrite <- Hl, slice_full. rewrite <- Hl in E0.
    split; [repeat split; auto; lia|]. intros _ _. rewrite Hl. auto.
  - apply ibind_ok in H as (w0 & t2 & H2 & H). apply ilift_ok in H2 as [H2 ->].
    apply iret_ok in H as [H ->]. apply pair_ok in H as [<- <-].
    apply store_ok in H2; [|change (zlen (@nil Z)) with 0; lia]. destruct H2 as (Hk & Hd).
    exists w0. split; [reflexivity|]. split; [lia|].
    unfold data_ok, bytes_of. destruct (fv_data w0) as [[l enc']|]; [lia|].
    split; [auto|]. intros Hc Hcs. assert (size = 0) as -> by lia.
    split; [|lia]. split; [lia|]. split; [lia|]. split; [lia|reflexivity].
Qed.

(** Strings: bytes read, and their cut. *)
Lemma read_value_string_ok t k enc c size tr w c' tr' :
  t = 0x1e \/ t = 0x1f -> 0 <= size < 4294967296 ->
  read_value lib rd v d t k enc c size tr = (Ok (w, c'), tr') ->
  let m := if t =? 0x1f then 2 * size mod 4294967296 else size in
  exists w0 raw, w = Some w0 /\ m <= 134217728 /\ (m = 0 -> size = 0) /\
    data_ok w0 k enc /\
    (0 <= c -> c <= zlen s -> field s c m raw /\ c' = c + m) /\
    cut_string (if t =? 0x1f then 2%nat else 1%nat) raw (bytes_of w0).
Proof.
  intros Ht Hsz H m. unfold read_value in H.
  destruct (0 <? size) eqn:E0.
  - assert (Em : (if t =? 31 then u32 (size * 2) else size) = m).
    { unfold m, u32, TWO32. destruct (t =? 31); [f_equal; lia|reflexivity]. }
    rewrite Em in H.
    assert (Hm : 0 <= m).
    { unfold m. destruct (t =? 31); [|lia]. apply Z.mod_pos_bound. lia. }
    destruct ((m =? 0) || (MAX_ALLOCATION <? m)) eqn:E1; [discriminate|].
    apply orb_false_elim in E1 as [E1 E2]. unfold MAX_ALLOCATION in E2.
    apply ibind_ok in H as ([data c1] & t1 & H1 & H).
    apply ibind_ok in H as (n & t2 & H2 & H). apply ilift_ok in H2 as [H2 ->].
    apply ibind_ok in H as (w0 & t3 & H3 & H). apply ilift_ok in H3 as [H3 ->].
    apply iret_ok in H as [H ->]. apply pair_ok in H as [<- <-].
    fieldof H1 Hf.
    pose proof (field_len _ _ _ _ Hf) as Hl.
    assert (Hcut : 0 <= n <= zlen data /\
                   cut_string (if t =? 31 then 2%nat else 1%nat) data (slice data 0 n)).
    { destruct Ht as [-> | ->].
      - simpl in H2. apply Ok_inj in H2. subst n. apply ascii_cut.
      - simpl in H2.
        assert (Hev : length data = (2 * (Z.to_nat (m / 2)))%nat).
        { assert (Em2 : m = 2 * (size mod 2147483648)).
          { unfold m. change (31 =? 31) with true. cbv iota.
            change 4294967296 with (2 * 2147483648). apply Zmult_mod_distr_l. }
          clearbody m. unfold zlen in Hl.
          pose proof (Z.mod_pos_bound size 2147483648 ltac:(lia)).
          rewrite Em2 at 1. rewrite Z.mul_comm, Z_div_mult by lia. lia. }
        destruct (utf16_cut _ data Hev) as (n' & Hn' & Hr & Hc).
        rewrite H2 in Hn'. apply Ok_inj in Hn'. subst n'. auto. }
    destruct Hcut as (Hn & Hcut).
    apply store_ok in H3; [|lia]. destruct H3 as (Hk & Hd).
    exists w0, data. split; [reflexivity|]. split; [lia|]. split; [lia|].
    unfold data_ok, bytes_of. destruct (fv_data w0) as [[l enc']|].
    + destruct Hd as (-> & -> & Hpos). split.
      { split; auto. split; auto. rewrite zlen_slice; lia. }
      split; [auto|]. exact Hcut.
    + subst n. split; [split; auto|]. split; [auto|]. exact Hcut.
  - apply ibind_ok in H as (w0 & t2 & H2 & H). apply ilift_ok in H2 as [H2 ->].
    apply iret_ok in H as [H ->]. apply pair_ok in H as [<- <-].
    apply store_ok in H2; [|change (zlen (@nil Z)) with 0; lia]. destruct H2 as (Hk & Hd).
    assert (size = 0) by lia. subst size.
    assert (Em : m = 0) by (unfold m; destruct (t =? 31); reflexivity).
    exists w0, []. split; [reflexivity|]. rewrite Em. split; [lia|]. split; [auto|].
    unfold data_ok, bytes_of. destruct (fv_data w0) as [[l enc']|]; [lia|].
    split; [auto|]. split.
    + intros Hc Hcs. split; [|lia]. split; [lia|]. split; [lia|]. split; [lia|reflexivity].
    + exists [], []. repeat split; auto; try (intros i x Hk'; destruct i; discriminate).
Qed.

(** The switch over the types and the lists of the specification. *)
Lemma shape_fixed e t n : In (t, n) fixed_types ->
  exists k, shape_of cp e t = Fixed k n /\ sizes_ok k n /\ t <> 0x1e /\ t <> 0x1f /\ 0 < n <= 16.
Proof.
  intros H. unfold fixed_types in H.
  repeat (destruct H as [H|H];
    [apply pair_ok in H as [<- <-]; eexists;
     split; [reflexivity|]; split; [simpl; auto; lia|]; split; [lia|]; split; lia|]).
  destruct H.
Qed.

Lemma shape_sized e t : In t sized_types ->
  shape_of cp e t = Sized FvBinary (EncOrder e) /\ t <> 0x1e /\ t <> 0x1f.
Proof.
  intros H. unfold sized_types in H.
  repeat (destruct H as [<- | H]; [split; [reflexivity|lia]|]).
  destruct H.
Qed.

Lemma shape_cases e t :
  (exists k n, shape_of cp e t = Fixed k n /\ In (t, n) fixed_types) \/
  (exists k enc, shape_of cp e t = Sized k enc /\ In t sized_types) \/
  t = 0x1e \/ t = 0x1f \/
  (shape_of cp e t = Multi /\ (t = 0x101e \/ t = 0x101f)) \/
  (shape_of cp e t = Unknown /\ ~ In t (map fst fixed_types) /\ ~ In t sized_types /\
   t <> 0x1e /\ t <> 0x1f /\ t <> 0x101e /\ t <> 0x101f).
Proof.
  destruct (in_dec Z.eq_dec t (map fst fixed_types)) as [Hin|Hnin].
  { apply in_map_iff in Hin as ([t' n] & E & Hin). simpl in E. subst t'.
    destruct (shape_fixed e t n Hin) as (k & Hk & _). left. exists k, n. auto. }
  destruct (in_dec Z.eq_dec t sized_types) as [Hin|Hnin2].
  { destruct (shape_sized e t Hin) as (Hk & _). right. left. eauto. }
  destruct (Z.eq_dec t 0x1e) as [->|H1]; [auto|].
  destruct (Z.eq_dec t 0x1f) as [->|H2]; [auto|].
  right. right. right. right.
  destruct (Z.eq_dec t 0x101e) as [->|H3]; [left; split; auto|].
  destruct (Z.eq_dec t 0x101f) as [->|H4]; [left; split; auto|].
  right. split; [|auto 10].
  assert (HF : forall x, In x (map fst fixed_types) -> (t =? x) = false).
  { intros x Hx. apply Z.eqb_neq. intros ->. auto. }
  assert (HZ : forall x, In x sized_types -> (t =? x) = false).
  { intros x Hx. apply Z.eqb_neq. intros ->. auto. }
  assert (HN : forall x, (t =? x) = false -> (t =? x) = false) by auto.
  unfold shape_of, one_of, existsb.
  repeat first
    [ rewrite (HF _) by (simpl; tauto)
    | rewrite (HZ _) by (simpl; tauto)
    | rewrite (proj2 (Z.eqb_neq t _)) by assumption ].
  reflexivity.
Qed.

Definition stored_of (w : option fvalue) : option (list Z) :=
  match w with
  | None => None
  | Some w => Some (match fv_data w with None => [] | Some (l, _) => l end)
  end.

(** How the bytes were handed to libfvalue. *)
Definition handed (e : endian) (t : Z) (w : option fvalue) : Prop :=
  match shape_of cp e t with
  | Fixed k n => exists l, zlen l = n /\ 0 < n /\
      w = Some {| fv_kind := k; fv_data := Some (l, EncOrder e) |}
  | Sized k enc => exists w0, w = Some w0 /\ data_ok w0 k enc
  | Multi | Unknown => w = None
  end.

Lemma values_at_range e a k b : values_at s e a k b -> 0 <= a -> a <= zlen s -> a <= b <= zlen s.
Proof.
  intros H. induction H as [|off k n l last Hu Hn Hf Hv IH]; [lia|].
  intros H0 H1. destruct Hf as (F1 & F2 & F3 & F4). lia.
Qed.

Lemma read_data_ok e c off t ty w c' t' :
  read_data lib rd v d cp e c off t = (Ok (ty, w, c'), t') ->
  value_at s e off ty (stored_of w) /\ handed e ty w /\ off + 4 <= c' <= zlen s.
Proof.
  intros H. unfold read_data in H.
  destruct (UINT32_MAX - 4 <=? off); [discriminate|].
  apply ibind_ok in H as (c0 & t0 & H0 & H). apply pseek_ok in H0 as [-> ->].
  apply ibind_ok in H as ([b c1] & t1 & H1 & H).
  apply ibind_ok in H as (ty' & t2 & H2 & H). apply ilift_ok in H2 as [H2 ->].
  assert (Hu : u32_at s e off ty').
  { rewrite <- (Z.add_0_r off). apply (pread_u32 _ 4 _ _ _ _ _ _ _ ltac:(lia) H1); auto; lia. }
  fieldof H1 Hf1.
  assert (Ho : 0 <= off /\ off + 4 <= zlen s) by (destruct Hf1 as (? & ? & ? & ?); lia).
  destruct (shape_cases e ty') as [(k & n & Hk & Hin)|[(k & enc & Hk & Hin)|[->|[->|[(Hk & Hin)|(Hk & Hn)]]]]].
  - rewrite Hk in H. apply ibind_ok in H as ([w1 c2] & t3 & H3 & H).
    apply iret_ok in H as [H ->]. apply pair_ok in H as [H <-]. apply pair_ok in H as [<- <-].
    destruct (shape_fixed e _ _ Hin) as (k' & Hk' & _ & Ha & Hb & Hr).
    apply read_value_plain_ok in H3; auto; try lia.
    destruct H3 as (w0 & -> & _ & Hd & Hf).
    destruct (Hf ltac:(lia) ltac:(lia)) as (Hf2 & ->).
    pose proof (field_len _ _ _ _ Hf2) as Hl.
    split; [|split].
    + apply va_fixed with n; auto.
    + unfold handed. rewrite Hk. unfold data_ok, bytes_of in *.
      destruct w0 as [k0 [[l enc]|]]; cbn [fv_data fv_kind] in *.
      * destruct Hd as (-> & -> & _). exists l. auto with zarith.
      * change (zlen (@nil Z)) with 0 in Hl. lia.
    + destruct Hf2 as (? & ? & ? & ?). lia.
  - destruct (shape_sized e ty' Hin) as (Hk' & Ha & Hb).
    rewrite Hk' in H.
    apply ibind_ok in H as ([b2 c2] & t3 & H3 & H).
    apply ibind_ok in H as (n & t4 & H4 & H). apply ilift_ok in H4 as [H4 ->].
    assert (Hu2 : u32_at s e (off + 4) n).
    { rewrite <- (Z.add_0_r (off + 4)).
      apply (pread_u32 _ 4 _ _ _ _ _ _ _ ltac:(lia) H3); auto; lia. }
    fieldof H3 Hf3. pose proof (u32_at_range _ _ _ _ HB Hu2) as Hr.
    apply ibind_ok in H as ([w1 c3] & t5 & H5 & H).
    apply iret_ok in H as [H ->]. apply pair_ok in H as [H <-]. apply pair_ok in H as [<- <-].
    apply read_value_plain_ok in H5; auto; try lia.
    destruct H5 as (w0 & -> & Hn & Hd & Hf).
    assert (Hp : 0 <= off + 4 + 4 <= zlen s) by (destruct Hf3 as (? & ? & ? & ?); lia).
    destruct (Hf ltac:(lia) ltac:(lia)) as (Hf2 & ->).
    replace (off + 4 + 4) with (off + 8) in * by lia.
    split; [|split].
    + apply va_sized with n; auto.
    + unfold handed. rewrite Hk'. exists w0. auto.
    + destruct Hf2 as (? & ? & ? & ?). lia.
  - change (shape_of cp e 30) with (Sized FvByteString (EncCodepage cp)) in H. cbv iota in H.
    apply ibind_ok in H as ([b2 c2] & t3 & H3 & H).
    apply ibind_ok in H as (n & t4 & H4 & H). apply ilift_ok in H4 as [H4 ->].
    assert (Hu2 : u32_at s e (off + 4) n).
    { rewrite <- (Z.add_0_r (off + 4)).
      apply (pread_u32 _ 4 _ _ _ _ _ _ _ ltac:(lia) H3); auto; lia. }
    fieldof H3 Hf3. pose proof (u32_at_range _ _ _ _ HB Hu2) as Hr.
    apply ibind_ok in H as ([w1 c3] & t5 & H5 & H).
    apply iret_ok in H as [H ->]. apply pair_ok in H as [H <-]. apply pair_ok in H as [<- <-].
    apply read_value_string_ok in H5; auto; try lia.
    change (30 =? 31) with false in H5. cbv iota zeta in H5.
    destruct H5 as (w0 & raw & -> & Hn & _ & Hd & Hf & Hcut).
    assert (Hp : 0 <= off + 4 + 4 <= zlen s) by (destruct Hf3 as (? & ? & ? & ?); lia).
    destruct (Hf ltac:(lia) ltac:(lia)) as (Hf2 & ->).
    replace (off + 4 + 4) with (off + 8) in * by lia.
    split; [|split].
    + apply va_ascii with n raw; auto.
    + unfold handed. change (shape_of cp e 30) with (Sized FvByteString (EncCodepage cp)). exists w0. auto.
    + destruct Hf2 as (? & ? & ? & ?). lia.
  - change (shape_of cp e 31) with (Sized FvUtf16String EncUtf16Little) in H. cbv iota in H.
    apply ibind_ok in H as ([b2 c2] & t3 & H3 & H).
    apply ibind_ok in H as (n & t4 & H4 & H). apply ilift_ok in H4 as [H4 ->].
    assert (Hu2 : u32_at s e (off + 4) n).
    { rewrite <- (Z.add_0_r (off + 4)).
      apply (pread_u32 _ 4 _ _ _ _ _ _ _ ltac:(lia) H3); auto; lia. }
    fieldof H3 Hf3. pose proof (u32_at_range _ _ _ _ HB Hu2) as Hr.
    apply ibind_ok in H as ([w1 c3] & t5 & H5 & H).
    apply iret_ok in H as [H ->]. apply pair_ok in H as [H <-]. apply pair_ok in H as [<- <-].
    apply read_value_string_ok in H5; auto; try lia.
    change (31 =? 31) with true in H5. cbv iota zeta in H5.
    destruct H5 as (w0 & raw & -> & Hn & Hz & Hd & Hf & Hcut).
    assert (Hp : 0 <= off + 4 + 4 <= zlen s) by (destruct Hf3 as (? & ? & ? & ?); lia).
    destruct (Hf ltac:(lia) ltac:(lia)) as (Hf2 & ->).
    replace (off + 4 + 4) with (off + 8) in * by lia.
    split; [|split].
    + apply va_utf16 with n (2 * n mod 4294967296) raw; auto.
    + unfold handed. change (shape_of cp e 31) with (Sized FvUtf16String EncUtf16Little). exists w0. auto.
    + destruct Hf2 as (? & ? & ? & ?). lia.
  - rewrite Hk in H. destruct (UINT32_MAX - 4 <=? u32 (off + 4)); [discriminate|].
    apply ibind_ok in H as ([b2 c2] & t3 & H3 & H).
    apply ibind_ok in H as (n & t4 & H4 & H). apply ilift_ok in H4 as [H4 ->].
    assert (Hu2 : u32_at s e (off + 4) n).
    { rewrite <- (Z.add_0_r (off + 4)).
      apply (pread_u32 _ 4 _ _ _ _ _ _ _ ltac:(lia) H3); auto; lia. }
    fieldof H3 Hf3.
    assert (Hp : 0 <= off + 4 + 4 <= zlen s) by (destruct Hf3 as (? & ? & ? & ?); lia).
    apply ibind_ok in H as (c3 & t5 & H5 & H).
    apply iret_ok in H as [H ->]. apply pair_ok in H as [H <-]. apply pair_ok in H as [<- <-].
    apply multi_loop_ok in H5. replace (off + 4 + 4) with (off + 8) in * by lia.
    split; [|split].
    + apply va_multi with n c3; auto.
    + unfold handed. rewrite Hk. reflexivity.
    + apply values_at_range in H5; lia.
  - rewrite Hk in H.
    apply iret_ok in H as [H ->]. apply pair_ok in H as [H <-]. apply pair_ok in H as [<- <-].
    destruct Hn as (N1 & N2 & N3 & N4 & N5 & N6).
    split; [apply va_unknown; auto|]. split; [|lia].
    unfold handed. rewrite Hk. reflexivity.
Qed.

Lemma zlen_snoc {A} (l : list A) x : zlen (l ++ [x]) = zlen l + 1.
Proof. rewrite zlen_app. reflexivity. Qed.

Lemma znth_snoc {A} (l : list A) x k y :
  znth (l ++ [x]) k = Some y -> znth l k = Some y \/ (k = zlen l /\ y = x).
Proof.
  intros H. pose proof (znth_range _ _ _ H) as Hr. rewrite zlen_snoc in Hr.
  destruct (Z_lt_ge_dec k (zlen l)) as [Hk|Hk].
  - left. rewrite znth_app_l in H by lia. exact H.
  - right. assert (k = zlen l) by lia. subst k. rewrite znth_app_r in H by lia.
    rewrite Z.sub_diag in H. change (Some x = Some y) in H. split; congruence.
Qed.

(** A property as read from entry [k]. *)
Definition property_read (e : endian) (base k : Z) (p : property) : Prop :=
  property_at s e base k p /\ handed e (pv_type p) (pv_value p).

Lemma properties_loop_ok n : forall e base c pos acc t ps c' t',
  0 <= base -> pos = base + 8 + 8 * zlen acc ->
  (forall k p, znth acc k = Some p -> property_read e base k p) ->
  properties_loop lib rd v d cp n e base c pos acc t = (Ok (ps, c'), t') ->
  zlen ps = zlen acc + Z.of_nat n /\
  forall k p, znth ps k = Some p -> property_read e base k p.
Proof.
  induction n as [|n IH]; intros e base c pos acc t ps c' t' Hb Hpos Hacc H; cbn [properties_loop] in H.
  - apply iret_ok in H as [H ->]. apply pair_ok in H as [<- <-]. split; [lia|auto].
  - apply ibind_ok in H as (c0 & t0 & H0 & H). apply pseek_ok in H0 as [-> ->].
    apply ibind_ok in H as ([[id rel] c1] & t1 & H1 & H).
    destruct (rel <=? 8) eqn:Erel; [discriminate|].
    unfold read_list_entry in H1.
    apply ibind_ok in H1 as ([b c2] & t2 & H2 & H1).
    apply ibind_ok in H1 as (id' & t3 & H3 & H1). apply ilift_ok in H3 as [H3 ->].
    apply ibind_ok in H1 as (rel' & t4 & H4 & H1). apply ilift_ok in H4 as [H4 ->].
    apply iret_ok in H1 as [H1 ->]. apply pair_ok in H1 as [H1 <-]. apply pair_ok in H1 as [<- <-].
    assert (Hid : u32_at s e pos id').
    { rewrite <- (Z.add_0_r pos). apply (pread_u32 _ 8 _ _ _ _ _ _ _ ltac:(lia) H2); auto; lia. }
    assert (Hrel : u32_at s e (pos + 4) rel').
    { apply (pread_u32 _ 8 _ _ _ _ _ _ _ ltac:(lia) H2); auto; lia. }
    fieldof H2 Hf2.
    rewrite (ilift_Ok _ _ _ (pos + 8)) in H by apply tell_ok.
    apply ibind_ok in H as ([[ty w] c3] & t5 & H5 & H).
    apply read_data_ok in H5 as (Hv & Hh & _).
    apply IH in H; auto.
    + destruct H as (Hl & Hps). rewrite zlen_snoc in Hl.
      split; [lia|exact Hps].
    + rewrite zlen_snoc. lia.
    + intros k p Hk. apply znth_snoc in Hk as [Hk|[-> ->]]; [apply Hacc; auto|].
      split; [|exact Hh]. exists rel'. cbn [pv_id pv_type].
      split; [rewrite <- Hpos; exact Hid|].
      split; [replace (base + 12 + 8 * zlen acc) with (pos + 4) by lia; exact Hrel|].
      split; [lia|]. exact Hv.
Qed.

Lemma section_read_ok e c base t ps c' t' :
  section_read lib rd v d cp e c base t = (Ok (ps, c'), t') ->
  section_at s e base ps /\
  forall k p, znth ps k = Some p -> handed e (pv_type p) (pv_value p).
Proof.
  intros H. unfold section_read in H.
  apply ibind_ok in H as (c0 & t0 & H0 & H). apply pseek_ok in H0 as [-> ->].
  apply ibind_ok in H as ([b c1] & t1 & H1 & H).
  apply ibind_ok in H as (sz & t2 & H2 & H). apply ilift_ok in H2 as [_ ->].
  apply ibind_ok in H as (n & t3 & H3 & H). apply ilift_ok in H3 as [H3 ->].
  assert (Hn : u32_at s e (base + 4) n).
  { apply (pread_u32 _ 8 _ _ _ _ _ _ _ ltac:(lia) H1); auto; lia. }
  fieldof H1 Hf1. pose proof (u32_at_range _ _ _ _ HB Hn) as Hr.
  apply properties_loop_ok in H;
    [|exact (proj1 Hf1)|unfold zlen; simpl; lia
     |intros k p Hk; apply znth_range in Hk; unfold zlen in Hk; simpl in Hk; lia].
  destruct H as (Hl & Hp).
  change (zlen (@nil property)) with 0 in Hl. rewrite Z2Nat.id in Hl by lia.
  split.
  - split; [|split].
    + destruct Hf1 as (F1 & F2 & F3 & F4). split; [lia|]. split; [lia|]. split; [lia|reflexivity].
    + rewrite Hl. exact Hn.
    + intros k p Hk. apply (Hp k p Hk).
  - intros k p Hk. apply (Hp k p Hk).
Qed.

Definition section_listed (e : endian) (k : Z) (sec : section) : Prop :=
  (exists base,
     field s (28 + 20 * k) 16 (sc_class sec) /\
     u32_at s e (44 + 20 * k) base /\
     section_at s e base (sc_properties sec)) /\
  forall j p, znth (sc_properties sec) j = Some p -> handed e (pv_type p) (pv_value p).

Lemma sections_loop_ok n : forall e c pos acc t ss c' t',
  pos = 28 + 20 * zlen acc ->
  (forall k sec, znth acc k = Some sec -> section_listed e k sec) ->
  sections_loop lib rd v d cp n e c pos acc t = (Ok (ss, c'), t') ->
  zlen ss = zlen acc + Z.of_nat n /\
  forall k sec, znth ss k = Some sec -> section_listed e k sec.
Proof.
  induction n as [|n IH]; intros e c pos acc t ss c' t' Hpos Hacc H; cbn [sections_loop] in H.
  - apply iret_ok in H as [H ->]. apply pair_ok in H as [<- <-]. split; [lia|auto].
  - apply ibind_ok in H as (c0 & t0 & H0 & H). apply pseek_ok in H0 as [-> ->].
    apply ibind_ok in H as ([[class base] c1] & t1 & H1 & H).
    unfold section_list_entry in H1.
    apply ibind_ok in H1 as ([b c2] & t2 & H2 & H1).
    apply ibind_ok in H1 as (base' & t3 & H3 & H1). apply ilift_ok in H3 as [H3 ->].
    apply iret_ok in H1 as [H1 ->]. apply pair_ok in H1 as [H1 <-]. apply pair_ok in H1 as [<- <-].
    assert (Hbase : u32_at s e (pos + 16) base').
    { apply (pread_u32 _ 20 _ _ _ _ _ _ _ ltac:(lia) H2); auto; lia. }
    fieldof H2 Hf2.
    rewrite (ilift_Ok _ _ _ (pos + 20)) in H by apply tell_ok.
    apply ibind_ok in H as ([props c3] & t5 & H5 & H).
    apply section_read_ok in H5 as (Hsec & Hh).
    apply IH in H; auto.
    + destruct H as (Hl & Hps). rewrite zlen_snoc in Hl.
      split; [lia|exact Hps].
    + rewrite zlen_snoc. lia.
    + intros k p Hk. apply znth_snoc in Hk as [Hk|[-> ->]]; [apply Hacc; auto|].
      split; [|exact Hh]. exists base'. cbn [sc_class sc_properties].
      split; [|split; [|exact Hsec]].
      * rewrite <- Hpos. replace pos with (pos + 0) at 1 by lia.
        apply field_sub with 20; auto; lia.
      * replace (44 + 20 * zlen acc) with (pos + 16) by lia. exact Hbase.
Qed.

Lemma read_header_ok l x :
  field s 0 28 l -> read_header l = Ok x ->
  header_at s x /\ u16_at s (ps_order x) 24 (ps_count x) /\ ps_sections x = [].
Proof.
  intros Hf H. unfold read_header in H.
  apply rbind_ok in H as (b0 & H0 & H). apply arr_get_ok in H0.
  apply rbind_ok in H as (b1 & H1 & H). apply arr_get_ok in H1.
  apply rbind_ok in H as (e & He & H).
  destruct (get_u16_at s e 0 28 l 2 Hf ltac:(lia) ltac:(lia)) as (fm & Hfm & Afm).
  destruct (get_u32_at s e 0 28 l 4 Hf ltac:(lia) ltac:(lia)) as (vr & Hvr & Avr).
  destruct (get_u16_at s e 0 28 l 24 Hf ltac:(lia) ltac:(lia)) as (n & Hn & An).
  rewrite Hfm in H. cbn [rbind] in H. rewrite Hvr in H. cbn [rbind] in H.
  rewrite Hn in H. cbn [rbind] in H. apply Ok_inj in H. subst x.
  cbn [ps_order ps_count ps_sections].
  split; [|split; [exact An|reflexivity]].
  destruct Hf as (F1 & F2 & F3 & ->).
  unfold header_at. cbn [ps_order ps_format ps_version ps_class].
  assert (F : field s 0 28 (slice s 0 28)).
  { split; [lia|]. split; [lia|]. split; [lia|reflexivity]. }
  split; [exact F|]. split; [|split; [exact Afm|split; [exact Avr|]]].
  - rewrite znth_slice in H0, H1 by lia.
    change (0 + 0) with 0 in H0. change (0 + 1) with (0 + 1) in H1.
    rewrite (slice_cons _ _ _ _ H0) by lia. rewrite (slice_cons _ _ _ _ H1) by lia.
    change (slice s (0 + 1 + 1) (2 - 1 - 1)) with (@nil Z).
    destruct ((b0 =? 0xfe) && (b1 =? 0xff)) eqn:E1.
    + apply Ok_inj in He. subst e. apply andb_prop in E1 as [E1 E2].
      apply Z.eqb_eq in E1, E2. subst. reflexivity.
    + destruct ((b0 =? 0xff) && (b1 =? 0xfe)) eqn:E2; [|discriminate].
      apply Ok_inj in He. subst e. apply andb_prop in E2 as [E2 E3].
      apply Z.eqb_eq in E2, E3. subst. reflexivity.
  - replace 8 with (0 + 8) at 1 by lia. apply field_sub with 28; auto; lia.
Qed.

Theorem get_set_sound c t x c' t' :
  get_set lib rd v d cp c t = (Ok (x, c'), t') ->
  set_at s x /\
  forall k sec j p, znth (ps_sections x) k = Some sec ->
    znth (sc_properties sec) j = Some p -> handed (ps_order x) (pv_type p) (pv_value p).
Proof.
  intros H. unfold get_set in H.
  apply ibind_ok in H as (c0 & t0 & H0 & H). apply pseek_ok in H0 as [-> ->].
  apply ibind_ok in H as ([b c1] & t1 & H1 & H). fieldof H1 Hf1.
  apply ibind_ok in H as (h & t2 & H2 & H). apply ilift_ok in H2 as [H2 ->].
  apply ibind_ok in H as ([secs c2] & t3 & H3 & H).
  apply iret_ok in H as [H ->]. apply pair_ok in H as [<- <-].
  destruct (read_header_ok _ _ Hf1 H2) as (Hh & Hn & _).
  pose proof (u16_at_range _ _ _ _ HB Hn) as Hr.
  apply sections_loop_ok in H3;
    [|unfold zlen; simpl; lia
     |intros k p Hk; apply znth_range in Hk; unfold zlen in Hk; simpl in Hk; lia].
  destruct H3 as (Hl & Hp).
  change (zlen (@nil section)) with 0 in Hl. rewrite Z2Nat.id in Hl by lia.
  split.
  - split; [exact Hh|]. cbn [ps_order ps_count ps_sections].
    split; [exact Hn|]. split; [lia|].
    intros k sec Hk. apply (Hp k sec Hk).
  - cbn [ps_order ps_sections]. intros k sec j p Hk Hj. destruct (Hp k sec Hk) as (_ & Hq). eauto.
Qed.

(** * Completeness *)
Hypothesis HT : io_total rd f.
Hypothesis HI : intact v d.
Hypothesis HL : lib_accepts lib.
Hypothesis Hsmall : zlen s < 4294967295.

Lemma pread_step {B} c n t l (k : list Z * Z -> io B) :
  0 < n <= 1073741824 -> field s c n l ->
  exists t', ibind (pread rd v d c n) k t = k (l, c + n) t'.
Proof.
  intros Hn Hf. destruct (pread_complete c n t l HT HI Hn Hf) as (t' & H).
  exists t'. apply ibind_Ok. exact H.
Qed.

Lemma u32_field e off x : u32_at s e off x ->
  exists l, field s off 4 l /\ get_u32 e l 0 = Ok x.
Proof.
  intros (l & Hf & ->). exists l. split; auto.
  destruct (get_u32_at s e off 4 l 0 Hf) as (y & Hy & (l' & Hf' & ->)); try lia.
  rewrite Hy. rewrite Z.add_0_r in Hf'. now rewrite (field_fun _ _ _ _ _ Hf Hf').
Qed.

Lemma multi_loop_complete k : forall e c last t,
  values_at s e c k last ->
  exists t', multi_loop rd v d k e c c t = (Ok last, t').
Proof.
  induction k as [|k IH]; intros e c last t H;
    inversion H as [|off0 k0 n l last0 Hu Hn Hf Hv]; subst; cbn [multi_loop].
  - exists t. reflexivity.
  - assert (R : 0 <= c /\ c + 4 + n <= zlen s).
    { destruct Hu as (l0 & (U1 & U2 & U3 & U4) & _). destruct Hf as (F1 & F2 & F3 & F4). lia. }
    unfold UINT32_MAX.
    rewrite (proj2 (Z.leb_gt (4294967295 - 4) c)) by lia.
    destruct (u32_field _ _ _ Hu) as (b & Hb & Hg).
    destruct (pread_step c 4 t b
      (fun '(b, c1) => dio size <- ilift (get_u32 e b 0);
        if u32 (4294967295 - size) <=? u32 (c + 4) then ierr
        else if (size =? 0) || (MAX_ALLOCATION <? size) then ierr
        else dio (_, c2) <- pread rd v d c1 size; multi_loop rd v d k e c2 (u32 (u32 (c + 4) + size)))
      ltac:(lia) Hb) as (t1 & ->).
    cbv beta iota. rewrite (ilift_Ok _ _ _ n) by exact Hg.
    rewrite (u32_id (c + 4)) by (unfold TWO32; lia).
    rewrite (u32_id (4294967295 - n)) by (unfold TWO32; lia).
    rewrite (proj2 (Z.leb_gt (4294967295 - n) (c + 4))) by lia.
    unfold MAX_ALLOCATION.
    rewrite (proj2 (Z.eqb_neq n 0)) by lia.
    rewrite (proj2 (Z.ltb_ge 134217728 n)) by lia. cbn [orb].
    destruct (pread_step (c + 4) n t1 l
      (fun '(_, c2) => multi_loop rd v d k e c2 (u32 (c + 4 + n))) ltac:(lia) Hf) as (t2 & ->).
    cbv beta iota. rewrite (u32_id (c + 4 + n)) by (unfold TWO32; lia).
    apply IH. exact Hv.
Qed.

Lemma store_complete k enc data size :
  0 <= size <= zlen data -> (0 < size -> sizes_ok k size) ->
  exists w, store lib k enc data size = Ok w.
Proof.
  intros Hs Hk. destruct HL as (H1 & H2). unfold store. rewrite H1. cbn [negb].
  destruct (0 <? size) eqn:E; [|eauto].
  rewrite (proj2 (Z.ltb_ge (zlen data) size)) by lia.
  rewrite H2; [eauto|]. rewrite zlen_slice by lia. apply Hk. lia.
Qed.

Lemma read_value_plain_complete t k enc c size l tr :
  t <> 0x1e -> t <> 0x1f -> size <= 134217728 -> field s c size l ->
  (0 < size -> sizes_ok k size) ->
  exists w tr', read_value lib rd v d t k enc c size tr = (Ok (w, c + size), tr').
Proof.
  intros Ha Hu Hsz Hf Hk. unfold read_value.
  rewrite (proj2 (Z.eqb_neq t 0x1e)) by auto.
  rewrite (proj2 (Z.eqb_neq t 0x1f)) by auto.
  pose proof (field_len _ _ _ _ Hf) as Hlen.
  destruct (0 <? size) eqn:E0.
  - unfold MAX_ALLOCATION.
    rewrite (proj2 (Z.eqb_neq size 0)) by lia.
    rewrite (proj2 (Z.ltb_ge 134217728 size)) by lia. cbn [orb].
    destruct (pread_step c size tr l
      (fun '(data, c) => dio size <- ilift (Ok size);
        dio f0 <- ilift (store lib k enc data size); iret (Some f0, c)) ltac:(lia) Hf) as (t2 & ->).
    cbv beta iota. rewrite (ilift_Ok _ _ _ size) by reflexivity.
    destruct (store_complete k enc l size) as (w & Hw); [lia|auto|].
    rewrite (ilift_Ok _ _ _ w) by exact Hw. exists (Some w), t2. reflexivity.
  - destruct (store_complete k enc [] 0) as (w & Hw); [change (zlen (@nil Z)) with 0; lia|lia|].
    rewrite (ilift_Ok _ _ _ w) by exact Hw. exists (Some w), tr.
    replace (c + size) with c; [reflexivity|]. destruct Hf as (_ & F & _). lia.
Qed.

Lemma read_value_string_complete t k enc c size l tr :
  t = 0x1e \/ t = 0x1f -> 0 <= size < 4294967296 ->
  let m := if t =? 0x1f then 2 * size mod 4294967296 else size in
  (m = 0 -> size = 0) -> m <= 134217728 -> field s c m l ->
  (forall n, sizes_ok k n) ->
  exists w tr', read_value lib rd v d t k enc c size tr = (Ok (w, c + m), tr').
Proof.
  intros Ht Hsz m Hm0 Hm Hf Hk. unfold read_value.
  pose proof (field_len _ _ _ _ Hf) as Hlen.
  destruct (0 <? size) eqn:E0.
  - assert (Em : (if t =? 31 then u32 (size * 2) else size) = m).
    { unfold m, u32, TWO32. destruct (t =? 31); [f_equal; lia|reflexivity]. }
    rewrite Em. unfold MAX_ALLOCATION.
    assert (Hm1 : 0 <= m) by (destruct Hf as (_ & F & _); exact F).
    assert (Hm2 : m <> 0) by lia.
    rewrite (proj2 (Z.eqb_neq m 0)) by lia.
    rewrite (proj2 (Z.ltb_ge 134217728 m)) by lia. cbn [orb].
    destruct (pread_step c m tr l
      (fun '(data, c) => dio size <- ilift (if t =? 30 then Ok (ascii_size data)
                         else if t =? 31 then utf16_size data
                         else Ok m);
        dio f0 <- ilift (store lib k enc data size); iret (Some f0, c)) ltac:(lia) Hf) as (t2 & ->).
    cbv beta iota.
    assert (Hn : exists n, (if t =? 30 then Ok (ascii_size l)
                         else if t =? 31 then utf16_size l
                         else Ok m) = Ok n /\ 0 <= n <= zlen l).
    { destruct Ht as [-> | ->].
      - exists (ascii_size l). split; [reflexivity|]. apply ascii_cut.
      - change (31 =? 30) with false. change (31 =? 31) with true. cbv iota.
        assert (Hev : length l = (2 * (Z.to_nat (m / 2)))%nat).
        { assert (Em2 : m = 2 * (size mod 2147483648)).
          { unfold m. change (31 =? 31) with true. cbv iota.
            change 4294967296 with (2 * 2147483648). apply Zmult_mod_distr_l. }
          clearbody m. unfold zlen in Hlen.
          pose proof (Z.mod_pos_bound size 2147483648 ltac:(lia)).
          rewrite Em2 at 1. rewrite Z.mul_comm, Z_div_mult by lia. lia. }
        destruct (utf16_cut _ l Hev) as (n & Hn & Hr & _). eauto. }
    destruct Hn as (n & Hn & Hr).
    rewrite (ilift_Ok _ _ _ n) by exact Hn.
    destruct (store_complete k enc l n) as (w & Hw); [lia|auto|].
    rewrite (ilift_Ok _ _ _ w) by exact Hw. exists (Some w), t2. reflexivity.
  - destruct (store_complete k enc [] 0) as (w & Hw); [change (zlen (@nil Z)) with 0; lia|lia|].
    rewrite (ilift_Ok _ _ _ w) by exact Hw. exists (Some w), tr.
    replace (c + m) with c; [reflexivity|].
    assert (size = 0) by lia. subst size. unfold m. destruct (t =? 31); simpl; lia.
Qed.

Lemma read_data_complete e c off t ty st :
  0 <= c -> value_at s e off ty st ->
  exists w c' t', read_data lib rd v d cp e c off t = (Ok (ty, w, c'), t').
Proof.
  intros Hc H.
  assert (Hu : u32_at s e off ty) by (inversion H; subst; auto).
  destruct (u32_field _ _ _ Hu) as (b & Hb & Hg).
  assert (R : 0 <= off /\ off + 4 <= zlen s) by (destruct Hb as (? & ? & ? & ?); lia).
  unfold read_data, UINT32_MAX.
  rewrite (proj2 (Z.leb_gt (4294967295 - 4) off)) by lia.
  rewrite (ibind_Ok _ _ _ _ _ (pseek_complete c off t Hc (proj1 R))).
  match goal with |- exists w c' t', ibind (pread rd v d off 4) ?k t = _ =>
    destruct (pread_step off 4 t b k ltac:(lia) Hb) as (t1 & ->) end.
  cbv beta iota. rewrite (ilift_Ok _ _ _ ty) by exact Hg.
  rewrite (u32_id (off + 4)) by (unfold TWO32; lia).
  assert (Hsz : forall n, u32_at s e (off + 4) n -> exists b2,
     field s (off + 4) 4 b2 /\ get_u32 e b2 0 = Ok n /\ 0 <= n < 4294967296).
  { intros n Hn. destruct (u32_field _ _ _ Hn) as (b2 & Hb2 & Hg2). exists b2.
    split; [exact Hb2|]. split; [exact Hg2|]. apply (u32_at_range _ _ _ _ HB Hn). }
  inversion H; subst.
  - match goal with I : In (ty, n) fixed_types |- _ =>
      destruct (shape_fixed e _ _ I) as (k & -> & Hk & Ha & Hb' & Hr) end.
    destruct (read_value_plain_complete ty k (EncOrder e) (off + 4) n l t1) as (w & t2 & Hw);
      auto; try lia.
    rewrite (ibind_Ok _ _ _ _ _ Hw). do 3 eexists. reflexivity.
  - destruct (shape_sized e ty) as (-> & Ha & Hb'); auto.
    destruct (Hsz n) as (b2 & Hb2 & Hg2 & Hr); auto.
    match goal with |- exists w c' t', ibind (pread rd v d (off + 4) 4) ?k t1 = _ =>
      destruct (pread_step (off + 4) 4 t1 b2 k ltac:(lia) Hb2) as (t2 & ->) end.
    cbv beta iota. rewrite (ilift_Ok _ _ _ n) by exact Hg2.
    replace (off + 4 + 4) with (off + 8) by lia.
    destruct (read_value_plain_complete ty FvBinary (EncOrder e) (off + 8) n l t2) as (w & t3 & Hw);
      auto; try lia; [exact (fun _ => I)|].
    rewrite (ibind_Ok _ _ _ _ _ Hw). do 3 eexists. reflexivity.
  - change (shape_of cp e 30) with (Sized FvByteString (EncCodepage cp)). cbv iota.
    destruct (Hsz n) as (b2 & Hb2 & Hg2 & Hr); auto.
    match goal with |- exists w c' t', ibind (pread rd v d (off + 4) 4) ?k t1 = _ =>
      destruct (pread_step (off + 4) 4 t1 b2 k ltac:(lia) Hb2) as (t2 & ->) end.
    cbv beta iota. rewrite (ilift_Ok _ _ _ n) by exact Hg2.
    replace (off + 4 + 4) with (off + 8) by lia.
    destruct (read_value_string_complete 30 FvByteString (EncCodepage cp) (off + 8) n raw t2)
      as (w & t3 & Hw); auto; try lia; [exact (fun _ => I)|].
    rewrite (ibind_Ok _ _ _ _ _ Hw). do 3 eexists. reflexivity.
  - change (shape_of cp e 31) with (Sized FvUtf16String EncUtf16Little). cbv iota.
    destruct (Hsz n) as (b2 & Hb2 & Hg2 & Hr); auto.
    match goal with |- exists w c' t', ibind (pread rd v d (off + 4) 4) ?k t1 = _ =>
      destruct (pread_step (off + 4) 4 t1 b2 k ltac:(lia) Hb2) as (t2 & ->) end.
    cbv beta iota. rewrite (ilift_Ok _ _ _ n) by exact Hg2.
    replace (off + 4 + 4) with (off + 8) by lia.
    destruct (read_value_string_complete 31 FvUtf16String EncUtf16Little (off + 8) n raw t2)
      as (w & t3 & Hw); auto; try lia; [exact (fun _ => I)|].
    rewrite (ibind_Ok _ _ _ _ _ Hw). do 3 eexists. reflexivity.
  - assert (Hk : shape_of cp e ty = Multi) by (match goal with I : ty = _ \/ _ |- _ => destruct I as [-> | ->] end; reflexivity).
    rewrite Hk.
    destruct (Hsz n) as (b2 & Hb2 & Hg2 & Hr); auto.
    rewrite (proj2 (Z.leb_gt (4294967295 - 4) (off + 4))) by (destruct Hb2 as (? & ? & ? & ?); lia).
    match goal with |- exists w c' t', ibind (pread rd v d (off + 4) 4) ?k t1 = _ =>
      destruct (pread_step (off + 4) 4 t1 b2 k ltac:(lia) Hb2) as (t2 & ->) end.
    cbv beta iota. rewrite (ilift_Ok _ _ _ n) by exact Hg2.
    rewrite (u32_id (off + 4 + 4)) by (unfold TWO32; destruct Hb2 as (? & ? & ? & ?); lia).
    replace (off + 4 + 4) with (off + 8) by lia.
    match goal with I : values_at _ _ _ _ _ |- _ =>
      destruct (multi_loop_complete _ _ _ _ t2 I) as (t3 & Hm) end.
    rewrite (ibind_Ok _ _ _ _ _ Hm). do 3 eexists. reflexivity.
  - destruct (shape_cases e ty) as [(k & n & Hk & Hin)|[(k & enc & Hk & Hin)|[?|[?|[(Hk & [?|?])|(Hk & Hn)]]]]];
      try congruence; try contradiction.
    + exfalso. apply in_map with (f := fst) in Hin. auto.
    + rewrite Hk. do 3 eexists. reflexivity.
Qed.

Lemma properties_loop_complete ps e base : 0 <= base ->
  (forall k p, znth ps k = Some p -> property_at s e base k p) ->
  forall n c pos acc t,
  0 <= c -> pos = base + 8 + 8 * (zlen ps - Z.of_nat n) -> Z.of_nat n <= zlen ps ->
  exists qs c' t', properties_loop lib rd v d cp n e base c pos acc t = (Ok (qs, c'), t') /\ 0 <= c'.
Proof.
  intros Hb Hps. induction n as [|n IH]; intros c pos acc t Hc Hpos Hn; cbn [properties_loop].
  - exists acc, c, t. split; [reflexivity|exact Hc].
  - pose proof (zlen_nonneg ps).
    destruct (znth_some ps (zlen ps - Z.of_nat (S n))) as (p & Hp); [lia|].
    destruct (Hps _ _ Hp) as (rel & Hid & Hrel & H8 & Hv).
    rewrite (ibind_Ok _ _ _ _ _ (pseek_complete c pos t Hc ltac:(lia))).
    destruct (u32_field _ _ _ Hrel) as (b & Hfr & Hg).
    assert (Hf8 : field s pos 8 (slice s pos 8)).
    { destruct Hid as (l1 & (A1 & A2 & A3 & A4) & _). destruct Hfr as (B1 & B2 & B3 & B4).
      split; [lia|]. split; [lia|]. split; [lia|reflexivity]. }
    destruct (get_u32_at s e pos 8 _ 0 Hf8) as (x & Hx & Ax); try lia.
    destruct (get_u32_at s e pos 8 _ 4 Hf8) as (y & Hy & Ay); try lia.
    replace (base + 12 + 8 * (zlen ps - Z.of_nat (S n))) with (pos + 4) in Hrel by lia.
    pose proof (u32_at_fun _ _ _ _ _ Hrel Ay) as Ey. subst y.
    assert (He : exists t1, read_list_entry rd v d e pos t = (Ok (x, rel, pos + 8), t1)).
    { unfold read_list_entry.
      match goal with |- exists t1, ibind (pread rd v d pos 8) ?k t = _ =>
        destruct (pread_step pos 8 t _ k ltac:(lia) Hf8) as (t1 & ->) end.
      cbv beta iota. rewrite (ilift_Ok _ _ _ x) by exact Hx.
      rewrite (ilift_Ok _ _ _ rel) by exact Hy. exists t1. reflexivity. }
    destruct He as (t1 & He). rewrite (ibind_Ok _ _ _ _ _ He). cbv beta iota.
    rewrite (proj2 (Z.leb_gt rel 8)) by lia.
    rewrite (ilift_Ok _ _ _ (pos + 8)) by apply tell_ok.
    destruct (read_data_complete e (pos + 8) (u32 (base + rel)) t1 _ _ ltac:(lia) Hv)
      as (w & c2 & t2 & Hd).
    rewrite (ibind_Ok _ _ _ _ _ Hd). cbv beta iota.
    pose proof (read_data_ok _ _ _ _ _ _ _ _ Hd) as (_ & _ & Hc2).
    apply IH; try lia.
    pose proof (u32_range (base + rel)). lia.
Qed.

Lemma section_read_complete e c base t ps :
  0 <= c -> section_at s e base ps ->
  exists qs c' t', section_read lib rd v d cp e c base t = (Ok (qs, c'), t') /\ 0 <= c'.
Proof.
  intros Hc (Hf & Hn & Hps). unfold section_read.
  assert (Hb : 0 <= base) by (destruct Hf as (? & ? & ? & ?); lia).
  rewrite (ibind_Ok _ _ _ _ _ (pseek_complete c base t Hc Hb)).
  match goal with |- exists qs c' t', ibind (pread rd v d base 8) ?k t = _ /\ _ =>
    destruct (pread_step base 8 t _ k ltac:(lia) Hf) as (t1 & ->) end.
  cbv beta iota.
  destruct (get_u32_at s e base 8 _ 0 Hf) as (x & Hx & Ax); try lia.
  destruct (get_u32_at s e base 8 _ 4 Hf) as (y & Hy & Ay); try lia.
  pose proof (u32_at_fun _ _ _ _ _ Hn Ay) as Ey. subst y.
  rewrite (ilift_Ok _ _ _ x) by exact Hx. rewrite (ilift_Ok _ _ _ (zlen ps)) by exact Hy.
  pose proof (zlen_nonneg ps).
  apply properties_loop_complete with ps; auto; try lia.
Qed.

Lemma sections_loop_complete ss e :
  (forall k sec, znth ss k = Some sec -> exists base,
     field s (28 + 20 * k) 16 (sc_class sec) /\ u32_at s e (44 + 20 * k) base /\
     section_at s e base (sc_properties sec)) ->
  forall n c pos acc t,
  0 <= c -> pos = 28 + 20 * (zlen ss - Z.of_nat n) -> Z.of_nat n <= zlen ss ->
  exists qs c' t', sections_loop lib rd v d cp n e c pos acc t = (Ok (qs, c'), t').
Proof.
  intros Hss. induction n as [|n IH]; intros c pos acc t Hc Hpos Hn; cbn [sections_loop].
  - exists acc, c, t. reflexivity.
  - pose proof (zlen_nonneg ss).
    destruct (znth_some ss (zlen ss - Z.of_nat (S n))) as (sec & Hp); [lia|].
    destruct (Hss _ _ Hp) as (base & Hcl & Hrel & Hv).
    rewrite (ibind_Ok _ _ _ _ _ (pseek_complete c pos t Hc ltac:(lia))).
    assert (Hf : field s pos 20 (slice s pos 20)).
    { destruct Hrel as (l1 & (A1 & A2 & A3 & A4) & _).
      split; [lia|]. split; [lia|]. split; [lia|reflexivity]. }
    destruct (get_u32_at s e pos 20 _ 16 Hf) as (y & Hy & Ay); try lia.
    replace (44 + 20 * (zlen ss - Z.of_nat (S n))) with (pos + 16) in Hrel by lia.
    pose proof (u32_at_fun _ _ _ _ _ Hrel Ay) as Ey. subst y.
    assert (He : exists l t1, section_list_entry rd v d e pos t = (Ok (l, base, pos + 20), t1)).
    { unfold section_list_entry.
      match goal with |- exists l t1, ibind (pread rd v d pos 20) ?k t = _ =>
        destruct (pread_step pos 20 t _ k ltac:(lia) Hf) as (t1 & ->) end.
      cbv beta iota. rewrite (ilift_Ok _ _ _ base) by exact Hy. eexists. exists t1. reflexivity. }
    destruct He as (l & t1 & He). rewrite (ibind_Ok _ _ _ _ _ He). cbv beta iota.
    rewrite (ilift_Ok _ _ _ (pos + 20)) by apply tell_ok.
    destruct (section_read_complete e (pos + 20) base t1 _ ltac:(lia) Hv) as (qs & c2 & t2 & Hd & Hc2).
    rewrite (ibind_Ok _ _ _ _ _ Hd). cbv beta iota.
    apply IH; lia.
Qed.

Lemma read_header_complete x : header_at s x -> u16_at s (ps_order x) 24 (ps_count x) ->
  read_header (slice s 0 28) =
  Ok {| ps_order := ps_order x; ps_format := ps_format x; ps_version := ps_version x;
        ps_class := ps_class x; ps_count := ps_count x; ps_sections := [] |}.
Proof.
  intros (Hf & Hmark & Hfm & Hvr & Hcl) Hn. unfold read_header.
  assert (F28 : 28 <= zlen s) by (destruct Hf as (? & ? & ? & ?); lia).
  destruct (slice_2 s 0 ltac:(lia) ltac:(lia)) as (b0 & b1 & H0 & H1 & E).
  rewrite E in Hmark.
  assert (A0 : arr_get (slice s 0 28) 0 = Ok b0) by (apply arr_get_ok; rewrite znth_slice by lia; exact H0).
  assert (A1 : arr_get (slice s 0 28) 1 = Ok b1) by (apply arr_get_ok; rewrite znth_slice by lia; exact H1).
  rewrite A0, A1. cbn [rbind].
  assert (Ee : (if (b0 =? 254) && (b1 =? 255) then Ok Little
     else if (b0 =? 255) && (b1 =? 254) then Ok Big else Err) = Ok (ps_order x)).
  { destruct (ps_order x);
      [assert (b0 = 254 /\ b1 = 255) as [-> ->] by (split; congruence)
      |assert (b0 = 255 /\ b1 = 254) as [-> ->] by (split; congruence)]; reflexivity. }
  rewrite Ee. cbn [rbind].
  destruct (get_u16_at s (ps_order x) 0 28 _ 2 Hf) as (y1 & -> & B1); try lia.
  destruct (get_u32_at s (ps_order x) 0 28 _ 4 Hf) as (y2 & -> & B2); try lia.
  destruct (get_u16_at s (ps_order x) 0 28 _ 24 Hf) as (y3 & -> & B3); try lia.
  cbn [rbind].
  rewrite (u16_at_fun _ _ _ _ _ Hfm B1), (u32_at_fun _ _ _ _ _ Hvr B2), (u16_at_fun _ _ _ _ _ Hn B3).
  destruct Hcl as (_ & _ & _ & ->). rewrite slice_slice by lia. reflexivity.
Qed.

Theorem get_set_complete c t x :
  0 <= c -> set_at s x ->
  exists y c' t', get_set lib rd v d cp c t = (Ok (y, c'), t').
Proof.
  intros Hc (Hh & Hn & Hl & Hs). unfold get_set.
  rewrite (ibind_Ok _ _ _ _ _ (pseek_complete c 0 t Hc ltac:(lia))).
  pose proof Hh as (Hf & _).
  match goal with |- exists y c' t', ibind (pread rd v d 0 28) ?k t = _ =>
    destruct (pread_step 0 28 t _ k ltac:(lia) Hf) as (t1 & ->) end.
  cbv beta iota.
  rewrite (ilift_Ok _ _ _ _ (read_header_complete x Hh Hn)). cbn [ps_order ps_count].
  pose proof (u16_at_range _ _ _ _ HB Hn) as Hr.
  destruct (sections_loop_complete (ps_sections x) (ps_order x) Hs (Z.to_nat (ps_count x))
              (0 + 28) 28 [] t1) as (qs & c2 & t2 & H2); try lia.
  rewrite (ibind_Ok _ _ _ _ _ H2). eexists. exists c2, t2. reflexivity.
Qed.

End Content.
