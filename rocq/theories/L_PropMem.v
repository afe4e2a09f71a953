(** Lemmas on reading property sets when requests for memory can fail. *)
From Coq Require Import ZArith List Bool Lia Permutation.
From Verif Require Import Base Spec_IO Spec_Stream Spec_Content Spec_Prop L_Base M_Table M_Load M_Stream M_Prop M_Mem Spec_Mem M_PropMem Spec_PropMem
  L_Stream L_Stream2 L_Stream3 L_Prop L_Prop2 L_Prop3 L_Mem L_Mem2 L_Mem3 L_Mem6.
Import ListNotations.
Open Scope Z_scope.

(** * Calls *)

(** What a call does: [g] is the same call where no memory is refused, [h] are
    blocks that the call gets and releases or puts into its result, [blocks] are
    those of the result and [view] is the result without places. *)
Definition mcall {A B} (h : list Z) (m : mm (option A)) (g : io B) (blocks : A -> list Z) (view : A -> B)
  (good : A -> Prop) : Prop :=
  forall s, fit s -> owns s h -> exists r s' q, m s = (Ok r, s') /\
  match r with
  | None => moved s q h [] s' /\ (refused q \/ g (m_trace s) = (Err, m_trace s'))
  | Some a => moved s q h (blocks a) s' /\ granted q /\ g (m_trace s) = (Ok (view a), m_trace s') /\ good a
  end.

Section Calls.
Context {A B : Type} (blocks : A -> list Z) (view : A -> B) (good : A -> Prop).

Lemma call_ret h a b : (forall x, cnt (blocks a) x = cnt h x) -> b = view a -> good a -> mcall h (mret (Some a)) (iret b) blocks view good.
Proof.
  intros Hb -> Hg s F O. exists (Some a), s, []. split; [reflexivity|]. split; [|split; [apply granted_nil|split; [reflexivity|exact Hg]]].
  split; [exact F|]. split; [now rewrite app_nil_r|]. intros x. rewrite Hb. lia.
Qed.

Lemma call_fail h : mcall h (dm _ <- release_all h; mret None) ierr blocks view good.
Proof.
  intros s F O. destruct (release_all_spec h s F O) as (s' & X & T & M). rewrite (mbind_ok _ _ _ _ _ X).
  exists None, s', []. split; [reflexivity|]. split; [exact M|]. right. unfold ierr, ilift. now rewrite T.
Qed.

Lemma call_err : mcall [] (mret None) ierr blocks view good.
Proof. intros s F O. exists None, s, []. split; [reflexivity|]. split; [now apply moved_refl|]. now right. Qed.

Lemma call_same h h' m g : mcall h m g blocks view good -> (forall x, cnt h x = cnt h' x) -> mcall h' m g blocks view good.
Proof.
  intros C H s F O. destruct (C s F) as (r & s' & q & X & P). { intros x. rewrite H. apply O. }
  exists r, s', q. split; [exact X|]. destruct r as [a|].
  - destruct P as ((F1 & R1 & C1) & P). split; [|exact P]. split; [exact F1|]. split; [exact R1|]. intros x. rewrite <- H. apply C1.
  - destruct P as ((F1 & R1 & C1) & P). split; [|exact P]. split; [exact F1|]. split; [exact R1|]. intros x. rewrite <- H. apply C1.
Qed.

Lemma call_ext h m g g' : (forall t, g' t = g t) -> mcall h m g blocks view good -> mcall h m g' blocks view good.
Proof.
  intros E C s F O. destruct (C s F O) as (r & s' & q & X & P). exists r, s', q. split; [exact X|]. now rewrite E.
Qed.

(** A step that only reads the file. *)
Lemma call_io {X} h (x : io X) (k : X -> mm (option A)) (k' : X -> io B) :
  (forall t, defined (fst (x t))) ->
  (forall a t t', x t = (Ok a, t') -> mcall h (k a) (k' a) blocks view good) ->
  mcall h (dm r <- mio x; match r with None => dm _ <- release_all h; mret None | Some a => k a end)
    (dio a <- x; k' a) blocks view good.
Proof.
  intros D K s F O. specialize (D (m_trace s)). destruct (x (m_trace s)) as [r t] eqn:E. cbn [fst] in D.
  destruct (mio_spec _ s r t F E D) as (o & s1 & X1 & T1 & M1 & H1). rewrite (mbind_ok _ _ _ _ _ X1).
  destruct o as [a|]; subst r.
  - destruct (K a _ _ E s1 (proj1 M1)) as (r & s' & q & X2 & P); [own|]. exists r, s', q. split; [exact X2|].
    unfold ibind. rewrite E, <- T1. destruct r as [y|]; destruct P as [M2 P]; (split; [weigh|exact P]).
  - destruct (release_all_spec h s1 (proj1 M1)) as (s2 & X2 & T2 & M2); [own|]. rewrite (mbind_ok _ _ _ _ _ X2).
    exists None, s2, []. split; [reflexivity|]. split; [weigh|]. right. unfold ibind. rewrite E. congruence.
Qed.

Lemma call_io0 {X} (x : io X) (k : X -> mm (option A)) (k' : X -> io B) :
  (forall t, defined (fst (x t))) ->
  (forall a t t', x t = (Ok a, t') -> mcall [] (k a) (k' a) blocks view good) ->
  mcall [] (dm r <- mio x; match r with None => mret None | Some a => k a end) (dio a <- x; k' a) blocks view good.
Proof. exact (call_io [] x k k'). Qed.

Lemma call_lift {X} h (r : res X) a (k : X -> mm (option A)) (k' : X -> io B) : r = Ok a ->
  mcall h (k a) (k' a) blocks view good -> mcall h (dm x <- mlift r; k x) (dio x <- ilift r; k' x) blocks view good.
Proof. intros ->. trivial. Qed.

(** A request. *)
Lemma call_alloc mem h k' (k : Z -> mm (option A)) g :
  (forall p, mcall (p :: h) (k p) g blocks view good) ->
  mcall h (dm r <- alloc mem k'; match r with None => dm _ <- release_all h; mret None | Some p => k p end) g blocks view good.
Proof.
  intros K s F O. destruct (alloc_spec mem k' s F) as (r & s1 & X1 & T1 & M1). rewrite (mbind_ok _ _ _ _ _ X1).
  destruct r as [p|].
  - destruct (K p s1 (proj1 M1)) as (r & s' & q & X2 & P); [own|]. exists r, s', ((k', true) :: q). split; [exact X2|].
    rewrite T1 in P. destruct r as [y|].
    + destruct P as (M2 & G & P). split; [weigh|]. split; [now apply granted_two|exact P].
    + destruct P as (M2 & P). split; [weigh|]. destruct P as [P|P]; [left; now apply refused_two|now right].
  - destruct (release_all_spec h s1 (proj1 M1)) as (s2 & X2 & T2 & M2); [own|]. rewrite (mbind_ok _ _ _ _ _ X2).
    exists None, s2, [(k', false)]. split; [reflexivity|]. split; [weigh|]. left. apply refused_one.
Qed.

Lemma call_alloc0 mem k' (k : Z -> mm (option A)) g :
  (forall p, mcall [p] (k p) g blocks view good) ->
  mcall [] (dm r <- alloc mem k'; match r with None => mret None | Some p => k p end) g blocks view good.
Proof. exact (call_alloc mem [] k' k g). Qed.

(** A call and what follows it; the blocks [f] are not its own. *)
Lemma call_bind {X Y} (b1 : X -> list Z) (v1 : X -> Y) (g1 : X -> Prop) h f (m : mm (option X)) (g : io Y)
    (k : X -> mm (option A)) (k' : Y -> io B) :
  mcall h m g b1 v1 g1 -> (forall a, g1 a -> mcall (b1 a ++ f) (k a) (k' (v1 a)) blocks view good) ->
  mcall (h ++ f) (dm r <- m; match r with None => dm _ <- release_all f; mret None | Some a => k a end)
    (dio x <- g; k' x) blocks view good.
Proof.
  intros C K s F O. destruct (C s F) as (r & s1 & q1 & X1 & P1); [own|]. rewrite (mbind_ok _ _ _ _ _ X1).
  destruct r as [a|].
  - destruct P1 as (M1 & G1 & E1 & Hg). destruct (K a Hg s1 (proj1 M1)) as (r & s' & q & X2 & P); [own|].
    exists r, s', (q1 ++ q). split; [exact X2|]. unfold ibind. rewrite E1. destruct r as [y|].
    + destruct P as (M2 & G & P). split; [weigh|]. split; [now apply granted_app|exact P].
    + destruct P as (M2 & P). split; [weigh|]. destruct P as [P|P]; [left; now apply refused_r|now right].
  - destruct P1 as (M1 & P1). destruct (release_all_spec f s1 (proj1 M1)) as (s2 & X2 & T2 & M2); [own|]. rewrite (mbind_ok _ _ _ _ _ X2).
    exists None, s2, q1. split; [reflexivity|]. split; [weigh|]. destruct P1 as [P1|P1]; [now left|right].
    unfold ibind. rewrite P1. congruence.
Qed.

Lemma call_bind0 {X Y} (b1 : X -> list Z) (v1 : X -> Y) (g1 : X -> Prop) h (m : mm (option X)) (g : io Y)
    (k : X -> mm (option A)) (k' : Y -> io B) :
  mcall h m g b1 v1 g1 -> (forall a, g1 a -> mcall (b1 a) (k a) (k' (v1 a)) blocks view good) ->
  mcall h (dm r <- m; match r with None => mret None | Some a => k a end) (dio x <- g; k' x) blocks view good.
Proof.
  intros C K. assert (H : mcall (h ++ []) (dm r <- m; match r with None => dm _ <- release_all []; mret None | Some a => k a end)
    (dio x <- g; k' x) blocks view good).
  { apply (call_bind b1 v1 g1); [exact C|]. intros a Ha. rewrite app_nil_r. now apply K. }
  rewrite app_nil_r in H. exact H.
Qed.
End Calls.

(** * Structures *)
Lemma with_array_spec mem k s : fit s ->
  exists r s' q, with_array mem k s = (Ok r, s') /\ m_trace s' = m_trace s /\
  match r with
  | None => moved s q [] [] s' /\ refused q
  | Some (x, a) => moved s q [] [a; x] s' /\ granted q
  end.
Proof.
  intros F. unfold with_array.
  destruct (alloc_spec mem k s F) as (r & s1 & X1 & T1 & M1). rewrite (mbind_ok _ _ _ _ _ X1). destruct r as [x|].
  2: { exists None, s1, [(k, false)]. split; [reflexivity|]. split; [exact T1|]. split; [exact M1|apply refused_one]. }
  destruct (alloc_spec mem k s1 (proj1 M1)) as (r & s2 & X2 & T2 & M2). rewrite (mbind_ok _ _ _ _ _ X2). destruct r as [a|].
  - exists (Some (x, a)), s2, [(k, true); (k, true)]. split; [reflexivity|]. split; [congruence|].
    split; [weigh|grants].
  - destruct (release_spec x s2 (proj1 M2)) as (s3 & X3 & T3 & M3); [own|]. rewrite (mbind_ok _ _ _ _ _ X3).
    exists None, s3, [(k, true); (k, false)]. split; [reflexivity|]. split; [congruence|].
    split; [weigh|]. apply refused_two, refused_one.
Qed.

(** * The kind of what stays *)
Definition only (k0 : kind) {A} (m : mm A) : Prop := forall s,
  exists q, m_requests (snd (m s)) = m_requests s ++ q /\
    forall p, In p (m_live (snd (m s))) ->
      In p (m_live s) \/ 0 <= p /\ nth_error (m_requests (snd (m s))) (Z.to_nat p) = Some (k0, true).

Lemma only_same k0 {A} (m : mm A) : (forall s, m_requests (snd (m s)) = m_requests s /\ incl (m_live (snd (m s))) (m_live s)) -> only k0 m.
Proof. intros H s. destruct (H s) as [H1 H2]. exists []. rewrite app_nil_r. split; [exact H1|]. intros p Hp. left. now apply H2. Qed.

Lemma only_ret k0 {A} (a : A) : only k0 (mret a).
Proof. apply only_same. intros s. split; [reflexivity|apply incl_refl]. Qed.
Lemma only_lift k0 {A} (r : res A) : only k0 (mlift r).
Proof. apply only_same. intros s. split; [reflexivity|apply incl_refl]. Qed.
Lemma only_io k0 {A} (m : io A) : only k0 (mio m).
Proof. apply only_same. intros s. unfold mio. destruct (m (m_trace s)) as [r t]. split; [reflexivity|apply incl_refl]. Qed.

Lemma only_bind k0 {A B} (m : mm A) (k : A -> mm B) : only k0 m -> (forall a, only k0 (k a)) -> only k0 (mbind m k).
Proof.
  intros H K s. destruct (H s) as (q & Hq & Hl). unfold mbind. destruct (m s) as [r s1]. cbn [snd] in *.
  destruct r as [a| | |]; cbn [snd]; try (exists q; now split).
  destruct (K a s1) as (q2 & Hq2 & Hl2). exists (q ++ q2). rewrite Hq2, Hq, app_assoc. split; [reflexivity|].
  intros p Hp. destruct (Hl2 p Hp) as [Hp1|[H0 H1]]; [|right; split; [exact H0|now rewrite Hq2, Hq in H1]].
  destruct (Hl p Hp1) as [Hp2|[H0 H1]]; [now left|]. right. split; [exact H0|]. rewrite Hq in H1.
  rewrite nth_error_app1; [exact H1|]. apply nth_error_Some. rewrite H1. discriminate.
Qed.

Lemma only_grant mem k0 : only k0 (grant mem k0).
Proof. intros s. exists [(k0, mem (length (m_requests s)))]. split; [reflexivity|]. intros p Hp. now left. Qed.

Lemma only_alloc mem k0 : only k0 (alloc mem k0).
Proof.
  intros s. exists [(k0, mem (length (m_requests s)))]. split; [reflexivity|]. unfold alloc. cbn [snd m_live m_requests].
  intros p Hp. destruct (mem (length (m_requests s))); [|now left]. destruct Hp as [<-|Hp]; [right|now left].
  unfold zlen. split; [lia|]. rewrite Nat2Z.id, nth_error_app2, Nat.sub_diag by lia. reflexivity.
Qed.

Lemma only_release k0 p : only k0 (release p).
Proof.
  apply only_same. intros s. unfold release. destruct (existsb (Z.eqb p) (m_live s)); (split; [reflexivity|]); cbn [snd m_live];
    [|apply incl_refl]. intros x Hx. exact (proj1 (in_remove Z.eq_dec _ _ _ Hx)).
Qed.

Lemma only_release_all k0 l : only k0 (release_all l).
Proof. induction l as [|p l IH]; cbn [release_all]; [apply only_ret|]. apply only_bind; [apply only_release|]. intros _. exact IH. Qed.


Lemma granted_later k s s' q l : m_requests s' = m_requests s ++ q -> granted_as s k l -> granted_as s' k l.
Proof.
  intros H K p Hp. destruct (K p Hp) as [H0 H1]. split; [exact H0|]. rewrite H, nth_error_app1; [exact H1|].
  apply nth_error_Some. rewrite H1. discriminate.
Qed.

Lemma section_later s s' q leak : m_requests s' = m_requests s ++ q -> at_most_a_section s leak -> at_most_a_section s' leak.
Proof.
  intros H [->|(x & -> & H1 & H2 & H3)]; [now left|right]. exists x. split; [reflexivity|]. split; [exact H1|].
  split; [exact (granted_later _ _ _ _ _ H H2)|exact (granted_later _ _ _ _ _ H H3)].
Qed.
Lemma start_later s s' q l leak : m_requests s' = m_requests s ++ q -> start_of_a_section s l leak -> start_of_a_section s' l leak.
Proof.
  intros H [->|(x & sec & rest & -> & H1 & H2 & H3 & H4 & H5)]; [now left|right]. exists x, sec, rest. split; [reflexivity|].
  split; [exact H1|]. split; [exact H2|]. split; [exact H3|].
  split; [exact (granted_later _ _ _ _ _ H H4)|exact (granted_later _ _ _ _ _ H H5)].
Qed.
Lemma section_none s : at_most_a_section s [].
Proof. now left. Qed.

(** The blocks that a call adds are of its kind. *)
Lemma only_moved k {A} (m : mm A) s r s' q l : only k m -> m s = (r, s') -> moved s q [] l s' -> granted_as s' k l.
Proof.
  intros O E (F & _ & M) p Hp. destruct (O s) as (_ & _ & H). rewrite E in H. cbn [snd] in H.
  specialize (M p). destruct (F p) as [F1 _]. cbn in M.
  assert (A0 : (0 < cnt l p)%nat) by (apply (proj1 (count_occ_In Z.eq_dec l p)); exact Hp).
  destruct (H p) as [B|B]; [apply (proj2 (count_occ_In Z.eq_dec (m_live s') p)); change (0 < cnt (m_live s') p)%nat; lia| |exact B].
  exfalso. assert ((0 < cnt (m_live s) p)%nat) by (apply (proj1 (count_occ_In Z.eq_dec (m_live s) p)); exact B). lia.
Qed.

Ltac only_step :=
  first [ apply only_ret | apply only_lift | apply only_io | apply only_grant | apply only_alloc | apply only_release | apply only_release_all
        | apply only_bind; [|intros ?]
        | match goal with |- only _ (match ?x with _ => _ end) => destruct x end
        | match goal with |- only _ (let _ := _ in _) => cbv zeta end ].

Lemma only_with_array mem k : only k (with_array mem k).
Proof. unfold with_array. repeat only_step. Qed.

(** * Values *)
Section Read.
Variables (mem : memory) (lib : fvlib) (rd : reader) (v : volume) (d : dirent) (cp : Z).
Hypothesis HV : volume_ok v.
Hypothesis HD : dirent_ok d.
Hypothesis HB : io_bytes rd.

Lemma u32_read e l p : 0 <= p -> p + 4 <= zlen l -> Forall is_byte l ->
  exists x, get_u32 e l p = Ok x /\ 0 <= x < 4294967296.
Proof.
  intros H1 H2 HF. eexists. split; [now apply get_u32_number|].
  pose proof (number_in_range e (slice l p 4) (Forall_slice _ _ _ _ HF)) as Hr.
  rewrite zlen_slice in Hr by lia. exact Hr.
Qed.

Lemma call_pread {A B} (blocks : A -> list Z) (view : A -> B) good h c n (k : list Z * Z -> mm (option A)) k' :
  0 <= n <= 1073741824 ->
  (forall l c', zlen l = n -> Forall is_byte l -> mcall h (k (l, c')) (k' (l, c')) blocks view good) ->
  mcall h (dm r <- mio (pread rd v d c n); match r with None => dm _ <- release_all h; mret None | Some a => k a end)
    (dio x <- pread rd v d c n; k' x) blocks view good.
Proof.
  intros Hn K. apply call_io; [intros t; now apply pread_defined|]. intros [l c'] t t' H.
  destruct (pread_len _ _ _ _ _ _ _ _ _ HB H) as (H1 & H2). now apply K.
Qed.

Lemma call_pread0 {A B} (blocks : A -> list Z) (view : A -> B) good c n (k : list Z * Z -> mm (option A)) k' :
  0 <= n <= 1073741824 ->
  (forall l c', zlen l = n -> Forall is_byte l -> mcall [] (k (l, c')) (k' (l, c')) blocks view good) ->
  mcall [] (dm r <- mio (pread rd v d c n); match r with None => mret None | Some a => k a end)
    (dio x <- pread rd v d c n; k' x) blocks view good.
Proof. exact (call_pread blocks view good [] c n k k'). Qed.

Lemma multi_mm k : forall e c off,
  mcall [] (mp_multi_loop mem rd v d k e c off) (multi_loop rd v d k e c off) (fun _ => []) (fun c => c) (fun _ => True).
Proof.
  induction k as [|k IH]; intros e c off; cbn [mp_multi_loop multi_loop].
  { now apply call_ret. }
  destruct (UINT32_MAX - 4 <=? off); [apply call_err|].
  apply call_pread0; [lia|]. intros b c1 L1 B1. destruct (u32_read e b 0 ltac:(lia) ltac:(lia) B1) as (size & Es & Hs).
  apply (call_lift _ _ _ _ _ size); [exact Es|].
  destruct (u32 (UINT32_MAX - size) <=? u32 (off + 4)); [apply call_err|].
  destruct ((size =? 0) || (MAX_ALLOCATION <? size)) eqn:E; [apply call_err|].
  apply orb_false_elim in E as [E2 E3]. unfold MAX_ALLOCATION in E3.
  apply call_alloc0. intros p s F O.
  pose proof (pread_defined rd v d HV HD c1 size (m_trace s) ltac:(lia)) as D.
  destruct (pread rd v d c1 size (m_trace s)) as [r t] eqn:E. cbn [fst] in D.
  destruct (mio_spec _ s r t F E D) as (o & s1 & X1 & T1 & M1 & H1). rewrite (mbind_ok _ _ _ _ _ X1).
  destruct (release_spec p s1 (proj1 M1)) as (s2 & X2 & T2 & M2); [own|]. rewrite (mbind_ok _ _ _ _ _ X2).
  unfold ibind. rewrite E. destruct o as [[l c2]|]; subst r.
  - destruct (IH e c2 (u32 (u32 (off + 4) + size)) s2 (proj1 M2)) as (r & s3 & q & X3 & P); [intros x; cbn; lia|].
    exists r, s3, q. split; [exact X3|]. rewrite T2, T1 in P. destruct r as [y|]; destruct P as [M3 P]; (split; [weigh|exact P]).
  - exists None, s2, []. split; [reflexivity|]. split; [weigh|]. right. congruence.
Qed.

Lemma grant_case {A} (k : bool -> mm A) s : fit s ->
  exists b s', mbind (grant mem RProperties) k s = k b s' /\ m_trace s' = m_trace s /\ moved s [(RProperties, b)] [] [] s'.
Proof. intros F. destruct (grant_spec mem RProperties s F) as (b & s' & X & T & M). exists b, s'. rewrite (mbind_ok _ _ _ _ _ X). auto. Qed.

Definition value_good (x : fvalue * list Z) : Prop :=
  length (snd x) = match fv_data (fst x) with None => 1%nat | Some _ => 2%nat end.

Lemma store_mm k enc buf data size :
  size <= zlen data -> match buf with None => size <= 0 | Some _ => 0 < size end ->
  mcall (opt_list buf) (mp_store mem lib k enc buf data size) (ilift (store lib k enc data size)) snd fst value_good.
Proof.
  intros Hd Hz. unfold mp_store, store. destruct (lib_new lib k); cbn [negb]; [|apply call_fail].
  apply call_alloc. intros p. destruct (0 <? size) eqn:Es.
  - rewrite (proj2 (Z.ltb_ge (zlen data) size)) by lia.
    intros s F O. destruct (grant_case (fun ok => if ok && lib_set lib k (slice data 0 size) enc
            then mret (Some ({| fv_kind := k; fv_data := Some (slice data 0 size, enc) |}, p :: opt_list buf))
            else dm _ <- release_all (p :: opt_list buf); mret None) s F) as (b & s1 & X1 & T1 & M1). rewrite X1.
    destruct b; cbn [andb]; [destruct (lib_set _ _ _ _)|].
    + eexists. exists s1, [(RProperties, true)]. split; [reflexivity|]. cbn [snd fst]. split; [weigh|].
      split; [apply granted_one|]. split; [unfold ilift; congruence|]. destruct buf; [reflexivity|lia].
    + destruct (release_all_spec (p :: opt_list buf) s1 (proj1 M1)) as (s2 & X2 & T2 & M2); [own|]. rewrite (mbind_ok _ _ _ _ _ X2).
      exists None, s2, [(RProperties, true)]. split; [reflexivity|]. split; [weigh|]. right. unfold ilift. congruence.
    + destruct (release_all_spec (p :: opt_list buf) s1 (proj1 M1)) as (s2 & X2 & T2 & M2); [own|]. rewrite (mbind_ok _ _ _ _ _ X2).
      exists None, s2, [(RProperties, false)]. split; [reflexivity|]. split; [weigh|]. left. apply refused_one.
  - apply Z.ltb_ge in Es. destruct buf; [lia|]. change (ilift (Ok ?a)) with (iret a). now apply call_ret.
Qed.

Lemma ascii_size_pos l : 0 < zlen l -> 0 < ascii_size l.
Proof. destruct l as [|b l]; [cbn; lia|]. intros _. cbn [ascii_size]. pose proof (ascii_cut l) as H. destruct (b =? 0); lia. Qed.

Lemma utf16_size_pos l n : 0 < zlen l -> utf16_size l = Ok n -> 0 < n.
Proof.
  destruct l as [|b [|b1 l]]; cbn [utf16_size].
  - cbn. lia.
  - intros _. destruct (b =? 0); intros H; [discriminate|]. apply Ok_inj in H. lia.
  - intros _. destruct ((b =? 0) && (b1 =? 0)); [intros H; apply Ok_inj in H; lia|].
    destruct (utf16_size l) as [m| | |] eqn:E; try discriminate. cbn [rbind]. intros H. apply Ok_inj in H.
    enough (0 <= m) by lia. clear H. revert m E. clear.
    assert (H : forall k l m, (length l <= k)%nat -> utf16_size l = Ok m -> 0 <= m).
    { induction k as [|k IH]; intros l0 m Hl; destruct l0 as [|b [|b1 l0]]; cbn [utf16_size length] in *; try lia.
      - intros H. apply Ok_inj in H. lia.
      - intros H. apply Ok_inj in H. lia.
      - destruct (b =? 0); intros H; [discriminate|]. apply Ok_inj in H. lia.
      - destruct ((b =? 0) && (b1 =? 0)); [intros H; apply Ok_inj in H; lia|].
        destruct (utf16_size l0) as [x| | |] eqn:E; try discriminate. cbn [rbind]. intros H. apply Ok_inj in H.
        specialize (IH l0 x ltac:(lia) E). lia. }
    intros m. apply (H (length l) l m). lia.
Qed.

Lemma value_mm t k enc c size : 0 <= size < 4294967296 ->
  mcall [] (mp_read_value mem lib rd v d t k enc c size) (read_value lib rd v d t k enc c size)
    (fun x => snd (fst x)) (fun x => (Some (fst (fst x)), snd x)) (fun x => value_good (fst x)).
Proof.
  intros Hs. unfold mp_read_value, read_value. destruct (0 <? size) eqn:E0.
  - set (m := if t =? 31 then u32 (size * 2) else size).
    assert (Hm : 0 <= m) by (unfold m; destruct (t =? 31); [pose proof (u32_range (size * 2))|]; lia).
    destruct ((m =? 0) || (MAX_ALLOCATION <? m)) eqn:E; [apply call_err|].
    apply orb_false_elim in E as [E2 E3]. unfold MAX_ALLOCATION in E3.
    apply call_alloc0. intros p.
    assert (Hx : forall l, zlen l = m -> exists n, (if t =? 30 then Ok (ascii_size l)
       else if t =? 31 then utf16_size l else Ok m) = Ok n /\ 0 < n <= zlen l).
    { intros l Hl. destruct (t =? 30).
      - exists (ascii_size l). split; [reflexivity|]. split; [apply ascii_size_pos; lia|apply ascii_cut].
      - destruct (t =? 31) eqn:Et.
        + destruct (utf16_even l) as (n & Hn & Hr).
          * rewrite Hl. unfold m. apply even_u32.
          * exists n. split; auto. split; [|lia]. apply (utf16_size_pos l); [lia|exact Hn].
        + exists m. split; [reflexivity|lia]. }
    assert (K : mcall [p] (dm r <- mio (pread rd v d c m);
          match r with
          | None => dm _ <- release_all [p]; mret None
          | Some a => let '(data, c) := a in
              dm size <- mlift (if t =? 0x1e then Ok (ascii_size data) else if t =? 0x1f then utf16_size data else Ok m);
              dm r <- mp_store mem lib k enc (Some p) data size;
              match r with
              | None => mret None
              | Some (w, blocks) => mret (Some (w, blocks, c))
              end
          end)
         (dio (data, c) <- pread rd v d c m;
          dio size <- ilift (if t =? 0x1e then Ok (ascii_size data) else if t =? 0x1f then utf16_size data else Ok m);
          dio f <- ilift (store lib k enc data size);
          iret (Some f, c)) (fun x => snd (fst x)) (fun x => (Some (fst (fst x)), snd x)) (fun x => value_good (fst x))).
    { apply call_pread; [lia|]. intros l c1 L1 B1. destruct (Hx l L1) as (n & Hn & Hr).
      apply (call_lift _ _ _ _ _ n); [exact Hn|].
      apply (call_bind0 _ _ _ snd fst value_good); [apply (store_mm k enc (Some p) l n); lia|].
      intros [w bl] Hg. now apply call_ret. }
    intros s F O. destruct (K s F O) as (r & s' & q & X & P). exists r, s', q. split; [|exact P]. rewrite <- X.
    unfold mbind. destruct (mio (pread rd v d c m) s) as [[[[data c1]|]| | |] s1]; try reflexivity.
    cbn [release_all]. unfold mbind. destruct (release p s1) as [[[]| | |] s2]; reflexivity.
  - apply (call_bind0 _ _ _ snd fst value_good).
    + apply (store_mm k enc None []); cbn; lia.
    + intros [w bl] Hg. now apply call_ret.
Qed.

Lemma ibind_assoc {A B C} (x : io A) (f : A -> io B) (g : B -> io C) t :
  ibind x (fun a => ibind (f a) g) t = ibind (ibind x f) g t.
Proof. unfold ibind. destruct (x t) as [[a| | |] t']; reflexivity. Qed.

Definition data_good (x : Z * option fvalue * list Z * Z) : Prop :=
  length (snd (fst x)) = data_blocks {| pv_id := 0; pv_type := 0; pv_value := snd (fst (fst x)) |}.

Lemma data_mm e c off :
  mcall [] (mp_read_data mem lib rd v d cp e c off) (read_data lib rd v d cp e c off)
    (fun x => snd (fst x)) (fun x => (fst (fst x), snd x)) data_good.
Proof.
  unfold mp_read_data, read_data. destruct (UINT32_MAX - 4 <=? off); [apply call_err|].
  eapply call_ext; [intros t; apply ibind_assoc|].
  apply call_io0.
  { intros t. apply ibind_defined; [apply pseek_defined|]. intros c0 t0 _. apply pread_defined; auto. lia. }
  intros [b c1] t t' E.
  assert (HL : zlen b = 4 /\ Forall is_byte b).
  { unfold ibind in E. destruct (pseek d c off t) as [[c0| | |] t0]; try discriminate. exact (pread_len _ _ _ _ _ _ _ _ _ HB E). }
  destruct HL as [L1 B1]. destruct (u32_read e b 0 ltac:(lia) ltac:(lia) B1) as (ty & Ety & Hty).
  apply (call_lift _ _ _ _ _ ty); [exact Ety|].
  assert (Kv : forall k enc c size, 0 <= size < 4294967296 ->
     mcall [] (dm r <- mp_read_value mem lib rd v d ty k enc c size;
          match r with
          | None => mret None
          | Some (w, blocks, c) => mret (Some (ty, Some w, blocks, c))
          end) (dio (f, c) <- read_value lib rd v d ty k enc c size; iret (ty, f, c))
       (fun x => snd (fst x)) (fun x => (fst (fst x), snd x)) data_good).
  { intros k enc c2 size Hs. apply (call_bind0 _ _ _ (fun x => snd (fst x)) (fun x => (Some (fst (fst x)), snd x)) (fun x => value_good (fst x))).
    - now apply value_mm.
    - intros [[w bl] c3] Hg. now apply call_ret. }
  cbv zeta.
  destruct (shape_of cp e ty) as [k n|k enc| |] eqn:Ek.
  - apply shape_fixed_size in Ek. apply Kv. lia.
  - apply call_pread0; [lia|]. intros b2 c2 L2 B2. destruct (u32_read e b2 0 ltac:(lia) ltac:(lia) B2) as (size & Es & Hs).
    apply (call_lift _ _ _ _ _ size); [exact Es|]. now apply Kv.
  - destruct (UINT32_MAX - 4 <=? u32 (off + 4)); [apply call_err|].
    apply call_pread0; [lia|]. intros b2 c2 L2 B2. destruct (u32_read e b2 0 ltac:(lia) ltac:(lia) B2) as (n & En & Hn).
    apply (call_lift _ _ _ _ _ n); [exact En|].
    apply (call_bind0 _ _ _ (fun _ => []) (fun c => c) (fun _ => True)); [apply multi_mm|]. intros c3 _. now apply call_ret.
  - now apply call_ret.
Qed.

(** * Sections *)
Definition values_blocks (l : list mvalue) : list Z := flat_map mv_blocks l.
Definition values_good (l : list mvalue) : Prop :=
  forall y, In y l -> length (mv_data y) = data_blocks (mv_property y).
Definition values_plain (l : list mvalue) : list property := map mv_property l.

Lemma properties_extend n e base : forall c pos acc t l c' t',
  properties_loop lib rd v d cp n e base c pos acc t = (Ok (l, c'), t') -> exists rest, l = acc ++ rest.
Proof.
  induction n as [|n IH]; intros c pos acc t l c' t' H; cbn [properties_loop] in H.
  { injection H as <- _ _. exists []. now rewrite app_nil_r. }
  unfold ibind in H. destruct (pseek d c pos t) as [[c1| | |] t1]; try discriminate.
  destruct (read_list_entry rd v d e c1 t1) as [[[[id rel] c2]| | |] t2]; try discriminate.
  destruct (rel <=? 8); [discriminate|]. unfold ilift in H. destruct (stream_get_offset d c2) as [p| | |]; try discriminate.
  destruct (read_data lib rd v d cp e c2 (u32 (base + rel)) t2) as [[[[ty w] c3]| | |] t3]; try discriminate.
  apply IH in H as (rest & ->). rewrite <- app_assoc. eexists. reflexivity.
Qed.

Lemma sections_extend n e : forall c pos acc t l c' t',
  sections_loop lib rd v d cp n e c pos acc t = (Ok (l, c'), t') -> exists rest, l = acc ++ rest.
Proof.
  induction n as [|n IH]; intros c pos acc t l c' t' H; cbn [sections_loop] in H.
  { injection H as <- _ _. exists []. now rewrite app_nil_r. }
  unfold ibind in H. destruct (pseek d c pos t) as [[c1| | |] t1]; try discriminate.
  destruct (section_list_entry rd v d e c1 t1) as [[[[class base] c2]| | |] t2]; try discriminate.
  unfold ilift in H. destruct (stream_get_offset d c2) as [p| | |]; try discriminate.
  destruct (section_read lib rd v d cp e c2 base t2) as [[[props c3]| | |] t3]; try discriminate.
  apply IH in H as (rest & ->). rewrite <- app_assoc. eexists. reflexivity.
Qed.

(** What is kept of a loop that can be read to its end is the start of it. *)
Lemma properties_start n e base : forall c pos acc s ok l c' s', fit s ->
  mp_properties_loop mem lib rd v d cp n e base c pos acc s = (Ok (ok, l, c'), s') ->
  forall all c2 t2, properties_loop lib rd v d cp n e base c pos (map mv_property acc) (m_trace s) = (Ok (all, c2), t2) ->
  exists rest, all = map mv_property l ++ rest.
Proof.
  induction n as [|n IH]; intros c pos acc s ok l c' s' F X all c2 t2 P.
  { cbn [mp_properties_loop properties_loop] in *. injection X as _ <- _ _. injection P as <- _ _. exists []. now rewrite app_nil_r. }
  assert (Z0 : l = acc -> exists rest, all = map mv_property l ++ rest).
  { intros ->. exact (properties_extend _ _ _ _ _ _ _ _ _ _ P). }
  assert (FAIL : forall bl c0 s0, mbind (release_all bl) (fun _ => mret (false, acc, c0)) s0 = (Ok (ok, l, c'), s') -> l = acc).
  { intros bl c0 s0 H. unfold mbind in H. destruct (release_all bl s0) as [[[]| | |] s9]; try discriminate. now injection H as _ <- _ _. }
  cbn [mp_properties_loop] in X. cbn [properties_loop] in P. unfold ibind in P.
  pose proof (pseek_defined d c pos (m_trace s)) as D. destruct (pseek d c pos (m_trace s)) as [r t] eqn:E1. cbn [fst] in D.
  destruct (mio_spec _ s r t F E1 D) as (o & s1 & X1 & T1 & M1 & H1). rewrite (mbind_ok _ _ _ _ _ X1) in X.
  destruct o as [c1|]; subst r; [|exact (Z0 (FAIL _ _ _ X))].
  destruct (alloc_spec mem RProperties s1 (proj1 M1)) as (r & s2 & X2 & T2 & M2). rewrite (mbind_ok _ _ _ _ _ X2) in X.
  destruct r as [x|]; [|exact (Z0 (FAIL _ _ _ X))].
  destruct (read_list_entry rd v d e c1 t) as [[[[id rel] c3]| | |] t3] eqn:E3; try discriminate.
  destruct (rel <=? 8) eqn:E4; [discriminate|]. unfold ilift in P. destruct (stream_get_offset d c3) as [pos2| | |] eqn:E5; try discriminate.
  unfold mbind at 1 in X. unfold mio at 1 in X. rewrite T2, T1 in X. unfold ibind at 1 in X. rewrite E3, E4 in X.
  unfold ibind, ilift in X. rewrite E5 in X. unfold iret in X. cbv beta iota zeta in X.
  match type of X with mbind _ _ ?z = _ => set (s3 := z) in X end.
  assert (F3 : fit s3) by (exact (proj1 M2)).
  destruct (data_mm e c3 (u32 (base + rel)) s3 F3) as (r & s4 & q4 & X4 & P4); [intros z; cbn; lia|].
  rewrite (mbind_ok _ _ _ _ _ X4) in X. destruct r as [[[[ty w] bl] c4]|]; [|exact (Z0 (FAIL _ _ _ X))].
  cbn [fst snd] in P4. destruct P4 as (M4 & G4 & E6 & V4). change (m_trace s3) with t3 in E6. rewrite E6 in P.
  destruct (grant_spec mem RProperties s4 (proj1 M4)) as (b & s5 & X5 & T5 & M5). rewrite (mbind_ok _ _ _ _ _ X5) in X.
  destruct b; [|exact (Z0 (FAIL _ _ _ X))].
  rewrite <- T5 in P. refine (IH _ _ _ _ _ _ _ _ (proj1 M5) X _ _ _ _). rewrite map_app. exact P.
Qed.

Lemma section_start e c base s ok l c' s' : fit s -> mp_section_read mem lib rd v d cp e c base s = (Ok (ok, l, c'), s') ->
  forall all c2 t2, section_read lib rd v d cp e c base (m_trace s) = (Ok (all, c2), t2) -> exists rest, all = map mv_property l ++ rest.
Proof.
  intros F X all c2 t2 P. unfold section_read, ibind, ilift in P. unfold mp_section_read, mbind at 1, mio, ibind, ilift in X.
  destruct (pseek d c base (m_trace s)) as [[c1| | |] t1]; try discriminate.
  destruct (pread rd v d c1 8 t1) as [[[b c3]| | |] t3]; try discriminate.
  destruct (get_u32 e b 0) as [size| | |]; try discriminate. destruct (get_u32 e b 4) as [n| | |]; try discriminate.
  unfold iret in X. cbv beta iota zeta in X.
  match type of X with mp_properties_loop _ _ _ _ _ _ _ _ _ _ _ _ ?z = _ => refine (properties_start _ _ _ _ _ [] z _ _ _ _ F X _ c2 t2 P) end.
Qed.

(** What is kept was read, also if the loop cannot be read to its end. *)
Lemma properties_read n e base : forall c pos acc s ok l c' s', fit s ->
  mp_properties_loop mem lib rd v d cp n e base c pos acc s = (Ok (ok, l, c'), s') ->
  exists m c2 t2, properties_loop lib rd v d cp m e base c pos (map mv_property acc) (m_trace s) = (Ok (map mv_property l, c2), t2).
Proof.
  induction n as [|n IH]; intros c pos acc s ok l c' s' F X.
  { cbn [mp_properties_loop] in X. injection X as _ <- _ _. exists 0%nat, c, (m_trace s). reflexivity. }
  assert (Z0 : l = acc -> exists m c2 t2, properties_loop lib rd v d cp m e base c pos (map mv_property acc) (m_trace s) = (Ok (map mv_property l, c2), t2)).
  { intros ->. exists 0%nat, c, (m_trace s). reflexivity. }
  assert (FAIL : forall bl c0 s0, mbind (release_all bl) (fun _ => mret (false, acc, c0)) s0 = (Ok (ok, l, c'), s') -> l = acc).
  { intros bl c0 s0 H. unfold mbind in H. destruct (release_all bl s0) as [[[]| | |] s9]; try discriminate. now injection H as _ <- _ _. }
  assert (FAIL0 : forall c0 s0, mret (false, acc, c0) s0 = (Ok (ok, l, c'), s') -> l = acc).
  { intros c0 s0 H. now injection H as _ <- _ _. }
  cbn [mp_properties_loop] in X.
  pose proof (pseek_defined d c pos (m_trace s)) as D. destruct (pseek d c pos (m_trace s)) as [r t] eqn:E1. cbn [fst] in D.
  destruct (mio_spec _ s r t F E1 D) as (o & s1 & X1 & T1 & M1 & H1). rewrite (mbind_ok _ _ _ _ _ X1) in X.
  destruct o as [c1|]; subst r; [|first [exact (Z0 (FAIL _ _ _ X))|exact (Z0 (FAIL0 _ _ X))]].
  destruct (alloc_spec mem RProperties s1 (proj1 M1)) as (r & s2 & X2 & T2 & M2). rewrite (mbind_ok _ _ _ _ _ X2) in X.
  destruct r as [x|]; [|first [exact (Z0 (FAIL _ _ _ X))|exact (Z0 (FAIL0 _ _ X))]].
  unfold mbind at 1 in X. unfold mio at 1 in X. rewrite T2, T1 in X. unfold ibind at 1 in X.
  destruct (read_list_entry rd v d e c1 t) as [[[[id rel] c3]| | |] t3] eqn:E3; try discriminate X; try (cbv beta iota zeta in X; exact (Z0 (FAIL _ _ _ X))).
  destruct (rel <=? 8) eqn:E4; [cbv beta iota zeta in X; exact (Z0 (FAIL _ _ _ X))|].
  unfold ibind, ilift in X. destruct (stream_get_offset d c3) as [pos2| | |] eqn:E5; try discriminate X; try (cbv beta iota zeta in X; exact (Z0 (FAIL _ _ _ X))).
  unfold iret in X. cbv beta iota zeta in X.
  match type of X with mbind _ _ ?z = _ => set (s3 := z) in X end.
  assert (F3 : fit s3) by (exact (proj1 M2)).
  destruct (data_mm e c3 (u32 (base + rel)) s3 F3) as (r & s4 & q4 & X4 & P4); [intros z; cbn; lia|].
  rewrite (mbind_ok _ _ _ _ _ X4) in X. destruct r as [[[[ty w] bl] c4]|]; [|exact (Z0 (FAIL _ _ _ X))].
  cbn [fst snd] in P4. destruct P4 as (M4 & G4 & E6 & V4). change (m_trace s3) with t3 in E6.
  destruct (grant_spec mem RProperties s4 (proj1 M4)) as (b & s5 & X5 & T5 & M5). rewrite (mbind_ok _ _ _ _ _ X5) in X.
  destruct b; [|exact (Z0 (FAIL _ _ _ X))].
  destruct (IH _ _ _ _ _ _ _ _ (proj1 M5) X) as (m & c2 & t2 & P). exists (S m), c2, t2. cbn [properties_loop].
  unfold ibind, ilift. rewrite E1, E3, E4, E5, E6, <- T5. rewrite map_app in P. exact P.
Qed.

Definition read_from (l : list property) : Prop :=
  l = [] \/ exists m e base c t c2 t2, 0 <= base /\ properties_loop lib rd v d cp m e base c (base + 8) [] t = (Ok (l, c2), t2).

Lemma section_values e c base s ok l c' s' : fit s -> mp_section_read mem lib rd v d cp e c base s = (Ok (ok, l, c'), s') ->
  read_from (map mv_property l).
Proof.
  intros F X. unfold mp_section_read, mbind at 1, mio, ibind, ilift in X.
  destruct (pseek d c base (m_trace s)) as [[c1| | |] t1] eqn:E1; try discriminate; [|injection X as _ <- _ _; now left].
  assert (Hb : 0 <= base).
  { unfold pseek, ilift, stream_seek_offset in E1. destruct (negb (de_type d =? TYPE_STREAM)); [discriminate|].
    destruct (c <? 0); [discriminate|]. simpl in E1. destruct (Z.ltb_spec base 0); [discriminate|lia]. }
  destruct (pread rd v d c1 8 t1) as [[[b c3]| | |] t3]; try discriminate; [|injection X as _ <- _ _; now left].
  destruct (get_u32 e b 0) as [size| | |]; try discriminate; [|injection X as _ <- _ _; now left].
  destruct (get_u32 e b 4) as [n| | |]; try discriminate; [|injection X as _ <- _ _; now left].
  unfold iret in X. cbv beta iota zeta in X. right.
  match type of X with mp_properties_loop _ _ _ _ _ _ _ _ _ _ _ _ ?z = _ => destruct (properties_read _ _ _ _ _ [] z _ _ _ _ F X) as (m & k2 & u2 & P) end.
  exists m, e, base. do 4 eexists. split; [exact Hb|exact P].
Qed.

Definition kept (s : mst) (leak : list Z) : Prop :=
  leak = [] \/
  exists x, leak = ms_blocks x /\
    (forall y, In y (ms_values x) -> length (mv_data y) = data_blocks (mv_property y)) /\
    granted_as s RSection [ms_array x; ms_struct x] /\ granted_as s RProperties (flat_map mv_blocks (ms_values x)) /\
    read_from (map mv_property (ms_values x)).

Lemma kept_section s leak : kept s leak -> at_most_a_section s leak.
Proof. intros [->|(x & -> & H1 & H2 & H3 & _)]; [now left|right]. exists x. auto. Qed.
Lemma kept_later s s' q leak : m_requests s' = m_requests s ++ q -> kept s leak -> kept s' leak.
Proof.
  intros H [->|(x & -> & H1 & H2 & H3 & H4)]; [now left|right]. exists x. split; [reflexivity|]. split; [exact H1|].
  split; [exact (granted_later _ _ _ _ _ H H2)|]. split; [exact (granted_later _ _ _ _ _ H H3)|exact H4].
Qed.

Lemma properties_mm n e base : forall c pos acc s, fit s ->
  exists ok new c' s' q, mp_properties_loop mem lib rd v d cp n e base c pos acc s = (Ok (ok, acc ++ new, c'), s') /\
    moved s q [] (values_blocks new) s' /\ values_good new /\
    (if ok then granted q /\ properties_loop lib rd v d cp n e base c pos (values_plain acc) (m_trace s) =
                               (Ok (values_plain (acc ++ new), c'), m_trace s')
     else refused q \/ properties_loop lib rd v d cp n e base c pos (values_plain acc) (m_trace s) = (Err, m_trace s')).
Proof.
  induction n as [|n IH]; intros c pos acc s F; cbn [mp_properties_loop].
  { exists true, [], c, s, []. rewrite app_nil_r. split; [reflexivity|]. split; [now apply moved_refl|]. split; [intros ? []|]. split; [apply granted_nil|reflexivity]. }
  pose proof (pseek_defined d c pos (m_trace s)) as D. destruct (pseek d c pos (m_trace s)) as [r t] eqn:E1. cbn [fst] in D.
  destruct (mio_spec _ s r t F E1 D) as (o & s1 & X1 & T1 & M1 & H1). rewrite (mbind_ok _ _ _ _ _ X1).
  remember (properties_loop lib rd v d cp (S n) e base c pos (values_plain acc) (m_trace s)) as g eqn:HG.
  cbn [properties_loop] in HG. unfold ibind at 1 in HG. rewrite E1 in HG.
  destruct o as [c1|]; subst r.
  2: { exists false, [], c, s1, []. rewrite app_nil_r. split; [reflexivity|]. split; [exact M1|]. split; [intros ? []|]. right. congruence. }
  destruct (alloc_spec mem RProperties s1 (proj1 M1)) as (r & s2 & X2 & T2 & M2). rewrite (mbind_ok _ _ _ _ _ X2). destruct r as [x|].
  2: { exists false, [], c, s2, [(RProperties, false)]. rewrite app_nil_r. split; [reflexivity|]. split; [cbn [values_blocks flat_map]; weigh|].
       split; [intros ? []|]. left. apply refused_one. }
  set (head := dio (id, rel, c) <- read_list_entry rd v d e c1;
       if rel <=? 8 then ierr else dio pos <- ilift (stream_get_offset d c); iret (id, rel, pos, c)).
  assert (Hhead : forall t acc, (dio (id, rel, c) <- read_list_entry rd v d e c1;
       if rel <=? 8 then ierr else
         dio pos <- ilift (stream_get_offset d c);
         dio (t, f, c) <- read_data lib rd v d cp e c (u32 (base + rel));
         properties_loop lib rd v d cp n e base c pos (acc ++ [{| pv_id := id; pv_type := t; pv_value := f |}])) t =
     (dio (id, rel, pos, c) <- head;
         dio (t, f, c) <- read_data lib rd v d cp e c (u32 (base + rel));
         properties_loop lib rd v d cp n e base c pos (acc ++ [{| pv_id := id; pv_type := t; pv_value := f |}])) t).
  { intros t0 acc0. unfold head. unfold ibind. destruct (read_list_entry rd v d e c1 t0) as [[[[id rel] c2]| | |] t2]; try reflexivity.
    destruct (rel <=? 8); [reflexivity|]. unfold ilift. destruct (stream_get_offset d c2) as [p| | |]; reflexivity. }
  assert (Dh : forall t, defined (fst (head t))).
  { intros t0. unfold head. apply ibind_defined.
    { unfold read_list_entry. apply (bind_pread rd v d HV HD HB); [lia|]. intros l c2 t1 Hl HF.
      apply bind_u32; [lia|lia|exact HF|]. intros id Hid. apply bind_u32; [lia|lia|exact HF|]. intros rel Hrel. exact I. }
    intros [[id rel] c2] t1 _. destruct (rel <=? 8); [exact I|].
    apply ilift_defined; [apply tell_defined|]. intros pos' _. exact I. }
  specialize (Dh (m_trace s2)). rewrite T2, T1 in Dh. destruct (head t) as [r t3] eqn:E3. cbn [fst] in Dh.
  assert (E3' : head (m_trace s2) = (r, t3)) by (rewrite T2, T1; exact E3).
  destruct (mio_spec head s2 r t3 (proj1 M2) E3' Dh) as (o & s3 & X3 & T3 & M3 & H3). rewrite (mbind_ok _ _ _ _ _ X3).
  assert (FailX : forall s4 q, moved s q [] [x] s4 -> 
     exists s5, mbind (release_all [x]) (fun _ => mret (false, acc, c)) s4 = (Ok (false, acc ++ [], c), s5) /\ m_trace s5 = m_trace s4 /\
       moved s q [] (values_blocks []) s5).
  { intros s4 q M4. destruct (release_all_spec [x] s4 (proj1 M4)) as (s5 & X5 & T5 & M5); [own|]. rewrite (mbind_ok _ _ _ _ _ X5).
    rewrite app_nil_r. exists s5. split; [reflexivity|]. split; [exact T5|]. cbn [values_blocks flat_map]. weigh. }
  cbv beta iota in HG. try rewrite Hhead in HG. unfold ibind at 1 in HG. 
  destruct o as [[[[id rel] pos2] c2]|]; subst r; try rewrite E3 in HG.
  2: { destruct (FailX s3 [(RProperties, true)]) as (s4 & X4 & T4 & M4); [weigh|].
       exists false, [], c, s4, [(RProperties, true)]. split; [exact X4|]. split; [exact M4|]. split; [intros ? []|]. right. congruence. }
  destruct (data_mm e c2 (u32 (base + rel)) s3 (proj1 M3)) as (r & s4 & q4 & X4 & P4); [intros y; cbn; lia|].
  rewrite (mbind_ok _ _ _ _ _ X4). rewrite T3 in P4. destruct r as [[[[ty w] bl] c3]|].
  2: { destruct P4 as [M4 P4]. destruct (FailX s4 ((RProperties, true) :: q4)) as (s5 & X5 & T5 & M5); [weigh|].
       exists false, [], c, s5, ((RProperties, true) :: q4). split; [exact X5|]. split; [exact M5|]. split; [intros ? []|].
       destruct P4 as [P4|P4]; [left; now apply refused_two|right]. unfold ibind in HG. rewrite P4 in HG. congruence. }
  cbn [fst snd] in P4. destruct P4 as (M4 & G4 & E4 & V4). unfold ibind in HG. rewrite E4 in HG.
  destruct (grant_spec mem RProperties s4 (proj1 M4)) as (b & s5 & X5 & T5 & M5). rewrite (mbind_ok _ _ _ _ _ X5). destruct b.
  - set (y := {| mv_struct := x; mv_data := bl; mv_property := {| pv_id := id; pv_type := ty; pv_value := w |} |}).
    destruct (IH c3 pos2 (acc ++ [y]) s5 (proj1 M5)) as (ok & new & c' & s' & q & X6 & M6 & V6 & P6).
    exists ok, (y :: new), c', s', ((RProperties, true) :: q4 ++ (RProperties, true) :: q).
    rewrite <- app_assoc in X6. split; [exact X6|]. split.
    { cbn [values_blocks flat_map]. fold (values_blocks new). unfold mv_blocks. cbn [mv_data mv_struct y]. weigh. }
    split. { intros z [<-|Hz]; [exact V4|now apply V6]. }
    assert (Hp : values_plain (acc ++ [y]) = values_plain acc ++ [{| pv_id := id; pv_type := ty; pv_value := w |}]).
    { unfold values_plain. rewrite map_app. reflexivity. }
    rewrite T5, Hp, <- HG, <- app_assoc in P6. cbn [app] in P6. destruct ok.
    + destruct P6 as [G6 E6]. split; [grants|exact E6].
    + destruct P6 as [R6|E6]; [left; apply refused_two, refused_r, refused_two, R6|right; exact E6].
  - destruct (release_all_spec (bl ++ [x]) s5 (proj1 M5)) as (s6 & X6 & T6 & M6); [own|]. rewrite (mbind_ok _ _ _ _ _ X6).
    exists false, [], c, s6, ((RProperties, true) :: q4 ++ [(RProperties, false)]). rewrite app_nil_r. split; [reflexivity|].
    split; [cbn [values_blocks flat_map]; weigh|]. split; [intros ? []|]. left. apply refused_two, refused_r, refused_one.
Qed.

Lemma section_mm e c base s : fit s ->
  exists ok new c' s' q, mp_section_read mem lib rd v d cp e c base s = (Ok (ok, new, c'), s') /\
    moved s q [] (values_blocks new) s' /\ values_good new /\
    (if ok then granted q /\ section_read lib rd v d cp e c base (m_trace s) = (Ok (values_plain new, c'), m_trace s')
     else refused q \/ section_read lib rd v d cp e c base (m_trace s) = (Err, m_trace s')).
Proof.
  intros F. unfold mp_section_read.
  set (head := dio c <- pseek d c base; dio (b, c) <- pread rd v d c 8; dio size <- ilift (get_u32 e b 0);
               dio n <- ilift (get_u32 e b 4); iret (n, c)).
  assert (Hhead : forall t, section_read lib rd v d cp e c base t =
     (dio (n, c) <- head; properties_loop lib rd v d cp (Z.to_nat n) e base c (base + 8) []) t).
  { intros t. unfold section_read, head, ibind. destruct (pseek d c base t) as [[c1| | |] t1]; try reflexivity.
    destruct (pread rd v d c1 8 t1) as [[[b c2]| | |] t2]; try reflexivity. unfold ilift.
    destruct (get_u32 e b 0); try reflexivity. destruct (get_u32 e b 4); reflexivity. }
  assert (Dh : defined (fst (head (m_trace s)))).
  { unfold head. apply ibind_defined; [apply pseek_defined|]. intros c0 t0 _.
    apply (bind_pread rd v d HV HD HB); [lia|]. intros l c1 t1 Hl HF.
    apply bind_u32; [lia|lia|exact HF|]. intros sz Hsz. apply bind_u32; [lia|lia|exact HF|]. intros n Hn. exact I. }
  rewrite Hhead. unfold ibind at 1 2. destruct (head (m_trace s)) as [r t] eqn:E. cbn [fst] in Dh.
  destruct (mio_spec head s r t F E Dh) as (o & s1 & X1 & T1 & M1 & H1). rewrite (mbind_ok _ _ _ _ _ X1).
  destruct o as [[n c1]|]; subst r.
  - destruct (properties_mm (Z.to_nat n) e base c1 (base + 8) [] s1 (proj1 M1)) as (ok & new & c' & s' & q & X2 & M2 & V2 & P2).
    exists ok, new, c', s', q. split; [exact X2|]. split; [weigh|]. split; [exact V2|]. rewrite T1 in P2. exact P2.
  - exists false, [], c, s1, []. split; [reflexivity|]. split; [exact M1|]. split; [intros ? []|]. right. congruence.
Qed.

Lemma only_multi k e : forall c off, only RProperties (mp_multi_loop mem rd v d k e c off).
Proof. induction k as [|k IH]; intros c off; cbn [mp_multi_loop]; repeat (first [apply IH|only_step]). Qed.
Lemma only_store k enc buf data size : only RProperties (mp_store mem lib k enc buf data size).
Proof. unfold mp_store. repeat only_step. Qed.
Lemma only_value t k enc c size : only RProperties (mp_read_value mem lib rd v d t k enc c size).
Proof. unfold mp_read_value. repeat (first [apply only_store|only_step]). Qed.
Lemma only_data e c off : only RProperties (mp_read_data mem lib rd v d cp e c off).
Proof. unfold mp_read_data. repeat (first [apply only_value|apply only_multi|only_step]). Qed.
Lemma only_properties n e base : forall c pos acc, only RProperties (mp_properties_loop mem lib rd v d cp n e base c pos acc).
Proof. induction n as [|n IH]; intros c pos acc; cbn [mp_properties_loop]; repeat (first [apply IH|apply only_data|only_step]). Qed.
Lemma only_section e c base : only RProperties (mp_section_read mem lib rd v d cp e c base).
Proof. unfold mp_section_read. repeat (first [apply only_properties|only_step]). Qed.
Definition sections_blocks (l : list msection) : list Z := flat_map ms_blocks l.

Lemma sections_mm n e : forall c pos acc s, fit s ->
  exists ok new leak c' s' q, mp_sections_loop mem lib rd v d cp n e c pos acc s = (Ok (ok, acc ++ new, c'), s') /\
    moved s q [] (sections_blocks new ++ leak) s' /\ (kept s' leak /\
      forall all c2 t2, sections_loop lib rd v d cp n e c pos (map plain_section acc) (m_trace s) = (Ok (all, c2), t2) ->
        start_of_a_section s' all leak) /\
    (if ok then leak = [] /\ granted q /\ sections_loop lib rd v d cp n e c pos (map plain_section acc) (m_trace s) =
                               (Ok (map plain_section (acc ++ new), c'), m_trace s')
     else refused q \/ sections_loop lib rd v d cp n e c pos (map plain_section acc) (m_trace s) = (Err, m_trace s')).
Proof.
  induction n as [|n IH]; intros c pos acc s F; cbn [mp_sections_loop].
  { exists true, [], [], c, s, []. rewrite app_nil_r. split; [reflexivity|]. split; [now apply moved_refl|].
    split; [split; [now left|intros; now left]|]. split; [reflexivity|]. split; [apply granted_nil|reflexivity]. }
  remember (sections_loop lib rd v d cp (S n) e c pos (map plain_section acc) (m_trace s)) as g eqn:HG.
  cbn [sections_loop] in HG.
  destruct (with_array_spec mem RSection s F) as (r & s1 & q1 & X1 & T1 & H1). rewrite (mbind_ok _ _ _ _ _ X1). destruct r as [[x a]|].
  2: { destruct H1 as [M1 R1]. exists false, [], [], c, s1, q1. rewrite app_nil_r. split; [reflexivity|]. split; [exact M1|].
       split; [split; [now left|intros; now left]|]. now left. }
  destruct H1 as [M1 G1]. pose proof (only_moved RSection _ _ _ _ _ _ (only_with_array mem RSection) X1 M1) as K1.
  set (head := dio c <- pseek d c pos; dio (class, base, c) <- section_list_entry rd v d e c;
               dio pos <- ilift (stream_get_offset d c); iret (class, base, pos, c)).
  assert (Hhead : forall t acc, (dio c <- pseek d c pos;
      dio (class, base, c) <- section_list_entry rd v d e c;
      dio pos <- ilift (stream_get_offset d c);
      dio (props, c) <- section_read lib rd v d cp e c base;
      sections_loop lib rd v d cp n e c pos (acc ++ [{| sc_class := class; sc_properties := props |}])) t =
     (dio (class, base, pos, c) <- head;
      dio (props, c) <- section_read lib rd v d cp e c base;
      sections_loop lib rd v d cp n e c pos (acc ++ [{| sc_class := class; sc_properties := props |}])) t).
  { intros t acc0. unfold head, ibind. destruct (pseek d c pos t) as [[c1| | |] t1]; try reflexivity.
    destruct (section_list_entry rd v d e c1 t1) as [[[[class base] c2]| | |] t2]; try reflexivity. unfold ilift.
    destruct (stream_get_offset d c2); reflexivity. }
  assert (Dh : defined (fst (head (m_trace s1)))).
  { unfold head. apply ibind_defined; [apply pseek_defined|]. intros c0 t0 _. apply ibind_defined.
    { unfold section_list_entry. apply (bind_pread rd v d HV HD HB); [lia|]. intros l c1 t1 Hl HF.
      apply bind_u32; [lia|lia|exact HF|]. intros rel Hrel. exact I. }
    intros [[class base] c1] t1 _. apply ilift_defined; [apply tell_defined|]. intros pos' _. exact I. }
  rewrite Hhead in HG. unfold ibind at 1 in HG. rewrite T1 in Dh. destruct (head (m_trace s)) as [r t2] eqn:E2. cbn [fst] in Dh.
  assert (E2' : head (m_trace s1) = (r, t2)) by (rewrite T1; exact E2).
  destruct (mio_spec head s1 r t2 (proj1 M1) E2' Dh) as (o & s2 & X2 & T2 & M2 & H2). rewrite (mbind_ok _ _ _ _ _ X2).
  destruct o as [[[[class base] pos2] c2]|]; subst r.
  2: { exists false, [], [a; x], c, s2, q1. rewrite app_nil_r. split; [reflexivity|]. split; [cbn [sections_blocks flat_map app]; weigh|].
       split; [split; [right; exists {| ms_struct := x; ms_array := a; ms_class := []; ms_values := [] |}; split; [reflexivity|]; split; [intros ? []|];
         split; [exact (granted_later _ _ _ _ _ (proj1 (proj2 M2)) K1)|split; [intros ? []|now left]]|intros all k2 u2 HA; congruence]|]. right. congruence. }
  destruct (section_mm e c2 base s2 (proj1 M2)) as (ok & vals & c3 & s3 & q3 & X3 & M3 & V3 & P3). rewrite (mbind_ok _ _ _ _ _ X3).
  pose proof (only_moved RProperties _ _ _ _ _ _ (only_section e c2 base) X3 M3) as K3.
  pose proof (granted_later _ _ _ _ _ (proj1 (proj2 M3)) (granted_later _ _ _ _ _ (proj1 (proj2 M2)) K1)) as K2.
  pose proof (section_values _ _ _ _ _ _ _ _ (proj1 M2) X3) as RF.
  cbv beta iota. set (y := {| ms_struct := x; ms_array := a; ms_class := class; ms_values := vals |}).
  assert (Hy : ms_blocks y = values_blocks vals ++ [a; x]) by reflexivity.
  assert (ST : forall s9 all k2 u2, granted_as s9 RSection [a; x] -> granted_as s9 RProperties (values_blocks vals) ->
            g = (Ok (all, k2), u2) -> start_of_a_section s9 all (ms_blocks y)).
  { intros s9 all k2 u2 N1 N2 HA. rewrite HA in HG. symmetry in HG. cbv beta iota in HG. unfold ibind in HG.
    destruct (section_read lib rd v d cp e c2 base t2) as [[[props c9]| | |] t9] eqn:ES; try discriminate.
    rewrite <- T2 in ES. destruct (section_start _ _ _ _ _ _ _ _ (proj1 M2) X3 _ _ _ ES) as (rest & HR).
    destruct (sections_extend _ _ _ _ _ _ _ _ _ HG) as (more & ->).
    right. exists y, {| sc_class := class; sc_properties := props |}, rest. split; [reflexivity|].
    split; [apply in_or_app; left; apply in_or_app; right; now left|]. split; [exact HR|]. split; [exact V3|]. split; [exact N1|exact N2]. }
  rewrite T2 in P3. unfold ibind in HG. destruct ok.
  2: { exists false, [], (ms_blocks y), c, s3, (q1 ++ q3). rewrite app_nil_r. split; [reflexivity|].
       split; [rewrite Hy; cbn [sections_blocks flat_map app]; weigh|]. split; [split; [right; exists y; split; [reflexivity|]; split; [exact V3|]; split; [exact K2|split; [exact K3|exact RF]]|
         intros all k2 u2 HA; exact (ST _ _ _ _ K2 K3 HA)]|].
       destruct P3 as [R3|E3]; [left; now apply refused_r|right]. rewrite E3 in HG. congruence. }
  destruct P3 as [G3 E3]. rewrite E3 in HG.
  destruct (grant_spec mem RSet s3 (proj1 M3)) as (b & s4 & X4 & T4 & M4). rewrite (mbind_ok _ _ _ _ _ X4). destruct b.
  - destruct (IH c3 pos2 (acc ++ [y]) s4 (proj1 M4)) as (ok & new & leak & c' & s' & q & X5 & M5 & L5 & P5).
    exists ok, (y :: new), leak, c', s', (q1 ++ q3 ++ (RSet, true) :: q).
    rewrite <- app_assoc in X5. split; [exact X5|].
    split. { cbn [sections_blocks flat_map]. fold (sections_blocks new). rewrite Hy. weigh. }
    assert (Hp : map plain_section (acc ++ [y]) = map plain_section acc ++ [{| sc_class := class; sc_properties := values_plain vals |}]).
    { rewrite map_app. reflexivity. }
    split. { destruct L5 as [L5 L6]. split; [exact L5|]. rewrite T4, Hp, <- HG in L6. exact L6. }
    rewrite T4, Hp, <- HG, <- app_assoc in P5. cbn [app] in P5. destruct ok.
    + destruct P5 as (-> & G5 & E5). split; [reflexivity|]. split; [grants|exact E5].
    + destruct P5 as [R5|E5]; [left; apply refused_r, refused_r, refused_two, R5|right; exact E5].
  - exists false, [], (ms_blocks y), c, s4, (q1 ++ q3 ++ [(RSet, false)]). rewrite app_nil_r. split; [reflexivity|].
    split; [rewrite Hy; cbn [sections_blocks flat_map app]; weigh|]. pose proof (granted_later _ _ _ _ _ (proj1 (proj2 M4)) K2) as N2. pose proof (granted_later _ _ _ _ _ (proj1 (proj2 M4)) K3) as N3.
    split; [split; [right; exists y; split; [reflexivity|]; split; [exact V3|]; split; [exact N2|split; [exact N3|exact RF]]|
      intros all k2 u2 HA; exact (ST _ _ _ _ N2 N3 HA)]|].
    left. apply refused_r, refused_r, refused_one.
Qed.

Definition get_set_post (c : Z) (s : mst) (r : option (mset * Z)) (s' : mst) (q : list (kind * bool)) : Prop :=
  match r with
  | None => exists leak, moved s q [] leak s' /\ (kept s' leak /\
      forall x c' t', get_set lib rd v d cp c (m_trace s) = (Ok (x, c'), t') -> start_of_a_section s' (ps_sections x) leak) /\
      (refused q \/ get_set lib rd v d cp c (m_trace s) = (Err, m_trace s'))
  | Some (x, c') => moved s q [] (mp_blocks x) s' /\ granted q /\
      get_set lib rd v d cp c (m_trace s) = (Ok (plain_set x, c'), m_trace s')
  end.

Lemma get_set_mm c s : fit s ->
  exists r s' q, mp_get_set mem lib rd v d cp c s = (Ok r, s') /\ get_set_post c s r s' q.
Proof.
  intros F. unfold mp_get_set.
  destruct (with_array_spec mem RSet s F) as (r & s1 & q1 & X1 & T1 & H1). rewrite (mbind_ok _ _ _ _ _ X1). destruct r as [[x a]|].
  2: { destruct H1 as [M1 R1]. exists None, s1, q1. split; [reflexivity|]. exists []. split; [exact M1|]. split; [split; [now left|intros; now left]|now left]. }
  destruct H1 as [M1 G1].
  set (head := dio c <- pseek d c 0; dio (b, c) <- pread rd v d c 28; dio h <- ilift (read_header b); iret (h, c)).
  assert (HG : forall t, get_set lib rd v d cp c t = (dio (h, c) <- head;
     dio (secs, c) <- sections_loop lib rd v d cp (Z.to_nat (ps_count h)) (ps_order h) c 28 [];
     iret ({| ps_order := ps_order h; ps_format := ps_format h; ps_version := ps_version h;
           ps_class := ps_class h; ps_count := ps_count h; ps_sections := secs |}, c)) t).
  { intros t. unfold get_set, head, ibind. destruct (pseek d c 0 t) as [[c1| | |] t1]; try reflexivity.
    destruct (pread rd v d c1 28 t1) as [[[b c2]| | |] t2]; try reflexivity. unfold ilift. destruct (read_header b); reflexivity. }
  specialize (HG (m_trace s)).
  assert (Dh : defined (fst (head (m_trace s1)))).
  { unfold head. apply ibind_defined; [apply pseek_defined|]. intros c0 t0 _.
    apply (bind_pread rd v d HV HD HB); [lia|]. intros l c1 t1 Hl HF.
    apply ilift_defined; [apply read_header_defined; exact Hl|]. intros h _. exact I. }
  unfold ibind at 1 in HG. rewrite T1 in Dh. destruct (head (m_trace s)) as [r t2] eqn:E2. cbn [fst] in Dh.
  assert (E2' : head (m_trace s1) = (r, t2)) by (rewrite T1; exact E2).
  destruct (mio_spec head s1 r t2 (proj1 M1) E2' Dh) as (o & s2 & X2 & T2 & M2 & H2). rewrite (mbind_ok _ _ _ _ _ X2).
  destruct o as [[h c2]|]; subst r.
  2: { destruct (release_all_spec [a; x] s2 (proj1 M2)) as (s3 & X3 & T3 & M3); [own|]. rewrite (mbind_ok _ _ _ _ _ X3).
       exists None, s3, q1. split; [reflexivity|]. exists []. split; [weigh|]. split; [split; [now left|intros; now left]|]. right. congruence. }
  destruct (sections_mm (Z.to_nat (ps_count h)) (ps_order h) c2 28 [] s2 (proj1 M2)) as (ok & secs & leak & c3 & s3 & q3 & X3 & M3 & L3 & P3).
  rewrite (mbind_ok _ _ _ _ _ X3). cbv beta iota zeta. cbn [app map] in *. rewrite T2 in P3. unfold ibind in HG.
  set (y := {| mp_struct := x; mp_array := a; mp_header := h; mp_sections := secs |}).
  assert (Hy : mp_blocks y = sections_blocks secs ++ [a; x]) by reflexivity.
  destruct ok.
  - destruct P3 as (-> & G3 & E3). exists (Some (y, c3)), s3, (q1 ++ q3). split; [reflexivity|].
    split; [rewrite Hy; rewrite app_nil_r in M3; weigh|]. split; [grants|]. rewrite E3 in HG. exact HG.
  - destruct (release_all_spec (mp_blocks y) s3 (proj1 M3)) as (s4 & X4 & T4 & M4); [rewrite Hy; own|].
    unfold mp_free. rewrite (mbind_ok _ _ _ _ _ X4). exists None, s4, (q1 ++ q3). split; [reflexivity|].
    exists leak. rewrite Hy in M4. split; [weigh|]. split.
    { destruct L3 as [L3 L4]. split; [exact (kept_later s3 s4 _ leak (proj1 (proj2 M4)) L3)|]. intros x0 c0 t0 HA. rewrite HA in HG.
      destruct (sections_loop lib rd v d cp (Z.to_nat (ps_count h)) (ps_order h) c2 28 [] t2) as [[[all c4]| | |] t4] eqn:ES; try discriminate.
      injection HG as -> _ _. cbn [ps_sections]. rewrite T2 in L4. specialize (L4 all c4 t4 ES).
      exact (start_later s3 s4 _ _ leak (proj1 (proj2 M4)) L4). }
    destruct P3 as [R3|E3]; [left; now apply refused_r|right]. rewrite E3 in HG. congruence.
Qed.

Lemma set_free_mm c s : sane s ->
  exists r s', mp_get_set mem lib rd v d cp c s = (Ok r, s') /\ sane s' /\
  match r with
  | None => exists leak, at_most_a_section s' leak /\ Permutation (m_live s') (leak ++ m_live s)
  | Some (x, _) => Permutation (m_live s') (mp_blocks x ++ m_live s) /\
      forall s2 rest, sane s2 -> Permutation (m_live s2) (mp_blocks x ++ rest) ->
        exists s3, mp_free x s2 = (Ok tt, s3) /\ sane s3 /\ Permutation (m_live s3) rest
  end.
Proof.
  intros Hs. destruct (get_set_mm c s (sane_fit _ Hs)) as (r & s' & q & X & P). exists r, s'. split; [exact X|].
  destruct r as [[x c']|]; cbn [get_set_post] in P.
  - destruct P as (M & _). split; [apply fit_sane, M|]. split; [exact (moved_perm _ _ _ _ _ (m_live s) M (Permutation_refl _))|].
    intros s2 rest Hs2 P2. destruct (release_all_spec (mp_blocks x) s2 (sane_fit _ Hs2) (owns_perm _ _ _ P2)) as (s3 & X3 & _ & M3).
    exists s3. split; [exact X3|]. split; [apply fit_sane, M3|]. exact (moved_perm _ _ _ _ _ rest M3 P2).
  - destruct P as (leak & M & L & _). split; [apply fit_sane, M|]. exists leak. split; [exact (kept_section _ _ (proj1 L))|].
    exact (moved_perm _ _ _ _ _ (m_live s) M (Permutation_refl _)).
Qed.

Lemma get_set_granted_mm c s x c' s' : sane s -> mp_get_set mem lib rd v d cp c s = (Ok (Some (x, c')), s') ->
  refusals s s' [] /\ get_set lib rd v d cp c (m_trace s) = (Ok (plain_set x, c'), m_trace s').
Proof.
  intros Hs E. destruct (get_set_mm c s (sane_fit _ Hs)) as (r & s2 & q & X & P). rewrite E in X.
  apply pair_equal_spec in X as [X <-]. apply Ok_inj in X. subst r. destruct P as (M & G & P). split; [|exact P].
  exists q. split; [apply M|]. intros k Hk. specialize (G _ _ Hk). discriminate.
Qed.

Lemma get_set_failed_mm c s s' : sane s -> mp_get_set mem lib rd v d cp c s = (Ok None, s') ->
  refusals s s' [] -> get_set lib rd v d cp c (m_trace s) = (Err, m_trace s').
Proof.
  intros Hs E (q & Hq & HN). destruct (get_set_mm c s (sane_fit _ Hs)) as (r & s2 & q2 & X & P). rewrite E in X.
  apply pair_equal_spec in X as [X <-]. apply Ok_inj in X. subst r. destruct P as (leak & M & _ & [[k R]|P]); [|exact P].
  exfalso. apply (HN k). pose proof (proj1 (proj2 M)) as HQ. rewrite Hq in HQ. apply app_inv_head in HQ. now rewrite HQ.
Qed.

Lemma get_set_left_mm c s s' x c' t' : sane s -> mp_get_set mem lib rd v d cp c s = (Ok None, s') ->
  get_set lib rd v d cp c (m_trace s) = (Ok (x, c'), t') ->
  exists leak, start_of_a_section s' (ps_sections x) leak /\ Permutation (m_live s') (leak ++ m_live s).
Proof.
  intros Hs E G. destruct (get_set_mm c s (sane_fit _ Hs)) as (r & s2 & q & X & P). rewrite E in X.
  apply pair_equal_spec in X as [X <-]. apply Ok_inj in X. subst r. destruct P as (leak & M & [_ L] & _).
  exists leak. split; [exact (L _ _ _ G)|]. exact (moved_perm _ _ _ _ _ (m_live s) M (Permutation_refl _)).
Qed.

Lemma get_set_listed_mm str c s s' : is_stream rd v d str -> sane s -> mp_get_set mem lib rd v d cp c s = (Ok None, s') ->
  exists leak, listed_in str s' leak /\ Permutation (m_live s') (leak ++ m_live s).
Proof.
  intros (_ & _ & Hsh & HBs & f & HS & HC) Hs E. destruct (get_set_mm c s (sane_fit _ Hs)) as (r & s2 & q & X & P). rewrite E in X.
  apply pair_equal_spec in X as [X <-]. apply Ok_inj in X. subst r. destruct P as (leak & M & [L _] & _).
  exists leak. split; [|exact (moved_perm _ _ _ _ _ (m_live s) M (Permutation_refl _))].
  destruct L as [->|(x & -> & H1 & H2 & H3 & H4)]; [now left|right].
  destruct H4 as [H4|(n & e & base & c1 & t1 & c2 & t2 & Hb & H4)].
  - exists x, Little, 0. rewrite H4. split; [reflexivity|]. split; [|auto].
    intros k p Hk. apply znth_range in Hk. unfold zlen in Hk. simpl in Hk. lia.
  - exists x, e, base. split; [reflexivity|]. split; [|auto].
    apply (properties_loop_ok f rd v d str HS HV HD Hsh HC lib cp HBs) in H4;
      [|exact Hb|unfold zlen; simpl; lia|intros k p Hk; apply znth_range in Hk; unfold zlen in Hk; simpl in Hk; lia].
    intros k p Hk. exact (proj1 (proj2 H4 k p Hk)).
Qed.
End Read.
