(** Property C90: property sets when requests for memory can fail. *)
From Coq Require Import ZArith List Bool Lia Permutation.
From Verif Require Import Base Spec_IO M_Table M_Load M_Stream Spec_Stream Spec_Content M_Prop Spec_Prop M_Mem Spec_Mem
  M_PropMem Spec_PropMem L_Base L_PropMem X_Linear X_Prop P_Prop P_Mem.
Import ListNotations.
Open Scope Z_scope.

(** Whatever requests are refused, whatever the bytes of the stream and whatever
    libfvalue does: the call returns 1 or -1 and never releases a block that is
    not in use.  If it succeeds, the blocks of the set are added to those in use,
    and libolecf_property_set_free releases these and no others at any later
    time.  If it fails, at most the blocks of a single section stay in use,
    all of them requested for property sets. *)
Theorem C90_safe :
  forall mem lib rd v d cp c s,
    volume_ok v -> dirent_ok d -> io_bytes rd -> sane s ->
    exists r s', mp_get_set mem lib rd v d cp c s = (Ok r, s') /\ sane s' /\
    match r with
    | None => exists leak, at_most_a_section s' leak /\ Permutation (m_live s') (leak ++ m_live s)
    | Some (x, _) => Permutation (m_live s') (mp_blocks x ++ m_live s) /\
        forall s2 rest, sane s2 -> Permutation (m_live s2) (mp_blocks x ++ rest) ->
          exists s3, mp_free x s2 = (Ok tt, s3) /\ sane s3 /\ Permutation (m_live s3) rest
    end.
Proof. intros mem lib rd v d cp c s HV HD HB. exact (set_free_mm mem lib rd v d cp HV HD HB c s). Qed.
Print Assumptions C90_safe.

(** A set is returned only if no request was refused, and then it is the one of
    the model without refusals, read with the same reads: unlike opening a file
    (C86), a lack of memory never yields a set with other contents. *)
Theorem C90_success :
  forall mem lib rd v d cp c s x c' s',
    volume_ok v -> dirent_ok d -> io_bytes rd -> sane s ->
    mp_get_set mem lib rd v d cp c s = (Ok (Some (x, c')), s') ->
    refusals s s' [] /\ get_set lib rd v d cp c (m_trace s) = (Ok (plain_set x, c'), m_trace s').
Proof. intros mem lib rd v d cp c s x c' s' HV HD HB. exact (get_set_granted_mm mem lib rd v d cp HV HD HB c s x c' s'). Qed.
Print Assumptions C90_success.

(** If none was refused, a failure is one of the model without refusals. *)
Theorem C90_failure :
  forall mem lib rd v d cp c s s',
    volume_ok v -> dirent_ok d -> io_bytes rd -> sane s ->
    mp_get_set mem lib rd v d cp c s = (Ok None, s') -> refusals s s' [] ->
    get_set lib rd v d cp c (m_trace s) = (Err, m_trace s').
Proof. intros mem lib rd v d cp c s s' HV HD HB. exact (get_set_failed_mm mem lib rd v d cp HV HD HB c s s'). Qed.
Print Assumptions C90_failure.

(** With C44: with enough memory every set that is in the bytes of a stream is
    returned, and with too little memory that one or none. *)
Theorem C90_set_or_nothing :
  forall mem lib rd v d s cp c m x,
    is_readable_stream rd v d s -> io_bytes rd -> lib_accepts lib -> zlen s < 2 ^ 32 - 1 -> 0 <= c -> set_at s x -> sane m ->
    exists r m', mp_get_set mem lib rd v d cp c m = (Ok r, m') /\
    match r with
    | Some (y, _) => refusals m m' [] /\ set_view (plain_set y) = set_view x
    | None => ~ refusals m m' []
    end.
Proof.
  intros mem lib rd v d s cp c m x HR HB HL Hs Hc Hx Hm.
  pose proof HR as (HV & HD & _).
  destruct (C90_safe mem lib rd v d cp c m HV HD HB Hm) as (r & m' & E & _ & _). exists r, m'. split; [exact E|].
  destruct (C44_set_exact lib rd v d s cp c (m_trace m) x HR HL Hs Hc Hx) as (y & c' & t' & Ey & Hy).
  destruct r as [[z c2]|].
  - destruct (C90_success _ _ _ _ _ _ _ _ _ _ _ HV HD HB Hm E) as [Hr Eg]. split; [exact Hr|].
    rewrite Ey in Eg. apply pair_equal_spec in Eg as [Eg _]. apply Ok_inj in Eg. apply pair_equal_spec in Eg as [<- _]. exact Hy.
  - intros Hr. pose proof (C90_failure _ _ _ _ _ _ _ _ _ HV HD HB Hm E Hr) as Eg. rewrite Ey in Eg. discriminate.
Qed.
Print Assumptions C90_set_or_nothing.

(** If a set that is in the bytes of the stream is not returned, the blocks that
    stay are none, or those of the first properties of one of its sections: those
    of a property that could not be read to its end were released. *)
Theorem C90_left :
  forall mem lib rd v d s cp c m x m',
    is_readable_stream rd v d s -> io_bytes rd -> lib_accepts lib -> zlen s < 2 ^ 32 - 1 -> 0 <= c -> set_at s x -> sane m ->
    mp_get_set mem lib rd v d cp c m = (Ok None, m') ->
    exists y leak, set_view y = set_view x /\ start_of_a_section m' (ps_sections y) leak /\
      Permutation (m_live m') (leak ++ m_live m).
Proof.
  intros mem lib rd v d s cp c m x m' HR HB HL Hs Hc Hx Hm E. pose proof HR as (HV & HD & _).
  destruct (C44_set_exact lib rd v d s cp c (m_trace m) x HR HL Hs Hc Hx) as (y & c' & t' & Ey & Hy).
  destruct (get_set_left_mm mem lib rd v d cp HV HD HB c m m' y c' t' Hm E Ey) as (leak & H1 & H2). exists y, leak. auto.
Qed.
Print Assumptions C90_left.

(** The same for any stream, damaged or not: value [k] of those that stay is
    the property that entry [k] of a list in the stream describes.  So no part of
    a property that could not be read stays. *)
Theorem C90_left_damaged :
  forall mem lib rd v d s cp c m m',
    is_stream rd v d s -> io_bytes rd -> sane m ->
    mp_get_set mem lib rd v d cp c m = (Ok None, m') ->
    exists leak, listed_in s m' leak /\ Permutation (m_live m') (leak ++ m_live m).
Proof.
  intros mem lib rd v d s cp c m m' HR HB Hm E. pose proof HR as (HV & HD & _).
  exact (get_set_listed_mm mem lib rd v d cp HV HD HB s c m m' HR Hm E).
Qed.
Print Assumptions C90_left_damaged.

Definition xq_read (k : nat) (s : list Z) : res (option (mset * Z)) * mst :=
  mp_get_set (all_but k) xp_lib (file_reader (line_file s)) (line_volume s) (line_dirent s) 1252 0 xm_start.

(** The set of two sections and ten properties with all requests granted: 53
    requests, 32 blocks are in use, and none after the set was freed. *)
Example C90_case :
  exists x c s', xq_read 1000 (xp_set Little 2) = (Ok (Some (x, c)), s') /\
    length (m_requests s') = 53%nat /\ length (m_live s') = 32%nat /\ m_live (snd (mp_free x s')) = [].
Proof.
  destruct (xq_read 1000 (xp_set Little 2)) as [r s'] eqn:E.
  assert (HC : match xq_read 1000 (xp_set Little 2) with
               | (Ok (Some (x, c)), s') => length (m_requests s') = 53%nat /\ length (m_live s') = 32%nat /\ m_live (snd (mp_free x s')) = []
               | _ => False
               end).
  { vm_compute. auto. }
  rewrite E in HC.
  destruct r as [[[x c]|]| | |]; try contradiction. exists x, c, s'. split; [reflexivity|exact HC].
Qed.

(** Each of the 53 requests is needed: without it no set is returned.  Refusing
    one of the first four, or one of the two for the second section, leaks
    nothing; each of the others leaks from 2 to 21 blocks. *)
Example C90_case_refused :
  forallb (fun k => match xq_read k (xp_set Little 2) with
                    | (Ok None, s') => let n := length (m_live s') in
                        if existsb (Nat.eqb k) [0; 1; 2; 3; 37; 38]%nat then Nat.eqb n 0
                        else Nat.leb 2 n && Nat.leb n 21
                    | _ => false
                    end) (seq 0 53) = true.
Proof. vm_compute. reflexivity. Qed.

(** The first 150 bytes of that stream: no request is refused, the set cannot be
    read, and the section with the properties before the one that is cut stays. *)
Example C90_case_damaged :
  let s := firstn 150 (xp_set Little 2) in
  is_stream (file_reader (line_file s)) (line_volume s) (line_dirent s) s /\ io_bytes (file_reader (line_file s)) /\ sane xm_start /\
  match xq_read 1000 s with
  | (Ok None, s') => forallb snd (m_requests s') = true /\ length (m_live s') = 8%nat
  | _ => False
  end.
Proof.
  intros s.
  assert (HR : is_readable_stream (file_reader (line_file s)) (line_volume s) (line_dirent s) s) by (apply xp_stream; vm_compute; congruence).
  split. { destruct HR as (HV & HD & Hsh & Hs & HI & f & HS & HT & HK). split; [exact HV|]. split; [exact HD|]. split; [exact Hsh|].
    split; [exact Hs|]. exists f. auto. }
  split; [apply file_reader_bytes, line_bytes, HR|]. split; [exact xm_sane|]. vm_compute. auto.
Qed.

(** Finding: a set that is in the stream and a single refused request, and 21
    blocks stay in use that nobody can release any more. *)
Theorem C90_nothing_leaks_refuted :
  exists mem lib rd v d s cp x s',
    is_readable_stream rd v d s /\ io_bytes rd /\ set_at s x /\
    (exists k, forall n, mem n = false <-> n = k) /\
    mp_get_set mem lib rd v d cp 0 xm_start = (Ok None, s') /\ length (m_live s') = 21%nat.
Proof.
  set (s := xp_set Little 2).
  assert (HR : is_readable_stream (file_reader (line_file s)) (line_volume s) (line_dirent s) s).
  { apply xp_stream; vm_compute; congruence. }
  assert (HB : io_bytes (file_reader (line_file s))) by (apply file_reader_bytes, line_bytes, HR).
  destruct (xq_read 36 s) as [r s'] eqn:E.
  assert (HC : match xq_read 36 s with (Ok None, s') => length (m_live s') = 21%nat | _ => False end) by (vm_compute; reflexivity).
  rewrite E in HC.
  destruct (get_set xp_lib (file_reader (line_file s)) (line_volume s) (line_dirent s) 1252 0 []) as [g t] eqn:EG.
  assert (HG : match g with Ok _ => True | _ => False end).
  { change g with (fst (g, t)). rewrite <- EG. vm_compute. exact I. }
  destruct g as [[x c]| | |]; try contradiction. destruct r as [[[y c']|]| | |]; try contradiction.
  exists (all_but 36), xp_lib, (file_reader (line_file s)), (line_volume s), (line_dirent s), s, 1252, x, s'.
  split; [exact HR|]. split; [exact HB|].
  split. { apply (C44_set_is_in_the_stream xp_lib (file_reader (line_file s)) (line_volume s) (line_dirent s) s 1252 0 [] x c t); [|exact EG].
    destruct HR as (HV & HD & Hsh & Hs & HI & f & HS & HT & HK). split; [exact HV|]. split; [exact HD|]. split; [exact Hsh|].
    split; [exact Hs|]. exists f. auto. }
  split. { exists 36%nat. intros n. unfold all_but. rewrite negb_false_iff. apply Nat.eqb_eq. }
  split; [exact E|exact HC].
Qed.
Print Assumptions C90_nothing_leaks_refuted.
