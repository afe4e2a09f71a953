(** Property C70: the lifetime of a property set in memory. *)
From Coq Require Import ZArith List Bool Lia.
From Verif Require Import Base Spec_IO M_Table M_Load M_Stream Spec_Stream Spec_Content
  M_Prop Spec_Prop M_PropFree Spec_PropFree L_Base L_Prop L_Prop2 L_PropFree X_Linear X_Prop.
Import ListNotations.
Open Scope Z_scope.

(** The log changes nothing in what is read. *)
Theorem C70_same_result :
  forall lib rd v d cp c t,
    let '((r, _), t') := l_get_set lib rd v d cp c t [] in
    get_set lib rd v d cp c t = (r, t').
Proof.
  intros lib rd v d cp c t. pose proof (get_set_log lib rd v d cp c t) as H.
  destruct (l_get_set lib rd v d cp c t []) as [[r m] t']. apply H.
Qed.
Print Assumptions C70_same_result.

(** A set that is returned has all its parts in memory and nothing else is
    left there; libolecf_property_set_free then releases each of them once. *)
Theorem C70_set_lives_and_is_freed :
  forall lib rd v d cp c t x c' m t',
    l_get_set lib rd v d cp c t [] = ((Ok (x, c'), m), t') ->
    exists live,
      heap [] m = Some live /\ NoDup live /\
      (forall p, In p live <-> set_part (ps_sections x) p) /\
      heap live (set_free (ps_sections x)) = Some [].
Proof.
  intros lib rd v d cp c t x c' m t' H. pose proof (get_set_log lib rd v d cp c t) as G. rewrite H in G.
  destruct G as [_ ->]. destruct (made_set (ps_sections x)) as (live & H1 & H2 & H3).
  exists live. split; [exact H1|]. split; [exact H2|]. split; [exact H3|].
  destruct (freed_set (ps_sections x) live (fun _ => False) H2) as (live' & K1 & K2).
  - intros p. rewrite H3. tauto.
  - tauto.
  - rewrite K1. destruct live' as [|p l]; [reflexivity|]. exfalso. apply (K2 p). now left.
Qed.
Print Assumptions C70_set_lives_and_is_freed.

(** When no set is returned, no part is released twice or before it was made,
    and what stays in memory is nothing or a single section with the properties
    that were read of it. *)
Theorem C70_failure :
  forall lib rd v d cp c t m t',
    l_get_set lib rd v d cp c t [] = ((Err, m), t') ->
    exists live, heap [] m = Some live /\
      (live = [] \/ exists k ps, forall p, In p live <-> section_part k ps p).
Proof.
  intros lib rd v d cp c t m t' H. pose proof (get_set_log lib rd v d cp c t) as G. rewrite H in G.
  destruct G as [_ [[_ ->]|(secs & ev & Hf & ->)]].
  - exists []. split; [reflexivity|now left].
  - destruct (failed_set secs ev Hf) as (ps & live & H1 & H2). exists live. split; [exact H1|]. right.
    exists (length secs), ps. exact H2.
Qed.
Print Assumptions C70_failure.

(** Finding: with a header that can be read, a set that is refused always
    leaves a section in memory, that nobody can release any more. *)
Theorem C70_refused_set_leaks :
  forall lib rd v d s cp c t x m t',
    is_readable_stream rd v d s -> 0 <= c -> header_at s x ->
    l_get_set lib rd v d cp c t [] = ((Err, m), t') ->
    exists live k ps, heap [] m = Some live /\ forall p, In p live <-> section_part k ps p.
Proof.
  intros lib rd v d s cp c t x m t' (HV & HD & Hsh & HB & HI & f & HS & HT & HC) Hc Hh H.
  pose proof (get_set_log lib rd v d cp c t) as G. rewrite H in G.
  destruct G as [_ [[Hr _]|(secs & ev & Hf & ->)]].
  - exfalso. unfold header_io in Hr. pose proof Hh as (Hff & _).
    rewrite (ibind_Ok _ _ _ _ _ (pseek_complete f v d s HC c 0 t Hc ltac:(lia))) in Hr.
    destruct (pread_complete f rd v d s HS HV HD Hsh HC 0 28 t _ HT HI ltac:(lia) Hff) as (t1 & E).
    rewrite (ibind_Ok _ _ _ _ _ E) in Hr. cbv beta iota in Hr.
    destruct (get_u16_at s (ps_order x) 0 28 _ 24 Hff) as (n & _ & Hn); try lia.
    set (y := {| ps_order := ps_order x; ps_format := ps_format x; ps_version := ps_version x;
        ps_class := ps_class x; ps_count := n; ps_sections := [] |}).
    rewrite (ilift_Ok _ _ _ _ (read_header_complete s y Hh Hn)) in Hr. discriminate.
  - destruct (failed_set secs ev Hf) as (ps & live & H1 & H2). exists live, (length secs), ps. auto.
Qed.
Print Assumptions C70_refused_set_leaks.

Definition xf_read (s : list Z) : res (property_set * Z) * list pevent :=
  fst (l_get_set xp_lib (file_reader (line_file s)) (line_volume s) (line_dirent s) 1252 0 [] []).

(** A set of two sections and ten properties: twenty-one parts, as one
    property is of an unknown type and one is a list of strings, and the library
    stores no data for either. *)
Example C70_case :
  exists x c m live, xf_read (xp_set Little 2) = (Ok (x, c), m) /\
    heap [] m = Some live /\ length live = 21%nat /\ length (set_free (ps_sections x)) = 21%nat.
Proof. do 4 eexists. split; [vm_compute; reflexivity|]. repeat split; vm_compute; reflexivity. Qed.

(** A section with a codepage and a second property at offset 8, which is
    refused: the section and the codepage stay in memory. *)
Theorem C70_leak_refuted :
  exists s m,
    is_readable_stream (file_reader (line_file s)) (line_volume s) (line_dirent s) s /\
    xf_read s = (Err, m) /\
    heap [] m = Some [PartData 0 0; PartValue 0 0; PartSection 0].
Proof.
  exists (set_bytes Little 1 [(repeat 1 16, 48)] (low_bytes 4 40 ++ low_bytes 4 2 ++
    low_bytes 4 1 ++ low_bytes 4 24 ++ low_bytes 4 2 ++ low_bytes 4 8 ++ low_bytes 4 2 ++ low_bytes 2 1252 ++ [0; 0])).
  eexists. split; [apply xp_stream; vm_compute; congruence|]. split; vm_compute; reflexivity.
Qed.
