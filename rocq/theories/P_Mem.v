(** Property theorems on opening and closing a file when requests for memory can
    fail (C86). *)
From Coq Require Import ZArith List Bool Lia Permutation.
From Verif Require Import Base Spec_IO Spec_Load Spec_Tree M_Table M_Header M_Load M_Tree M_Open M_Mem Spec_Mem
  Spec_Write Spec_Stores L_Mem6 X_Stream X_File P_Tree P_Stores.
Import ListNotations.
Open Scope Z_scope.

(** Whatever requests are refused, opening returns 1 or -1 and never releases a
    block that is not in use.  If it fails the blocks in use are those from
    before.  If it succeeds it adds the blocks [own], and closing the file at
    any later time releases these and no others. *)
Theorem C86_nothing_leaks :
  forall mem u rd s, una_ok u -> io_bytes rd -> sane s ->
  exists r s', mm_open_read mem u rd s = (Ok r, s') /\ sane s' /\
  match r with
  | None => Permutation (m_live s') (m_live s)
  | Some f =>
      exists own, Permutation (m_live s') (own ++ m_live s) /\
      forall s2 rest, sane s2 -> Permutation (m_live s2) (own ++ rest) ->
        exists s3, mm_close f s2 = (Ok tt, s3) /\ sane s3 /\ Permutation (m_live s3) rest
  end.
Proof. exact open_close_mm. Qed.
Print Assumptions C86_nothing_leaks.

(** If no request is refused, opening gives the result of [open_read] and
    performs its reads: the model of M_Open.v is this one without refusals. *)
Theorem C86_all_granted :
  forall mem u rd s r s', una_ok u -> io_bytes rd -> sane s -> mm_open_read mem u rd s = (Ok r, s') ->
    refusals s s' [] ->
    open_read u rd (m_trace s) = (match r with Some f => Ok (mf_opened f) | None => Err end, m_trace s').
Proof. exact open_granted_mm. Qed.
Print Assumptions C86_all_granted.

(** Opening succeeds only if all requests were granted but those made while
    reading the sector allocation table and the short sector allocation table.
    A table with a refused request is all zeros and nothing is read for it;
    everything else is what the file says. *)
Theorem C86_success_with_refusals :
  forall mem u rd s f s', una_ok u -> io_bytes rd -> sane s -> mm_open_read mem u rd s = (Ok (Some f), s') ->
    refusals s s' [RSat; RSsat] /\
    opens u rd (m_trace s) (refusal s s' RSat) (refusal s s' RSsat) (mf_opened f) (m_trace s').
Proof. exact open_refused_mm. Qed.
Print Assumptions C86_success_with_refusals.

Definition xm_start : mst := {| m_requests := []; m_live := []; m_trace := [] |}.

Lemma xm_sane : sane xm_start.
Proof. split; [constructor|]. intros p []. Qed.

(** All but the request [k] are granted. *)
Definition all_but (k : nat) : memory := fun n => negb (Nat.eqb n k).

Definition xm_open (k : nat) : res (option mfile) * mst :=
  mm_open_read (all_but k) xf_una (file_reader (xf_file Little)) xm_start.

(** A file and a single refused request: opening succeeds, and reading returns
    other bytes than those of the document that the file holds. *)
Theorem C86_success_is_right_refuted :
  exists mem u file h root doc f s' doc',
    una_ok u /\ stores u file h root doc /\
    mm_open_read mem u (file_reader file) xm_start = (Ok (Some f), s') /\
    (exists k, forall n, mem n = false <-> n = k) /\
    read_back 2 (file_reader file) (mf_opened f) = Some doc' /\ doc' <> doc.
Proof.
  destruct (xf_stores Little) as (h & root & HS & _).
  destruct (xm_open 8) as [r s'] eqn:E. unfold xm_open in E.
  assert (HC : match r with
               | Ok (Some f) => match read_back 2 (file_reader (xf_file Little)) (mf_opened f) with
                                | Some {| doc_items := AddStream _ _ _ b _ |} => nth 64 b 0 = 0
                                | _ => False
                                end
               | _ => False
               end).
  { change r with (fst (r, s')). rewrite <- E. vm_compute. reflexivity. }
  destruct r as [[f|]| | |]; try contradiction.
  destruct (read_back 2 (file_reader (xf_file Little)) (mf_opened f)) as [doc'|] eqn:ER; [|contradiction].
  exists (all_but 8), xf_una, (xf_file Little), h, root, (xf_document Little), f, s', doc'.
  split; [exact xf_una_ok|]. split; [exact HS|]. split; [exact E|].
  split. { exists 8%nat. intros n. unfold all_but. rewrite negb_false_iff. apply Nat.eqb_eq. }
  split; [exact ER|]. intros ->. vm_compute in HC. discriminate.
Qed.
Print Assumptions C86_success_is_right_refuted.

(** The requests of opening that file, the blocks in use afterwards, and those
    after closing it. *)
Example C86_case :
  exists f s', xm_open 1000 = (Ok (Some f), s') /\
    m_requests s' = map (fun k => (k, true)) ([RHeader; RTable; RTable; RTable; RSat; RSat; RTable; RSsat; RSsat] ++
                      repeat RDirectory 23 ++ repeat RTree 9) /\
    m_live s' = [39; 37; 35; 33; 32; 27; 26; 24; 23; 19; 18; 16; 15; 13; 12; 7; 6; 4; 3; 2; 1] /\
    m_live (snd (mm_close f s')) = [] /\
    open_read xf_una (file_reader (xf_file Little)) [] = (Ok (mf_opened f), m_trace s').
Proof.
  destruct (xm_open 1000) as [r s'] eqn:E.
  assert (HC : match xm_open 1000 with
               | (Ok (Some f), s') =>
                   m_requests s' = map (fun k => (k, true)) ([RHeader; RTable; RTable; RTable; RSat; RSat; RTable; RSsat; RSsat] ++
                      repeat RDirectory 23 ++ repeat RTree 9) /\
                   m_live s' = [39; 37; 35; 33; 32; 27; 26; 24; 23; 19; 18; 16; 15; 13; 12; 7; 6; 4; 3; 2; 1] /\
                   m_live (snd (mm_close f s')) = []
               | _ => False
               end).
  { vm_compute. auto. }
  rewrite E in HC. destruct r as [[f|]| | |]; try contradiction. exists f, s'. split; [reflexivity|].
  destruct HC as (H1 & H2 & H3). split; [exact H1|]. split; [exact H2|]. split; [exact H3|].
  apply (C86_all_granted (all_but 1000) xf_una (file_reader (xf_file Little)) xm_start (Some f) s' xf_una_ok (xf_reader_bytes Little) xm_sane E).
  eexists. split; [exact H1|]. intros k Hk. apply in_map_iff in Hk as (x & Hx & _). discriminate.
Qed.

(** Each single refusal but those of the requests 7 and 8 makes opening fail;
    then nothing is in use, and with 7 and 8 nothing after closing. *)
Example C86_case_refused :
  forallb (fun k => match xm_open k with
                    | (Ok None, s') => negb (Nat.eqb k 7 || Nat.eqb k 8) && Nat.eqb (length (m_live s')) 0
                    | (Ok (Some f), s') => (Nat.eqb k 7 || Nat.eqb k 8) && Nat.eqb (length (m_live (snd (mm_close f s')))) 0
                    | _ => false
                    end) (seq 0 41) = true.
Proof. vm_compute. reflexivity. Qed.

(** With the request 8 refused the short table is zeros; with 7 it is empty. *)
Example C86_case_tables :
  (exists f s', xm_open 7 = (Ok (Some f), s') /\ o_ssat (mf_opened f) = [] /\ length (m_live s') = 20%nat) /\
  (exists f s', xm_open 8 = (Ok (Some f), s') /\ o_ssat (mf_opened f) = zeros 128 /\ length (m_live s') = 21%nat).
Proof.
  split.
  - destruct (xm_open 7) as [r s'] eqn:E.
    assert (HC : match xm_open 7 with (Ok (Some f), s') => o_ssat (mf_opened f) = [] /\ length (m_live s') = 20%nat | _ => False end).
    { vm_compute. auto. }
    rewrite E in HC. destruct r as [[f|]| | |]; try contradiction. exists f, s'. auto.
  - destruct (xm_open 8) as [r s'] eqn:E.
    assert (HC : match xm_open 8 with (Ok (Some f), s') => o_ssat (mf_opened f) = zeros 128 /\ length (m_live s') = 21%nat | _ => False end).
    { vm_compute. auto. }
    rewrite E in HC. destruct r as [[f|]| | |]; try contradiction. exists f, s'. auto.
Qed.
