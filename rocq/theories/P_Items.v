(** Properties of the file, item and sequence objects of the Python bindings:
    C62-C68. *)
From Coq Require Import ZArith List Bool Lia.
From Verif Require Import Base Spec_IO M_Header M_Table M_Load M_Stream M_Tree M_Open M_Item M_File M_Time M_Python M_Items
  Spec_Stream Spec_Load Spec_Open Spec_Tree Spec_Item Spec_File Spec_Python Spec_Write Spec_Items
  L_Base L_File L_Items L_Items2 L_Items3 X_File P_File P_Write L_Write3 L_Write4 L_Write6 Spec_Stores Spec_Doc L_Doc.
Import ListNotations.
Open Scope Z_scope.

(** ** Concrete cases
    Names of ASCII characters are converted, other names are refused. *)
Definition xi_text (n : list Z) (e : endian) : res (list Z) :=
  let l := xf_strip (xf_units e n) in
  if forallb (fun c => (0 <? c) && (c <? 128)) l then Ok l else Err.
Definition xi_codepage (s : list Z) : option Z :=
  match find (fun x => xf_eqb (characters (snd x)) s) codepage_names with
  | Some x => Some (fst x)
  | None => if xf_eqb s (text_iso_8859 ++ [49]) then Some 28591 else None
  end.
Definition xi_env : pyenv :=
  {| pe_una := xf_una; pe_text := xi_text; pe_decodes := fun _ => true; pe_codepage := xi_codepage; pe_host := Little |}.

Lemma xi_env_ok : pyenv_ok xi_env.
Proof.
  constructor.
  - exact xf_una_ok.
  - intros s i Hi. cbn. unfold xf_char. destruct (znth s i) as [c|]; [|left; reflexivity].
    destruct (c <? 128); [right|left; reflexivity]. exists c, (i + 1). split; [reflexivity|lia].
  - intros n e. cbn. unfold xi_text. destruct (forallb _ _); exact I.
Qed.

(** A program all of whose calls meet the same file. *)
Definition on (ev : env) (l : list pycall) : list (env * pycall) := map (fun c => (ev, c)) l.
Lemma on_bytes ev l : env_bytes ev -> program_bytes (on ev l).
Proof. intros H. apply Forall_forall. intros x Hx. apply in_map_iff in Hx as (c & <- & _). exact H. Qed.
Definition answers (l : list pycall) : list reply := fst (py_run xi_env (on xf_env l) py_start).

Definition careful_b (calls : list pycall) (ans : list reply) : bool :=
  forallb (fun t =>
    match nth_error calls t with
    | Some call =>
        match target call with
        | Some i =>
            forallb (fun c => forallb (fun s =>
              negb (match nth_error ans s with Some (AObject j) => Nat.eqb i j | _ => false end &&
                    match nth_error calls c with Some CallClose => true | _ => false end)) (seq 0 c)) (seq 0 t)
        | None => true
        end
    | None => true
    end) (seq 0 (length calls)).
Lemma careful_b_ok calls ans : careful_b calls ans = true -> careful calls ans.
Proof.
  unfold careful_b. intros H s c t i call H1 H2 H3 H4 H5. rewrite forallb_forall in H.
  assert (Ht : (t < length calls)%nat) by (apply nth_error_Some; congruence).
  specialize (H t ltac:(apply in_seq; lia)). rewrite H3, H4 in H. rewrite forallb_forall in H.
  specialize (H c ltac:(apply in_seq; lia)). rewrite forallb_forall in H. specialize (H s ltac:(apply in_seq; lia)).
  rewrite H1, H2, PeanoNat.Nat.eqb_refl in H. discriminate H.
Qed.

(** ** C62 *)
Theorem C62_defined :
  forall en h t, pyenv_ok en -> program_bytes h -> careful (map snd h) (fst (py_run en h py_start)) ->
    nth_error (fst (py_run en h py_start)) t = Some PyUndef ->
    exists ev i op, nth_error h t = Some (ev, OnItem i (CallStream op)) /\
      ((exists c, seek_overflows c op /\
          forall ev', fst (py_run en (firstn t h ++ [(ev', OnItem i (CallStream PyTell))]) py_start) =
                      firstn t (fst (py_run en h py_start)) ++ [ANumber c]) \/
       (is_read op /\ exists n, n < 4 /\
          forall ev', fst (py_run en (firstn t h ++ [(ev', CallShortSectorSize)]) py_start) =
                      firstn t (fst (py_run en h py_start)) ++ [ANumber n])).
Proof. intros en h t Hen. exact (careful_defined en Hen h t). Qed.
Print Assumptions C62_defined.

(** A program that opens, goes through items, closes and opens again. *)
Definition xi_calls : list pycall :=
  [CallOpen None; CallRootItem; OnItem 0 CallSubItems; OnSequence 1 CallNext; OnItem 2 CallName;
   OnItem 2 (CallStream (PyRead (Some (PInt 3)))); OnItem 2 (CallStream (PySeek (PInt (2 ^ 63 - 1)) (Some (PInt 1))));
   CallClose; CallSectorSize; CallOpenObject (Some [114; 98]); CallItemByPath [92; 115; 116; 92; 120; 121];
   OnItem 3 (CallStream (PyRead None)); OnItem 3 CallCreationInteger].

Example C62_case :
  answers xi_calls =
  [ANone; AObject 0; AObject 1; AObject 2; AText [97; 98]; ABytes [0; 1; 2]; PyUndef;
   ANone; ANumber 0; ANone; AObject 3; ABytes [128; 129; 130; 131; 132; 133; 134; 135; 136; 137]; ANumber 1000] /\
  program_bytes (on xf_env xi_calls) /\ careful xi_calls (answers xi_calls) /\
  seek_overflows 3 (PySeek (PInt (2 ^ 63 - 1)) (Some (PInt 1))).
Proof.
  split; [vm_compute; reflexivity|]. split; [apply on_bytes, xf_env_bytes|]. split.
  - apply careful_b_ok. vm_compute. reflexivity.
  - exists (2 ^ 63 - 1), 1. split; [reflexivity|]. left. split; [reflexivity|]. lia.
Qed.

(** Without the condition: an object that is used after the close of its file. *)
Theorem C62_after_close_refuted :
  exists en h, pyenv_ok en /\ program_bytes h /\ map snd h = [CallOpen None; CallRootItem; CallClose; OnItem 0 CallName] /\
    fst (py_run en h py_start) = [ANone; AObject 0; ANone; PyUndef].
Proof.
  exists xi_env, (on xf_env [CallOpen None; CallRootItem; CallClose; OnItem 0 CallName]).
  split; [exact xi_env_ok|]. split; [apply on_bytes, xf_env_bytes|]. split; [reflexivity|]. vm_compute. reflexivity.
Qed.
Print Assumptions C62_after_close_refuted.

(** ** C63 *)
Theorem C63_iteration :
  forall en h s p j t, pyenv_ok en -> program_bytes h ->
    nth_error (map snd h) s = Some (OnItem p CallSubItems) ->
    nth_error (fst (py_run en h py_start)) s = Some (AObject j) -> (s < t <= length h)%nat ->
    no_close (firstn (t - S s) (skipn (S s) (map snd h))) ->
    let before := firstn t (fst (py_run en h py_start)) in
    let m := yielded j (skipn (S s) (firstn t (combine (map snd h) (fst (py_run en h py_start))))) in
    exists n,
    (forall ev, fst (py_run en (firstn t h ++ [(ev, OnItem p CallNumberOfSubItems)]) py_start) = before ++ [ANumber n]) /\
    (forall ev, fst (py_run en (firstn t h ++ [(ev, OnSequence j CallLength)]) py_start) = before ++ [ANumber n]) /\
    (n <= m -> forall ev,
       fst (py_run en (firstn t h ++ [(ev, OnSequence j CallNext)]) py_start) = before ++ [ARaise StopIteration]) /\
    (m < n -> m < 2 ^ 31 -> forall ev rest, apart_from j rest ->
       fst (py_run en (firstn t h ++ (ev, OnSequence j CallNext) :: rest) py_start) =
       fst (py_run en (firstn t h ++ (ev, OnItem p (CallSubItem (PInt m))) :: rest) py_start)) /\
    (n <= 2 ^ 31 -> forall ev z rest,
       fst (py_run en (firstn t h ++ (ev, OnSequence j (CallIndex (PInt z))) :: rest) py_start) =
       if (z <? - 2 ^ 63) || (2 ^ 63 <=? z) then before ++ ARaise IndexError :: skipn t (fst (py_run en (firstn t h ++ rest) py_start))
       else if (z <? - n) || (n <=? z) then before ++ ARaise ValueError :: skipn t (fst (py_run en (firstn t h ++ rest) py_start))
       else fst (py_run en (firstn t h ++ (ev, OnItem p (CallSubItem (PInt (if z <? 0 then n + z else z)))) :: rest) py_start)).
Proof. intros en h s p j t Hen Hb Hc Ha Hst Hn. exact (iteration_exact en Hen h s p j t Hb Hc Ha Hst Hn). Qed.
Print Assumptions C63_iteration.

(** The three items of the root: by next, by index from both ends, and what
    comes behind the end. *)
Example C63_case :
  let h := [CallOpen None; CallRootItem; OnItem 0 CallSubItems; OnSequence 1 CallLength;
            OnSequence 1 CallNext; OnItem 2 CallName; OnSequence 1 (CallIndex (PInt (-1))); OnItem 3 CallName;
            OnSequence 1 CallNext; OnItem 4 CallName; OnSequence 1 CallNext; OnItem 5 CallName; OnSequence 1 CallNext;
            OnSequence 1 (CallIndex (PInt 3)); OnSequence 1 (CallIndex (PInt (2 ^ 63)))] in
  answers h =
  [ANone; AObject 0; AObject 1; ANumber 3; AObject 2; AText [97; 98]; AObject 3; AText [115; 116];
   AObject 4; AText [99; 100]; AObject 5; AText [115; 116]; ARaise StopIteration; ARaise ValueError; ARaise IndexError] /\
  no_close (firstn 12 (skipn 3 h)) /\
  yielded 1 (skipn 3 (combine h (answers h))) = 3.
Proof.
  cbv zeta. split; [vm_compute; reflexivity|]. split; [repeat constructor; discriminate|]. vm_compute. reflexivity.
Qed.

(** A sequence can be gone through once only: the iterator is the sequence
    itself and is never set back. *)
Theorem C63_twice_refuted :
  exists en h, pyenv_ok en /\ program_bytes h /\
    map snd h = [CallOpen None; CallRootItem; OnItem 0 CallSubItems;
                 OnSequence 1 CallIter; OnSequence 1 CallNext; OnSequence 1 CallNext; OnSequence 1 CallNext; OnSequence 1 CallNext;
                 OnSequence 1 CallIter; OnSequence 1 CallNext; OnSequence 1 CallLength] /\
    fst (py_run en h py_start) = [ANone; AObject 0; AObject 1;
                 AObject 1; AObject 2; AObject 3; AObject 4; ARaise StopIteration;
                 AObject 1; ARaise StopIteration; ANumber 3].
Proof.
  exists xi_env. eexists (on xf_env [_; _; _; _; _; _; _; _; _; _; _]).
  split; [exact xi_env_ok|]. split; [apply on_bytes, xf_env_bytes|]. split; [reflexivity|]. vm_compute. reflexivity.
Qed.
Print Assumptions C63_twice_refuted.

(** An item whose name cannot be converted ends the iteration: each next fails
    on it, the items behind it cannot be reached in this way. *)
Definition xi_bad_file : list Z :=
  xf_file_of Little xf_sat
    (slice (xf_slots Little) 0 256 ++ xf_slot Little [0xdc00] 2 1 4 FREE 4 600 ++ slice (xf_slots Little) 384 640).
Theorem C63_blocked_refuted :
  exists en h, pyenv_ok en /\ program_bytes h /\
    map snd h = [CallOpen None; CallRootItem; OnItem 0 CallSubItems; OnSequence 1 CallNext; OnSequence 1 CallNext; OnSequence 1 CallNext;
                 OnSequence 1 (CallIndex (PInt 2)); OnItem 3 CallName] /\
    fst (py_run en h py_start) = [ANone; AObject 0; AObject 1; AObject 2; ARaise IOError; ARaise IOError; AObject 3; AText [115; 116]].
Proof.
  exists xi_env. eexists (on (good_env xi_bad_file) [_; _; _; _; _; _; _; _]).
  split; [exact xi_env_ok|]. split; [apply on_bytes, file_reader_bytes, xf_bytes_ok; vm_compute; reflexivity|].
  split; [reflexivity|]. vm_compute. reflexivity.
Qed.
Print Assumptions C63_blocked_refuted.

(** ** C64 *)
Theorem C64_walk :
  forall en ev text hd root doc h ev0 fuel,
    pyenv_ok en -> pe_host en = Little -> holds (pe_una en) (ev_reader ev) hd root doc -> few_sectors hd doc ->
    ev_is_open ev = true ->
    readable_name en (fh_byte_order hd) text (doc_name doc) -> names_ok (readable_name en (fh_byte_order hd) text) (doc_items doc) ->
    Forall (fun s => zlen s <= INT_MAX) (streams (doc_items doc)) ->
    program_bytes (h ++ [(ev0, CallClose)]) -> (item_count (doc_items doc) < fuel)%nat ->
    walk_file en ev fuel (snd (py_run en (h ++ [(ev0, CallClose)]) py_start)) =
    Some {| doc_name := text (doc_name doc); doc_ctime := doc_ctime doc; doc_mtime := doc_mtime doc;
            doc_items := named_as text (doc_items doc) |}.
Proof.
  intros en ev text hd root doc h ev0 fuel Hen Hh HH HF Ho HN HNs HL Hb Hf.
  destruct (closed_after en h ev0 Hen Hb) as (Hi & Hc & _).
  exact (walk_document en ev text hd root doc Hen Hh HH HF Ho HN HNs HL fuel _ Hi Hc Hf).
Qed.
Print Assumptions C64_walk.

Definition xi_name (n : list Z) : list Z := xf_strip (xf_units Little n).
Example C64_case :
  let ev := good_env (write (xw_format Little) xw_doc) in
  let h := on xf_env [CallOpen None; CallRootItem; OnItem 0 CallSubItems; OnSequence 1 CallNext; CallClose; CallClose] in
  (exists hd root, holds xf_una (ev_reader ev) hd root xw_doc /\ few_sectors hd xw_doc /\ fh_byte_order hd = Little) /\
  readable_name xi_env Little xi_name (doc_name xw_doc) /\ names_ok (readable_name xi_env Little xi_name) (doc_items xw_doc) /\
  item_count (doc_items xw_doc) = 7%nat /\
  walk_file xi_env ev 8 (snd (py_run xi_env (h ++ [(xf_env, CallClose)]) py_start)) =
  Some {| doc_name := [82]; doc_ctime := 0; doc_mtime := 132000000000000000;
          doc_items :=
            AddStream [97] 1 2 [10; 20; 30]
              (AddStorage [98] 3 (2 ^ 63)
                 (AddStorage [99] 0 0 (AddStream [100] 0 0 [] Empty)
                    (AddStream [101] 5 6 (map (fun k => Z.of_nat k mod 256) (seq 7 600)) Empty))
                 (AddStorage [] 0 0 Empty
                    (AddStream [97] 0 (2 ^ 64 - 1) (repeat 255 100) Empty))) |}.
Proof.
  cbv zeta. split.
  { destruct C61_case as [H _]. destruct (H Little) as (A & _ & C & D & _).
    exists (w_h (xw_format Little) xw_doc), (w_root (xw_format Little) xw_doc). split; [|split; [left; vm_compute; discriminate|reflexivity]].
    apply written_holds; auto; [exact xf_una_ok|apply file_reader_bytes, write_bytes, A|apply file_reader_sound|apply file_reader_total|discriminate]. }
  split; [split; vm_compute; reflexivity|]. split; [cbn [names_ok doc_items xw_doc]; repeat split; vm_compute; reflexivity|].
  split; [reflexivity|]. vm_compute. reflexivity.
Qed.

(** ** C65 *)
Theorem C65_format_version :
  forall en f h1 ev call h2, pyenv_ok en -> program_bytes (h1 ++ (ev, call) :: h2) -> opens call ->
    nth_error (fst (py_run en (h1 ++ (ev, call) :: h2) py_start)) (length h1) = Some ANone -> no_close (map snd h2) ->
    io_sound (ev_reader ev) f ->
    exists e, header_acceptable (slice f 0 512) e /\
      forall ev', ask en (h1 ++ (ev, call) :: h2) ev' CallFormatVersion =
        version_answer (value_at e (slice f 0 512) 26 2) (value_at e (slice f 0 512) 24 2).
Proof. intros en f h1 ev call h2 Hen. exact (format_version_exact en Hen f h1 ev call h2). Qed.
Print Assumptions C65_format_version.

(** A file of the version 3.0, and one of the version 3.62. *)
Definition xi_version (minor : Z) : list Z :=
  slice (xf_file Little) 0 24 ++ [minor; 0; 3; 0] ++ slice (xf_file Little) 28 4068.
Lemma xi_version_bytes minor : 0 <= minor < 256 -> env_bytes (good_env (xi_version minor)).
Proof.
  intros H. apply file_reader_bytes. unfold xi_version. apply Forall_app. split; [apply xf_bytes_ok; vm_compute; reflexivity|].
  apply Forall_app. split; [|apply xf_bytes_ok; vm_compute; reflexivity]. repeat constructor; unfold is_byte; lia.
Qed.
Example C65_case :
  fst (py_run xi_env (on (good_env (xi_version 7)) [CallFormatVersion; CallOpen None; CallFormatVersion; CallClose; CallFormatVersion]) py_start)
  = [AText [48; 46; 48]; ANone; AText [51; 46; 55]; ANone; AText [48; 46; 48]] /\
  version_answer 3 7 = AText [51; 46; 55].
Proof. split; vm_compute; reflexivity. Qed.

(** No file of a version that the documentation of the format lists, 3.33, 3.62
    and 4.62, has a format version in Python. *)
Theorem C65_documented :
  forall en f h1 ev call h2, pyenv_ok en -> program_bytes (h1 ++ (ev, call) :: h2) -> opens call ->
    nth_error (fst (py_run en (h1 ++ (ev, call) :: h2) py_start)) (length h1) = Some ANone -> no_close (map snd h2) ->
    io_sound (ev_reader ev) f ->
    (forall e, header_acceptable (slice f 0 512) e ->
       In (value_at e (slice f 0 512) 26 2, value_at e (slice f 0 512) 24 2) [(3, 33); (3, 62); (4, 62)]) ->
    forall ev', ask en (h1 ++ (ev, call) :: h2) ev' CallFormatVersion = ARaise ValueError.
Proof.
  intros en f h1 ev call h2 Hen Hb Ho Ha Hn HS HV ev'.
  destruct (C65_format_version en f h1 ev call h2 Hen Hb Ho Ha Hn HS) as (e & Hacc & ->).
  destruct (HV e Hacc) as [E|[E|[E|[]]]]; injection E as <- <-; reflexivity.
Qed.
Print Assumptions C65_documented.

Theorem C65_usual_refuted :
  exists en f h, pyenv_ok en /\ program_bytes h /\ value_at Little f 24 2 = 62 /\ value_at Little f 26 2 = 3 /\
    h = on (good_env f) [CallOpen None; CallFormatVersion] /\
    fst (py_run en h py_start) = [ANone; ARaise ValueError].
Proof.
  exists xi_env, (xi_version 62), (on (good_env (xi_version 62)) [CallOpen None; CallFormatVersion]).
  split; [exact xi_env_ok|]. split; [apply on_bytes, xi_version_bytes; lia|].
  split; [vm_compute; reflexivity|]. split; [vm_compute; reflexivity|]. split; [reflexivity|]. vm_compute. reflexivity.
Qed.
Print Assumptions C65_usual_refuted.

(** ** C66 *)
Theorem C66_file_object :
  forall en h ev call a, pyenv_ok en -> program_bytes h -> env_bytes ev ->
    file_answer en ev (py_tracked en (combine (map snd h) (fst (py_run en h py_start)))) call = Some a ->
    ask en h ev call = a.
Proof. intros en h ev call a Hen. exact (file_object en Hen h ev call a). Qed.
Print Assumptions C66_file_object.

(** The name of the codepage is always known. *)
Theorem C66_codepage :
  forall en h ev, pyenv_ok en -> program_bytes h -> env_bytes ev ->
    exists c l, In (c, l) codepage_names /\ ask en h ev CallGetCodepage = ABytes (characters l).
Proof.
  intros en h ev Hen Hb HB.
  assert (H0 : py_agrees (None, 1252) py_start) by (split; [reflexivity|split; [reflexivity|vm_compute; discriminate]]).
  destruct (track_run en Hen h py_start _ (start_inv en) Hb H0) as (_ & _ & Hn).
  set (st := fold_left _ _ _) in Hn.
  destruct (codepage_name (snd st)) as [l|] eqn:El; [|congruence].
  pose proof (C66_file_object en h ev CallGetCodepage (ABytes l) Hen Hb HB) as H. cbn [file_answer] in H.
  unfold py_tracked in H. fold st in H. rewrite El in H. specialize (H eq_refl).
  unfold codepage_name in El. destruct (find _ codepage_names) as [[c s]|] eqn:Ef; [|discriminate]. injection El as <-.
  apply find_some in Ef as [Hin _]. exists c, s. auto.
Qed.
Print Assumptions C66_codepage.

Lemma in_numbers a n c : a <= c < a + Z.of_nat n -> In c (map (fun k => a + Z.of_nat k) (seq 0 n)).
Proof.
  intros H. apply in_map_iff. exists (Z.to_nat (c - a)). split; [lia|]. apply in_seq. lia.
Qed.

(** The names of all codepages that there are. *)
Theorem C66_codepage_strings :
  forall c l, codepage_to_string c = Some l <->
    exists s, In (c, s) (codepage_names ++ further_codepage_names) /\ l = characters s.
Proof.
  assert (Hin : forall c s, In (c, s) (codepage_names ++ further_codepage_names) ->
                codepage_to_string c = Some (characters s)).
  { intros c s H. cbn [app codepage_names further_codepage_names] in H.
    repeat (destruct H as [H|H]; [injection H as <- <-; vm_compute; reflexivity|]). destruct H. }
  assert (Hout : forall c, codepage_to_string c <> None ->
                 In c (map fst (codepage_names ++ further_codepage_names))).
  { intros c H. unfold codepage_to_string in H.
    destruct (c =? 20127) eqn:E; [apply Z.eqb_eq in E as ->; cbn; tauto|clear E].
    destruct (_ && _) eqn:E in H.
    { apply andb_true_iff in E as [E1 E2]. apply Z.leb_le in E1. apply Z.leb_le in E2. clear H.
      assert (H := in_numbers 28591 9 c ltac:(lia)). cbn in H.
      repeat (destruct H as [<-|H]; [cbn; tauto|]). destruct H. }
    clear E. destruct (_ && _) eqn:E in H.
    { apply andb_true_iff in E as [E E3]. apply andb_true_iff in E as [E1 E2].
      apply Z.leb_le in E1. apply Z.leb_le in E2. clear H.
      assert (H := in_numbers 28600 7 c ltac:(lia)). cbn in H.
      repeat (destruct H as [<-|H]; [first [discriminate E3 | cbn; tauto]|]). destruct H. }
    clear E. do 7 (match type of H with (if ?b then _ else _) <> _ => destruct b eqn:E end;
      [apply Z.eqb_eq in E as ->; cbn; tauto|clear E]).
    destruct (_ && _) eqn:E in H; [|congruence].
    apply andb_true_iff in E as [E1 E2]. apply Z.leb_le in E1. apply Z.leb_le in E2. clear H.
    assert (H := in_numbers 1250 9 c ltac:(lia)). cbn in H.
    repeat (destruct H as [<-|H]; [cbn; tauto|]). destruct H. }
  intros c l. split.
  - intros H. assert (Hc : codepage_to_string c <> None) by congruence.
    apply Hout in Hc. apply in_map_iff in Hc as ([c' s] & Ec & Hc). cbn in Ec. subst c'.
    exists s. split; [exact Hc|]. apply Hin in Hc. congruence.
  - intros (s & H & ->). auto.
Qed.
Print Assumptions C66_codepage_strings.

Definition xi_latin := text_iso_8859 ++ [49].
Definition xi_cp932 := [99; 112; 57; 51; 50].
Example C66_case :
  fst (py_run xi_env
    [(xf_env, CallClose); (cut_env, CallOpen None); (xf_env, CallOpen (Some [119])); (xf_env, CallOpen (Some []));
     (xf_env, CallSetCodepage xi_cp932); (xf_env, CallGetCodepage); (xf_env, CallSetCodepage xi_latin);
     (xf_env, CallSetCodepage [120]); (xf_env, CallSetCodepage [0]); (xf_env, CallRootItem);
     (xf_env, CallOpenObject (Some [114; 98])); (xf_env, CallOpenObject None); (xf_env, CallOpen None); (xf_env, CallGetCodepage);
     (xf_env, CallClose); (xf_env, CallGetCodepage); (xf_env, CallOpen None); (xf_env, CallSignalAbort)] py_start) =
  [ARaise IOError; ARaise IOError; ARaise ValueError; ARaise ValueError;
   ANone; ABytes xi_cp932; ARaise IOError; ARaise RuntimeError; ARaise ValueError; ANone;
   ANone; ARaise IOError; ARaise IOError; ABytes xi_cp932;
   ANone; ABytes [99; 112; 49; 50; 53; 50]; ANone; ANone].
Proof. vm_compute. reflexivity. Qed.

(** ** C67 *)
Theorem C67_class :
  forall en h1 ev call h2 i, pyenv_ok en -> program_bytes (h1 ++ (ev, call) :: h2) -> gives_sub_item call = true ->
    nth_error (fst (py_run en (h1 ++ (ev, call) :: h2) py_start)) (length h1) = Some (AObject i) -> no_close (map snd h2) ->
    exists c, forall ev', ask en (h1 ++ (ev, call) :: h2) ev' (OnItem i CallType) = AClass c /\
      (c = ClassItem <-> ask en (h1 ++ (ev, call) :: h2) ev' (OnItem i (CallStream PyTell)) = ARaise AttributeError) /\
      forall n, ask en (h1 ++ (ev, call) :: h2) ev' (OnItem i CallName) = AText n ->
        (c = ClassPropertySetStream <-> c <> ClassItem /\ property_set_name n).
Proof. intros en h1 ev call h2 i Hen. exact (class_of_sub_item en Hen h1 ev call h2 i). Qed.
Print Assumptions C67_class.

Theorem C67_file_item :
  forall en h1 ev call h2 i, program_bytes (h1 ++ (ev, call) :: h2) ->
    (call = CallRootItem \/ exists path, call = CallItemByPath path) ->
    nth_error (fst (py_run en (h1 ++ (ev, call) :: h2) py_start)) (length h1) = Some (AObject i) ->
    forall ev', ask en (h1 ++ (ev, call) :: h2) ev' (OnItem i CallType) = AClass ClassItem \/
                ask en (h1 ++ (ev, call) :: h2) ev' (OnItem i CallType) = AClass ClassStream.
Proof. exact class_of_file_item. Qed.
Print Assumptions C67_file_item.

(** A file with "\005SummaryInformation". *)
Definition xi_summary_file : list Z :=
  xf_file_of Little xf_sat
    (slice (xf_slots Little) 0 256 ++ xf_slot Little summary_name 2 1 4 FREE 4 600 ++ slice (xf_slots Little) 384 640).
Lemma xi_summary_bytes : env_bytes (good_env xi_summary_file).
Proof. apply file_reader_bytes, xf_bytes_ok. vm_compute. reflexivity. Qed.

Example C67_case :
  fst (py_run xi_env (on (good_env xi_summary_file)
    [CallOpen None; CallRootItem; OnItem 0 (CallSubItem (PInt 0)); OnItem 0 (CallSubItem (PInt 1)); OnItem 0 (CallSubItem (PInt 2));
     OnItem 0 CallType; OnItem 1 CallType; OnItem 2 CallType; OnItem 3 CallType; OnItem 2 CallName; OnItem 3 (CallStream PyTell);
     OnItem 0 (CallByName summary_name); OnItem 4 CallType]) py_start) =
  [ANone; AObject 0; AObject 1; AObject 2; AObject 3;
   AClass ClassItem; AClass ClassStream; AClass ClassPropertySetStream; AClass ClassItem; AText summary_name; ARaise AttributeError;
   AObject 4; AClass ClassPropertySetStream].
Proof. vm_compute. reflexivity. Qed.

(** The same item is of another class if it is taken by its path from the file
    object, and lacks the methods of a property set then. *)
Theorem C67_same_item_refuted :
  exists en ev, pyenv_ok en /\ env_bytes ev /\
    fst (py_run en (on ev [CallOpen None; CallItemByPath (92 :: summary_name); CallRootItem; OnItem 1 (CallByPath summary_name);
                           OnItem 0 CallName; OnItem 2 CallName; OnItem 0 CallType; OnItem 2 CallType]) py_start) =
    [ANone; AObject 0; AObject 1; AObject 2; AText summary_name; AText summary_name; AClass ClassStream; AClass ClassPropertySetStream].
Proof.
  exists xi_env, (good_env xi_summary_file). split; [exact xi_env_ok|]. split; [exact xi_summary_bytes|]. vm_compute. reflexivity.
Qed.
Print Assumptions C67_same_item_refuted.

(** ** C68 *)
Theorem C68_apart :
  forall en h h2 ev i c q, pyenv_ok en -> program_bytes h -> program_bytes h2 -> no_close (map snd h2) -> apart_from i h2 ->
    ask en h ev (OnItem i CallType) = AClass c ->
    ask en (h ++ h2) ev (OnItem i q) = ask en h ev (OnItem i q) \/
    exists x y, ask en (h ++ h2) ev (OnItem i q) = AObject x /\ ask en h ev (OnItem i q) = AObject y.
Proof. intros en h h2 ev i c q Hen Hb Hb2 Hn Ha Hc. exact (others_apart en Hen h h2 ev i q Hb Hb2 Hn Ha c Hc). Qed.
Print Assumptions C68_apart.

(** Two objects for one stream, each with its own position. *)
Example C68_case :
  let h := [CallOpen None; CallItemByPath [92; 97; 98]; OnItem 0 (CallStream (PyRead (Some (PInt 5))))] in
  let h2 := [CallItemByPath [92; 97; 98]; OnItem 1 (CallStream (PyRead (Some (PInt 9)))); OnItem 1 (CallStream PyTell); CallOpen None] in
  no_close h2 /\ apart_from 0 (on xf_env h2) /\
  answers (h ++ h2 ++ [OnItem 0 (CallStream PyTell); OnItem 0 (CallStream (PyRead (Some (PInt 2))))]) =
  [ANone; AObject 0; ABytes [0; 1; 2; 3; 4]; AObject 1; ABytes [0; 1; 2; 3; 4; 5; 6; 7; 8]; ANumber 9; ARaise IOError; ANumber 5; ABytes [5; 6]].
Proof.
  cbv zeta. split; [repeat constructor; discriminate|]. split; [repeat constructor; discriminate|]. vm_compute. reflexivity.
Qed.
