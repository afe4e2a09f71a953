(** Properties of the functions of the Python module: C77. *)
From Coq Require Import ZArith List Bool Lia.
From Verif Require Import Base Spec_IO M_Header M_Table M_Load M_Stream M_Tree M_Open M_Item M_File M_Time M_Python M_Items M_Module
  Spec_Stream Spec_Load Spec_Open Spec_Tree Spec_Item Spec_File Spec_Python Spec_Write Spec_Items Spec_Module
  L_Base L_File L_Python L_Items L_Items2 L_Items3 X_File P_File P_Python P_Items.
Import ListNotations.
Open Scope Z_scope.

Lemma c_string_id n : ~ In 0 n -> c_string n = n.
Proof.
  induction n as [|c n IH]; [reflexivity|]. cbn. intros H. destruct (c =? 0) eqn:E.
  - apply Z.eqb_eq in E. subst c. tauto.
  - rewrite IH by tauto. reflexivity.
Qed.

Lemma names_narrow encode a n : names encode a n -> narrow_name encode a = inr n /\ zlen n =? 0 = false.
Proof.
  intros (Ha & Hn & He). split.
  - destruct Ha as [-> | (s & -> & Hs)]; cbn; rewrite ?Hs, (c_string_id n Hn); reflexivity.
  - destruct n; [congruence|]. rewrite zlen_cons. apply Z.eqb_neq. pose proof (zlen_nonneg n). lia.
Qed.

Lemma check_defined rd : defined (fst (check_signature rd [])).
Proof.
  unfold check_signature, read_exact, read_at, ibind, iret, ierr.
  destruct (rd [] 0 8) as [l|]; [|exact I]. destruct (zlen l =? 8); exact I.
Qed.

Lemma signature_reader rd f : io_sound rd f -> io_total rd f ->
  signature_answer f (bool_answer (fst (check_signature rd []))).
Proof.
  intros HS HT. destruct (C16_signature_check rd f HS HT) as [H1 H2]. split; [|split].
  - intros H. rewrite (H1 H). reflexivity.
  - intros H Hs. destruct (H2 H) as (b & -> & Hb). cbn. f_equal. apply Hb, Hs.
  - intros H Hs. destruct (H2 H) as (b & -> & Hb). cbn. f_equal. destruct b; [|reflexivity].
    exfalso. apply Hs, Hb. reflexivity.
Qed.

(** C77: the signature check, by name and with a file object. *)
Theorem C77_check :
  forall encode sy a n f, names encode a n -> healthy sy n f ->
    signature_answer f (module_check encode sy a).
Proof.
  intros encode sy a n f Hn (H1 & H2 & H3 & H4 & H5 & HS & HT & _).
  unfold module_check. destruct (names_narrow _ _ _ Hn) as [-> E]. unfold check_signature_name.
  rewrite E, H1, H2. cbn [negb]. rewrite C16_on_handle by assumption. apply signature_reader; assumption.
Qed.
Print Assumptions C77_check.

Theorem C77_check_object :
  forall (S : Type) (ob : pyobject S) f pos s,
    file_like ob f pos -> gives_bytes ob -> reliable ob f pos -> zlen f <= SSIZE_MAX ->
    signature_answer f (module_check_object ob s).
Proof.
  intros S ob f pos s HL HB HR Hf. apply signature_reader.
  - apply (C58_reader S ob f pos s HL HB).
  - apply (C58_reliable S ob f pos s HR Hf).
Qed.
Print Assumptions C77_check_object.

(** If something goes wrong, or the argument is not a name. *)
Theorem C77_check_fails :
  forall encode sy a,
    (forall n, names encode a n ->
       sy_handle sy = false \/ sy_name sy n = false \/ ev_open (sy_env sy n) = false ->
       module_check encode sy a = MRaise IOError) /\
    (a = NBytes [] -> module_check encode sy a = MRaise IOError) /\
    (a = NOther -> module_check encode sy a = MRaise TypeError) /\
    (forall s, a = NStr s -> encode s = None -> module_check encode sy a = MRaise RuntimeError) /\
    module_check encode sy a <> MUndef.
Proof.
  intros encode sy a. split; [|split; [|split; [|split]]].
  - intros n Hn H. unfold module_check. destruct (names_narrow _ _ _ Hn) as [-> E]. unfold check_signature_name.
    rewrite E. destruct (sy_handle sy) eqn:E1; [|reflexivity]. destruct (sy_name sy n) eqn:E2; [|reflexivity].
    destruct H as [H|[H|H]]; try discriminate. cbn [negb]. unfold check_signature_handle. rewrite H.
    destruct (ev_is_open (sy_env sy n)); reflexivity.
  - intros ->. reflexivity.
  - intros ->. reflexivity.
  - intros s -> H. unfold module_check. cbn. rewrite H. reflexivity.
  - unfold module_check. destruct (narrow_name encode a) as [x|n]; [discriminate|]. unfold check_signature_name.
    destruct (zlen n =? 0); [discriminate|]. destruct (negb _); [discriminate|]. destruct (negb _); [discriminate|].
    unfold check_signature_handle. destruct (negb _); [discriminate|]. cbn.
    destruct (negb _); [discriminate|]. pose proof (check_defined (ev_reader (sy_env sy n))) as H.
    destruct (fst (check_signature _ [])) as [b| | |]; try contradiction; [destruct (ev_close _)|]; discriminate.
Qed.
Print Assumptions C77_check_fails.

Lemma read_mode_ok mode : read_mode mode <-> mode_accepted mode = true.
Proof.
  destruct mode as [[|c m]|]; cbn; split; intros H; auto; try discriminate.
  - destruct H as [r H]; discriminate.
  - destruct H as [r H]. injection H as -> _. reflexivity.
  - apply Z.eqb_eq in H. subst c. eauto.
Qed.

Lemma start_open en ev mode : pyenv_ok en -> env_bytes ev ->
  let (a, w) := py_step en ev py_start (CallOpen mode) in
  (a = ANone -> read_mode mode /\ ev_is_open ev = true /\ ev_open ev = true /\
     exists o t, open_read (pe_una en) (ev_reader ev) [] = (Ok o, t)) /\
  (a <> ANone -> read_mode mode -> a = ARaise IOError /\
     (ev_is_open ev = true -> ev_open ev = true -> forall o t, open_read (pe_una en) (ev_reader ev) [] <> (Ok o, t))).
Proof.
  intros Hen HB. destruct (open_step en Hen ev py_start true mode (start_inv en) HB) as (H & _).
  cbn [negb orb] in H. destruct (py_step en ev py_start (CallOpen mode)) as [a w]. cbn [fst] in H.
  change (how_open (pw_state py_start)) with (@None bool) in H. unfold open_answer in H. subst a.
  assert (Hm : match mode with None => true | Some m => match m with c :: _ => c =? 114 | [] => false end end = mode_accepted mode)
    by (destruct mode as [[|c m]|]; reflexivity).
  rewrite Hm. clear Hm. rewrite read_mode_ok.
  destruct (mode_accepted mode); [|split; discriminate].
  rewrite orb_false_r. destruct (ev_is_open ev), (ev_open ev); cbn [andb];
    try (split; [discriminate|intros _ _; split; [reflexivity|discriminate]]).
  destruct (open_read (pe_una en) (ev_reader ev) []) as [r t]. cbn [fst]. destruct r.
  - split; [|congruence]. intros _. eauto 6.
  - split; [discriminate|]. intros _ _. split; [reflexivity|]. congruence.
  - split; [discriminate|]. intros _ _. split; [reflexivity|]. congruence.
  - split; [discriminate|]. intros _ _. split; [reflexivity|]. congruence.
Qed.

(** open() of the module gives a file object exactly if the mode is one for
    reading and the library opens the file; this object is like one that was
    made and opened by the method open. *)
Theorem C77_open :
  forall encode en sy a n f mode, pyenv_ok en -> names encode a n -> healthy sy n f ->
    ((exists w, module_open encode en sy a mode = MFile w) <->
     read_mode mode /\ exists o t, open_read (pe_una en) (ev_reader (sy_env sy n)) [] = (Ok o, t)) /\
    (read_mode mode \/ module_open encode en sy a mode = MRaise ValueError) /\
    forall w h, module_open encode en sy a mode = MFile w ->
      ANone :: fst (py_run en h w) = fst (py_run en ((sy_env sy n, CallOpen mode) :: h) py_start).
Proof.
  intros encode en sy a n f mode Hen Hn (H1 & H2 & H3 & H4 & _ & _ & _ & HB).
  unfold module_open, open_name. destruct (names_narrow _ _ _ Hn) as [-> _]. rewrite H1, H2. cbn [negb orb].
  pose proof (start_open en (sy_env sy n) mode Hen HB) as H.
  cbn [py_run]. destruct (py_step en (sy_env sy n) py_start (CallOpen mode)) as [r w'].
  destruct H as [Ha Hb]. rewrite read_mode_ok in Ha, Hb |- *. destruct (mode_accepted mode); cbn [negb].
  - split; [|split; [auto|]].
    + destruct (match r with ANone => true | _ => false end) eqn:Er.
      * destruct r; try discriminate. destruct (Ha eq_refl) as (_ & _ & _ & Ho). cbn.
        split; [intros _; auto|intros _; eauto].
      * assert (Hr : r <> ANone) by (intros ->; discriminate). destruct (Hb Hr eq_refl) as [-> Hc]. cbn.
        split; [intros [w Hw]; discriminate|]. intros [_ (o & t & Ho)]. exfalso. exact (Hc H3 H4 o t Ho).
    + intros w h Hw. destruct r; try discriminate. injection Hw as ->. destruct (py_run en h w). reflexivity.
  - split; [split; [intros [w Hw]; discriminate|intros [Hx _]; discriminate]|]. split; [auto|].
    intros w h Hw. discriminate.
Qed.
Print Assumptions C77_open.

(** What opens has the signature. *)
Theorem C77_open_checks :
  forall encode en sy a n f mode w, pyenv_ok en -> names encode a n -> healthy sy n f ->
    module_open encode en sy a mode = MFile w -> module_check encode sy a = MBool true.
Proof.
  intros encode en sy a n f mode w Hen Hn Hh Hw.
  destruct (proj1 (proj1 (C77_open encode en sy a n f mode Hen Hn Hh)) (ex_intro _ w Hw)) as (_ & o & t & Ho).
  destruct Hh as (H1 & H2 & H3 & H4 & H5 & HS & HT & HB).
  unfold module_check. destruct (names_narrow _ _ _ Hn) as [-> E]. unfold check_signature_name.
  rewrite E, H1, H2. cbn [negb]. rewrite C16_on_handle by assumption.
  rewrite (C16_open_implies_check (pe_una en) _ _ f o t (po_una en Hen) HB HS HS HT Ho). reflexivity.
Qed.
Print Assumptions C77_open_checks.

(** open_file_object() with an object over the bytes [f]. *)
Theorem C77_open_object :
  forall (S : Type) en (ob : pyobject S) f pos s mode, pyenv_ok en ->
    file_like ob f pos -> gives_bytes ob ->
    ((exists w, module_open_object en true true true ob s mode = MFile w) <->
     read_mode mode /\ exists o t, open_read (pe_una en) (object_reader ob s) [] = (Ok o, t)) /\
    (read_mode mode -> forall r k b, r && k = false ->
       module_open_object en r k b ob s mode = MRaise TypeError) /\
    forall r k b, module_open_object en r k b ob s mode <> MUndef.
Proof.
  intros S en ob f pos s mode Hen HL HG.
  assert (HB : io_bytes (object_reader ob s)) by apply (C58_reader S ob f pos s HL HG).
  set (ev b := {| ev_is_open := b; ev_open := true; ev_close := true; ev_reader := object_reader ob s |}).
  assert (Hst : forall b, fst (py_step en (ev b) py_start (CallOpenObject mode)) = open_answer en (ev b) mode None b).
  { intros b. destruct (open_step en Hen (ev b) py_start false mode (start_inv en) HB) as (H & _). rewrite H.
    cbn. now rewrite andb_true_r. }
  assert (Hm : match mode with None => true | Some m => match m with c :: _ => c =? 114 | [] => false end end = mode_accepted mode)
    by (destruct mode as [[|c m]|]; reflexivity).
  unfold open_answer in Hst. rewrite Hm in Hst. rewrite read_mode_ok. unfold module_open_object.
  destruct (mode_accepted mode) eqn:Em; cbn [negb].
  2:{ split; [split; [intros [w Hw]; discriminate|intros [Hx _]; discriminate]|]. split; [discriminate|]. discriminate. }
  split; [|split].
  - cbn [orb]. fold (ev true). specialize (Hst true). unfold new_object.
    destruct (py_step en (ev true) py_start (CallOpenObject mode)) as [r w']. cbn [fst ev ev_reader] in Hst. subst r.
    destruct (open_read (pe_una en) (object_reader ob s) []) as [r t]. cbn [fst]. destruct r.
    + split; intros _; eauto.
    + split; [intros [w Hw]; discriminate|intros (_ & o & t' & Ho); discriminate].
    + split; [intros [w Hw]; discriminate|intros (_ & o & t' & Ho); discriminate].
    + split; [intros [w Hw]; discriminate|intros (_ & o & t' & Ho); discriminate].
  - intros _ r k b Hrk. destruct r, k; try discriminate; reflexivity.
  - intros r k b. destruct (negb r || negb k); [discriminate|]. fold (ev b). specialize (Hst b).
    unfold new_object. destruct (py_step en (ev b) py_start (CallOpenObject mode)) as [x w']. cbn [fst] in Hst. subst x.
    destruct b; [|discriminate]. destruct (fst (open_read _ _ _)); discriminate.
Qed.
Print Assumptions C77_open_object.

(** ** Cases *)
(** Two files: "a" with the sample file, "b" with its first 512 bytes; nothing
    else. *)
Definition xd_system : system :=
  {| sy_handle := true; sy_name := fun _ => true;
     sy_env := fun n =>
       if xf_eqb n [97] then xf_env
       else if xf_eqb n [98] then cut_env
       else {| ev_is_open := true; ev_open := false; ev_close := true; ev_reader := ev_reader xf_env |} |}.
Definition xd_encode (s : list Z) : option (list Z) := if forallb (fun c => c <? 128) s then Some s else None.

Example C77_case :
  names xd_encode (NStr [97]) [97] /\ healthy xd_system [97] (xf_file Little) /\
  names xd_encode (NBytes [98]) [98] /\ healthy xd_system [98] (slice (xf_file Little) 0 512) /\
  module_check xd_encode xd_system (NStr [97]) = MBool true /\
  module_check xd_encode xd_system (NBytes [98]) = MBool true /\
  module_check xd_encode xd_system (NBytes [99]) = MRaise IOError /\
  module_check xd_encode xd_system (NStr [8364]) = MRaise RuntimeError /\
  module_check_object (plain_object [1; 2; 3; 4; 5; 6; 7; 8]) 3 = MBool false /\
  (exists w, module_open xd_encode xi_env xd_system (NStr [97]) None = MFile w) /\
  module_open xd_encode xi_env xd_system (NStr [97]) (Some [119]) = MRaise ValueError /\
  module_open xd_encode xi_env xd_system (NBytes [98]) None = MRaise IOError /\
  (exists w, module_open_object xi_env true true true (plain_object (xf_file Little)) 0 (Some [114]) = MFile w).
Proof.
  assert (HF : Forall is_byte (xf_file Little)).
  { apply Forall_forall. intros b Hb.
    assert (forallb (fun b => (0 <=? b) && (b <? 256)) (xf_file Little) = true) as H by (vm_compute; reflexivity).
    rewrite forallb_forall in H. specialize (H b Hb). unfold is_byte. lia. }
  assert (HC : Forall is_byte (slice (xf_file Little) 0 512)).
  { apply Forall_forall. intros b Hb. eapply Forall_forall; [exact HF|].
    unfold slice in Hb. change (Z.to_nat 0) with O in Hb. cbn [skipn] in Hb.
    rewrite <- (firstn_skipn (Z.to_nat 512)). apply in_app_iff. left. exact Hb. }
  split. { split; [right; exists [97]; split; reflexivity|]. split; [intros [H|[]]; discriminate|discriminate]. }
  split. { repeat (split; [reflexivity|]). split; [apply file_reader_sound|]. split; [apply file_reader_total|].
           apply file_reader_bytes. exact HF. }
  split. { split; [left; reflexivity|]. split; [intros [H|[]]; discriminate|discriminate]. }
  split. { repeat (split; [reflexivity|]). split; [apply file_reader_sound|]. split; [apply file_reader_total|].
           apply file_reader_bytes. exact HC. }
  split; [vm_compute; reflexivity|]. split; [vm_compute; reflexivity|]. split; [vm_compute; reflexivity|].
  split; [vm_compute; reflexivity|]. split; [vm_compute; reflexivity|].
  split. { assert (H : match module_open xd_encode xi_env xd_system (NStr [97]) None with MFile _ => true | _ => false end = true)
             by (vm_compute; reflexivity). destruct (module_open _ _ _ _ _); try discriminate. eauto. }
  split; [vm_compute; reflexivity|]. split; [vm_compute; reflexivity|].
  assert (H : match module_open_object xi_env true true true (plain_object (xf_file Little)) 0 (Some [114]) with MFile _ => true | _ => false end = true)
    by (vm_compute; reflexivity). destruct (module_open_object _ _ _ _ _ _ _); try discriminate. eauto.
Qed.

(** Python refuses names with a NUL; here the name ends at it, and another file
    is opened. *)
Theorem C77_nul_refuted :
  exists w, module_open xd_encode xi_env xd_system (NStr [97; 0; 98]) None = MFile w /\
            module_check xd_encode xd_system (NBytes [97; 0; 98]) = MBool true.
Proof.
  assert (H : match module_open xd_encode xi_env xd_system (NStr [97; 0; 98]) None with MFile _ => true | _ => false end = true)
    by (vm_compute; reflexivity).
  destruct (module_open _ _ _ _ _) as [|w| |]; try discriminate. exists w. split; [reflexivity|]. vm_compute. reflexivity.
Qed.
Print Assumptions C77_nul_refuted.

(** An object without the methods of a file: the two functions differ. *)
Definition no_file : pyobject unit := {|
  po_read := fun _ s => (None, s); po_seek := fun _ _ s => (None, s); po_tell := fun s => (None, s);
  po_has_get_offset := fun _ => false; po_get_offset := fun s => (None, s);
  po_has_get_size := fun _ => false; po_get_size := fun s => (None, s) |}.
Theorem C77_wrong_object_refuted :
  module_check_object no_file tt = MRaise IOError /\
  module_open_object xi_env false false true no_file tt None = MRaise TypeError.
Proof. split; vm_compute; reflexivity. Qed.
Print Assumptions C77_wrong_object_refuted.
