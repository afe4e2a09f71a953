(** Lemmas on what olecfinfo prints: pieces, numbers, names and property sets. *)
From Coq Require Import String ZArith List Bool Lia Arith.
From Verif Require Import Base Spec_IO M_Table M_Header M_Load M_Stream M_Tree M_Open M_Item M_Mount M_File
  M_Prop M_PyProp M_Info Spec_Stream Spec_Content Spec_Tree Spec_Prop Spec_PyProp Spec_Info
  L_Base L_Prop L_Prop2 L_Prop3 L_PyProp L_Info.
Import ListNotations.
Open Scope Z_scope.

(** * Pieces *)
Definition prints (m : pio unit) (l : list (option (list Z))) : Prop :=
  forall w, exists t', m w = (if snd (printed l) then Ok tt else Err,
                              {| p_out := p_out w ++ fst (printed l); p_trace := t' |}).

Lemma printed_app a b : printed (a ++ b) =
  if snd (printed a) then (fst (printed a) ++ fst (printed b), snd (printed b))
  else (fst (printed a), false).
Proof.
  induction a as [|[x|] a IH]; cbn [app printed fst snd].
  - now destruct (printed b).
  - rewrite IH. destruct (snd (printed a)); cbn [fst snd]; [now rewrite app_assoc|reflexivity].
  - reflexivity.
Qed.

Lemma prints_ret : prints (pret tt) [].
Proof.
  intros w. exists (p_trace w). cbn. rewrite app_nil_r. destruct w. reflexivity.
Qed.

Lemma prints_print l : prints (print l) [Some l].
Proof. intros w. exists (p_trace w). cbn. rewrite app_nil_r. reflexivity. Qed.

Lemma prints_err : prints (plift Err) [None].
Proof. intros w. exists (p_trace w). cbn. rewrite app_nil_r. destruct w. reflexivity. Qed.

Lemma prints_bind m k a b : prints m a -> prints (k tt) b -> prints (pbind m k) (a ++ b).
Proof.
  intros Hm Hk w. destruct (Hm w) as (t & Ht). unfold pbind. rewrite Ht, printed_app.
  destruct (snd (printed a)).
  - destruct (Hk {| p_out := p_out w ++ fst (printed a); p_trace := t |}) as (t' & Ht').
    exists t'. rewrite Ht'. cbn [fst snd p_out]. now rewrite app_assoc.
  - exists t. reflexivity.
Qed.

Lemma prints_lift {A} (r : res A) (k : A -> pio unit) x l : r = Ok x -> prints (k x) l ->
  prints (pbind (plift r) k) l.
Proof. intros -> H. exact H. Qed.

Lemma prints_lift_err {A} (r : res A) (k : A -> pio unit) : r = Err -> prints (pbind (plift r) k) [None].
Proof. intros ->. exact prints_err. Qed.

Lemma prints_same m a b : printed a = printed b -> prints m a -> prints m b.
Proof. intros E H w. rewrite <- E. apply H. Qed.

Lemma prints_merge k a b l : prints (pbind (print b) k) (Some b :: l) ->
  prints (pbind (print a) (fun _ => pbind (print b) k)) (Some (a ++ b) :: l).
Proof.
  intros H. apply (prints_same _ ([Some a] ++ Some b :: l)).
  - cbn. now rewrite app_assoc.
  - apply prints_bind; [apply prints_print|exact H].
Qed.

Lemma str_text s : str s = text_of s.
Proof.
  unfold str, text_of. apply map_ext. intros a. unfold Ascii.nat_of_ascii. now rewrite N_nat_Z.
Qed.

Ltac flat := repeat (progress cbn [app] || rewrite <- app_assoc).

(** * Buffers *)
Lemma c_string_before l rest : c_string (l ++ 0 :: rest) = before_nul l.
Proof.
  induction l as [|c l IH]; cbn [app c_string before_nul]; [reflexivity|].
  destruct (Z.eq_dec c 0) as [->|N]; [reflexivity|].
  rewrite (proj2 (Z.eqb_neq c 0) N), IH. reflexivity.
Qed.

Lemma prints_string l rest : prints (print_string (l ++ 0 :: rest)) [Some (before_nul l)].
Proof.
  unfold print_string. replace (existsb (Z.eqb 0) (l ++ 0 :: rest)) with true.
  - rewrite c_string_before. apply prints_print.
  - symmetry. apply existsb_exists. exists 0. split; [apply in_or_app; right; left; reflexivity|reflexivity].
Qed.

Lemma before_nul_all l : Forall (fun c => 0 < c < 128) l -> before_nul l = l.
Proof.
  induction 1 as [|c l Hc _ IH]; cbn [before_nul]; [reflexivity|].
  destruct (Z.eq_dec c 0); [lia|]. now rewrite IH.
Qed.

(** * Hexadecimal numbers *)
Lemma hex_same x : hex_char x = Spec_PyProp.hex_digit x.
Proof. reflexivity. Qed.

Lemma hex2 c : 0 <= c < 256 -> print_hex 2 c = hex_byte c.
Proof.
  intros H. cbn [print_hex app]. unfold hex_byte. rewrite !hex_same.
  rewrite (Z.mod_small (c / 16)) by (split; [apply Z.div_pos; lia|apply Z.div_lt_upper_bound; lia]).
  reflexivity.
Qed.

Lemma hex8 c : 0 <= c < 4294967296 -> str "0x" ++ print_hex 8 c = hex_number c.
Proof.
  intros H. rewrite str_text. unfold hex_number. f_equal. cbn [print_hex app]. unfold hex_byte. cbn [app].
  rewrite !hex_same. rewrite !Z.div_div by lia. cbn [Z.mul Pos.mul].
  assert (E : forall a, 0 < a -> c / a mod 256 / 16 = c / (a * 16) mod 16).
  { intros a Ha. rewrite <- (Z.div_div c a 16) by lia.
    change 256 with (16 * 16). rewrite Z.rem_mul_r by lia.
    rewrite Z.add_comm, Z.mul_comm, Z.div_add_l by lia.
    rewrite (Z.div_small (_ mod 16)) by (apply Z.mod_pos_bound; lia). lia. }
  assert (F : forall a, 0 < a -> c / a mod 256 mod 16 = c / a mod 16).
  { intros a Ha. change 256 with (16 * 16). rewrite Z.rem_mul_r by lia.
    rewrite Z.add_comm, Z.mul_comm, Z.add_comm, Z.mod_add by lia.
    apply Z.mod_mod. lia. }
  rewrite !E, !F by lia.
  pose proof (E 1 ltac:(lia)) as E1. pose proof (F 1 ltac:(lia)) as F1. rewrite !Z.div_1_r in E1, F1.
  rewrite E1, F1.
  rewrite (Z.mod_small (c / 268435456)) by (split; [apply Z.div_pos; lia|apply Z.div_lt_upper_bound; lia]).
  reflexivity.
Qed.

(** * The names of properties *)
Lemma find_skip {A} (p : A -> bool) x l : p x = false -> find p (x :: l) = find p l.
Proof. intros H. cbn. now rewrite H. Qed.

Lemma list_eqb_eq (a b : list Z) : list_eqb a b = true <-> a = b.
Proof.
  revert b. induction a as [|x a IH]; intros [|y b]; cbn; split; intros H; try discriminate; auto.
  - apply andb_prop in H as [H1 H2]. apply Z.eqb_eq in H1. apply IH in H2. congruence.
  - apply andb_true_intro. split; [apply Z.eqb_eq; congruence|]. apply IH. congruence.
Qed.

Definition entry_matches (a b : bool) (t id : Z) (x : known_set * list Z * Z * string) : bool :=
  match x with
  | (set, types, i, _) =>
      (match set with SummarySet => a | DocumentSet => b end) && existsb (Z.eqb t) types && (id =? i)
  end.

Lemma property_name_eq class t id :
  property_name class t id =
  match find (entry_matches (list_eqb class (known_class SummarySet))
                            (list_eqb class (known_class DocumentSet)) t id) known_properties with
  | Some (_, s) => Some s
  | None => None
  end.
Proof.
  unfold property_name.
  assert (E : forall l, find (fun x => match x with
                       | (set, types, i, _) =>
                           (if list_eq_dec Z.eq_dec class (known_class set) then true else false) &&
                           existsb (Z.eqb t) types && (id =? i)
                       end) l =
          find (entry_matches (list_eqb class (known_class SummarySet))
                            (list_eqb class (known_class DocumentSet)) t id) l).
  { induction l as [|[[[set types] i] s] l IH]; [reflexivity|]. cbn [find]. rewrite IH.
    assert (H : (if list_eq_dec Z.eq_dec class (known_class set) then true else false) =
                list_eqb class (known_class set)).
    { destruct (list_eq_dec Z.eq_dec class (known_class set)) as [H|H].
      - symmetry. now apply list_eqb_eq.
      - symmetry. apply not_true_is_false. intros H'. apply H. now apply list_eqb_eq. }
    rewrite H. destruct set; reflexivity. }
  now rewrite E.
Qed.

Lemma find_other t id l : find (entry_matches false false t id) l = None.
Proof. induction l as [|[[[[] ts] i] s] l IH]; [reflexivity|exact IH..]. Qed.

Ltac by_types t l :=
  match l with
  | [] => idtac
  | ?a :: ?r =>
      let N := fresh "N" in
      destruct (Z.eqb_spec t a) as [N|N];
      [subst t; cbv [find entry_matches known_properties existsb find_name]; cbn [Z.eqb Pos.eqb orb andb];
       repeat match goal with |- context [?x =? ?y] => destruct (x =? y); [reflexivity|] end; reflexivity
      |apply (proj2 (Z.eqb_neq _ _)) in N; by_types t r]
  end.

Lemma identifier_name_ok class t id : identifier_name class t id = property_name class t id.
Proof.
  rewrite property_name_eq. unfold identifier_name.
  change class_document_summary with (known_class DocumentSet).
  change class_summary with (known_class SummarySet).
  destruct (list_eqb class (known_class DocumentSet)) eqn:ED.
  - apply list_eqb_eq in ED. subst class.
    change (list_eqb (known_class DocumentSet) (known_class SummarySet)) with false.
    unfold document_names.
    by_types t [2; 3; 0xb; 0x1e; 0x1f; 0x100c; 0x101e; 0x101f; 0x40; 0x47].
    cbv [find entry_matches known_properties existsb].
    rewrite N, N0, N1, N2, N3, N4, N5, N6, N7, N8. reflexivity.
  - destruct (list_eqb class (known_class SummarySet)).
    + unfold summary_names. by_types t [2; 3; 0x1e; 0x1f; 0x40; 0x47; 0xb; 0x100c; 0x101e; 0x101f].
      cbv [find entry_matches known_properties existsb].
      rewrite N, N0, N1, N2, N3, N4, N5, N6, N7, N8. reflexivity.
    + now rewrite find_other.
Qed.

(** * Values *)
Section Values.
Variables (lib : infolib) (text : list Z -> fv_encoding -> option (list Z))
  (empty : fv_type -> option (list Z)) (names : list Z -> endian -> option (list Z))
  (date : Z -> option (list Z)).
Hypothesis HL : infolib_ok lib text empty names date.
Let HP := ik_prop _ _ _ _ _ HL.

Lemma before_eq : value_data_prefix = [9] ++ text_of "Value data" ++ [9; 9] ++ text_of ": ".
Proof. unfold value_data_prefix. now rewrite !str_text. Qed.

Lemma number_value cp e p k n : property_fine cp e p ->
  shape_of cp e (pv_type p) = Fixed k n ->
  In (k, 8 * n) [(FvBoolean, 8); (FvInteger16, 16); (FvInteger32, 32);
                 (FvInteger64, 64); (FvFiletime, 64)] ->
  exists l, stored p = Some l /\ zlen l = n /\ Forall is_byte l /\
    on_value p (lib_bits (pl_values (il_prop lib)) (8 * n)) = Ok (number_in e l).
Proof.
  intros (_ & _ & Hh & Hb) Hs Hin.
  destruct (bits_of (pl_values (il_prop lib)) cp e p k n (pk_decodes _ _ HP) Hh Hs Hin) as (l & H1 & H2 & H3).
  exists l. auto.
Qed.

Ltac number_value_of E k n :=
  match goal with
  | HF : property_fine ?cp ?e ?p |- _ =>
      destruct (number_value cp e p k n HF) as (l & Hst & Hl & HBl & Hg);
      [rewrite E; reflexivity|cbn; intuition congruence|]
  end.

Lemma string_value p k enc : (pv_type p =? 0x1e) || (pv_type p =? 0x1f) = true ->
  (exists w0, pv_value p = Some w0 /\ data_ok w0 k enc) ->
  exists l, stored p = Some l /\
    prints
     (dp size <- plift (on_value p (pl_utf8_size (il_prop lib)));
      if SSIZE_MAX <? size then plift Err
      else
        dp s <- plift (get_utf8 (pl_values (il_prop lib)) p size);
        dp _ <- print value_data_prefix;
        dp _ <- print_string s;
        print [NL])
     [option_map (fun s => [9] ++ text_of "Value data" ++ [9; 9] ++ text_of ": " ++ s ++ [10])
        (string_text text empty k enc l)].
Proof.
  intros Ht (w0 & Hw & Hk & Hd).
  assert (Hget : forall n, get_utf8 (pl_values (il_prop lib)) p n =
            match lib_utf8 (pl_values (il_prop lib)) w0 n with Some x => Ok x | None => Err end).
  { intros n. unfold get_utf8, on_value. rewrite Hw.
    apply orb_prop in Ht as [Ht|Ht]; rewrite Ht; cbn [negb andb]; [reflexivity|].
    now rewrite andb_false_r. }
  unfold on_value, stored. rewrite Hw. exists (data_of w0). split; [reflexivity|].
  assert (Hshow : forall s rest, prints
        (dp _ <- print value_data_prefix; dp _ <- print_string (s ++ 0 :: rest); print [NL])
        [Some ([9] ++ text_of "Value data" ++ [9; 9] ++ text_of ": " ++ before_nul s ++ [10])]).
  { intros s rest. apply (prints_same _ ([Some value_data_prefix] ++ [Some (before_nul s)] ++ [Some [NL]])).
    - rewrite before_eq. cbn [printed app fst snd]. f_equal. rewrite app_nil_r. rewrite <- !app_assoc. reflexivity.
    - apply prints_bind; [apply prints_print|]. apply prints_bind; [apply prints_string|apply prints_print]. }
  unfold string_text. destruct w0 as [k0 [[l0 enc0]|]]; unfold data_of; cbn [fv_data fv_kind] in *; subst k0.
  - destruct Hd as [-> Hz].
    assert (Hne : l0 <> []) by (intros ->; change (zlen (@nil Z)) with 0 in Hz; lia).
    pose proof (pk_text _ _ HP k l0 enc Hne) as HT. cbv zeta in HT.
    replace (match l0 with [] => empty k | _ :: _ => text l0 enc end) with (text l0 enc)
      by (destruct l0; [congruence|reflexivity]).
    destruct (text l0 enc) as [s|] eqn:Es.
    + destruct HT as [H1 H2]. pose proof (ik_text _ _ _ _ _ HL _ _ _ Es) as Hs.
      eapply prints_lift; [rewrite H1; reflexivity|]. cbv beta.
      rewrite (proj2 (Z.ltb_ge SSIZE_MAX (zlen s + 1))) by lia.
      eapply prints_lift; [rewrite Hget, H2; reflexivity|]. apply Hshow.
    + apply prints_lift_err. now rewrite HT.
  - pose proof (ik_empty _ _ _ _ _ HL k) as HE. cbv zeta in HE.
    destruct (pl_utf8_size (il_prop lib) {| fv_kind := k; fv_data := None |}) as [n|].
    + destruct HE as [Hn HE]. eapply prints_lift; [reflexivity|]. cbv beta.
      rewrite (proj2 (Z.ltb_ge SSIZE_MAX n)) by lia.
      destruct (lib_utf8 (pl_values (il_prop lib)) {| fv_kind := k; fv_data := None |} n) as [s|] eqn:Eu.
      * destruct HE as (s' & rest & He & ->). rewrite He.
        eapply prints_lift; [rewrite Hget, Eu; reflexivity|]. apply Hshow.
      * rewrite HE. apply prints_lift_err. now rewrite Hget, Eu.
    + rewrite HE. apply prints_lift_err. reflexivity.
Qed.

Lemma prints_number (r : res Z) (f : Z -> Z) x : r = Ok x ->
  prints (dp y <- plift r; print (value_data_prefix ++ integer (f y) ++ [NL]))
    [Some ([9] ++ text_of "Value data" ++ [9; 9] ++ text_of ": " ++ integer (f x) ++ [10])].
Proof.
  intros ->. eapply prints_lift; [reflexivity|]. rewrite before_eq, <- !app_assoc. apply prints_print.
Qed.

Lemma value_data_prints cp e p : property_fine cp e p ->
  prints (value_data_fprint lib p) [data_piece text empty date cp e p].
Proof.
  intros HF. unfold value_data_fprint, data_piece. cbv zeta.
  destruct (Z.eqb_spec (pv_type p) 0xb) as [E|N1].
  { number_value_of E FvBoolean 1. rewrite Hst, E. cbn [shown_types existsb Z.eqb Pos.eqb orb value_text option_map].
    eapply prints_lift; [unfold get_boolean; rewrite E; cbn [Z.eqb Pos.eqb negb]; exact Hg|].
    cbv beta. rewrite before_eq, <- !app_assoc, !str_text.
    destruct (number_in e l =? 0); apply prints_print. }
  destruct (Z.eqb_spec (pv_type p) 0x2) as [E|N2].
  { number_value_of E FvInteger16 2. rewrite Hst, E. cbn [shown_types existsb Z.eqb Pos.eqb orb value_text option_map].
    rewrite <- signed_16 by auto.
    apply (prints_number (get_16bit _ p) s16). unfold get_16bit. rewrite E. exact Hg. }
  destruct (Z.eqb_spec (pv_type p) 0x12) as [E|N3].
  { number_value_of E FvInteger16 2. rewrite Hst, E. cbn [shown_types existsb Z.eqb Pos.eqb orb value_text option_map].
    apply (prints_number (get_16bit _ p) (fun x => x)). unfold get_16bit. rewrite E. exact Hg. }
  destruct (Z.eqb_spec (pv_type p) 0x3) as [E|N4].
  { number_value_of E FvInteger32 4. rewrite Hst, E. cbn [shown_types existsb Z.eqb Pos.eqb orb value_text option_map].
    rewrite <- signed_32 by auto.
    apply (prints_number (get_32bit _ p) s32). unfold get_32bit. rewrite E. exact Hg. }
  destruct (Z.eqb_spec (pv_type p) 0x13) as [E|N5].
  { number_value_of E FvInteger32 4. rewrite Hst, E. cbn [shown_types existsb Z.eqb Pos.eqb orb value_text option_map].
    apply (prints_number (get_32bit _ p) (fun x => x)). unfold get_32bit. rewrite E. exact Hg. }
  destruct (Z.eqb_spec (pv_type p) 0x14) as [E|N6].
  { number_value_of E FvInteger64 8. rewrite Hst, E. cbn [shown_types existsb Z.eqb Pos.eqb orb value_text option_map].
    rewrite <- signed_64 by auto.
    apply (prints_number (get_64bit _ p) s64). unfold get_64bit. rewrite E. exact Hg. }
  destruct (Z.eqb_spec (pv_type p) 0x15) as [E|N7].
  { number_value_of E FvInteger64 8. rewrite Hst, E. cbn [shown_types existsb Z.eqb Pos.eqb orb value_text option_map].
    apply (prints_number (get_64bit _ p) (fun x => x)). unfold get_64bit. rewrite E. exact Hg. }
  cbn [orb].
  destruct HF as (Hi & Hty & Hh & Hb).
  destruct (Z.eqb_spec (pv_type p) 0x1e) as [E|N8].
  { destruct (string_value p FvByteString (EncCodepage cp)) as (l & Hst & Hpr).
    - now rewrite E.
    - unfold handed in Hh. rewrite E in Hh. exact Hh.
    - rewrite Hst, E. cbn [orb]. exact Hpr. }
  destruct (Z.eqb_spec (pv_type p) 0x1f) as [E|N9].
  { destruct (string_value p FvUtf16String EncUtf16Little) as (l & Hst & Hpr).
    - now rewrite E.
    - unfold handed in Hh. rewrite E in Hh. exact Hh.
    - rewrite Hst, E. cbn [orb]. exact Hpr. }
  cbn [orb].
  destruct (Z.eqb_spec (pv_type p) 0x40) as [E|N10].
  { assert (HF : property_fine cp e p) by (split; [exact Hi|split; auto]).
    number_value_of E FvFiletime 8. rewrite Hst, E. cbn [shown_types existsb Z.eqb Pos.eqb orb value_text option_map].
    eapply prints_lift; [unfold get_filetime; rewrite E; cbn [Z.eqb Pos.eqb negb]; exact Hg|]. cbv beta.
    pose proof (ik_date _ _ _ _ _ HL (number_in e l)) as HD.
    destruct (date (number_in e l)) as [s|]; cbn [option_map].
    - destruct HD as (rest & ->). eapply prints_lift; [reflexivity|]. cbv beta.
      apply (prints_same _ ([Some value_data_prefix] ++ [Some (before_nul s)] ++ [Some (str " UTC" ++ [NL])])).
      + rewrite before_eq. cbn [printed fst snd app]. rewrite !app_nil_r, str_text. f_equal.
        rewrite <- ?app_assoc. cbn [app]. rewrite <- ?app_assoc. reflexivity.
      + apply prints_bind; [apply prints_print|]. apply prints_bind; [apply prints_string|apply prints_print].
    - apply prints_lift_err. now rewrite HD. }
  replace (existsb (Z.eqb (pv_type p)) shown_types) with false.
  - apply (prints_same _ []); [reflexivity|apply prints_ret].
  - symmetry. unfold shown_types. cbn [existsb].
    rewrite !(proj2 (Z.eqb_neq (pv_type p) _)) by assumption. reflexivity.
Qed.

Lemma value_prints cp e class p : property_fine cp e p ->
  prints (value_fprint lib class p)
    [ Some (identifier_line class p ++ type_line (il_type_name lib) p);
      data_piece text empty date cp e p; Some [10] ].
Proof.
  intros HF. unfold value_fprint. cbv zeta. rewrite identifier_name_ok.
  pose proof HF as (Hi & Hty & _).
  set (N := property_name class (pv_type p) (pv_id p)).
  apply (prints_same _
    ([Some ([TAB] ++ str "Value identifier" ++ [TAB] ++ str ": ")] ++
     (match N with Some s => [Some (str s ++ str " (")] | None => [] end ++
      ([Some (str "0x" ++ print_hex 8 (pv_id p))] ++
       (match N with Some s => [Some (str ")")] | None => [] end ++
        ([Some [NL]] ++
         ([Some ([TAB] ++ str "Value type" ++ [TAB; TAB] ++ str ": " ++ il_type_name lib (pv_type p) ++
                 str " (0x" ++ print_hex 8 (pv_type p) ++ str ")" ++ [NL])] ++
          ([data_piece text empty date cp e p] ++ [Some [NL]])))))))).
  - assert (E : forall a b l, printed (Some a :: Some b :: l) = printed (Some (a ++ b) :: l)).
    { intros a b l. cbn [printed fst snd]. now rewrite app_assoc. }
    unfold identifier_line, type_line. fold N. rewrite hex8 by exact Hi.
    replace (str " (0x" ++ print_hex 8 (pv_type p) ++ str ")" ++ [NL])
      with (text_of " (" ++ hex_number (pv_type p) ++ text_of ")" ++ [10])
      by (rewrite <- hex8 by exact Hty; reflexivity).
    rewrite !str_text. change TAB with 9. change NL with 10.
    destruct N as [s|]; rewrite ?str_text; cbn [app]; rewrite !E; f_equal; f_equal; f_equal;
      cbn [app]; rewrite <- ?app_assoc; cbn [app]; rewrite <- ?app_assoc; reflexivity.
  - apply prints_bind; [apply prints_print|].
    apply prints_bind; [destruct N; [apply prints_print|apply prints_ret]|].
    apply prints_bind; [apply prints_print|].
    apply prints_bind; [destruct N; [apply prints_print|apply prints_ret]|].
    do 2 (apply prints_bind; [apply prints_print|]).
    apply prints_bind; [now apply value_data_prints|apply prints_print].
Qed.

Lemma class_prints class : class_fine class -> prints (class_fprint lib class) [Some (class_line class)].
Proof.
  intros [Hl HB]. unfold class_fprint.
  destruct (ik_guid _ _ _ _ _ HL class Hl HB) as (rest & ->). eapply prints_lift; [reflexivity|]. cbv beta.
  apply (prints_same _ ([Some ([TAB] ++ str "Class identifier" ++ [TAB] ++ str ": ")] ++
                        [Some (before_nul (guid_text class))] ++ [Some [NL]])).
  - rewrite before_nul_all by now apply guid_text_ascii. unfold class_line. rewrite !str_text.
    cbn [printed fst snd app]. rewrite !app_nil_r, <- ?app_assoc. cbn [app]. rewrite <- ?app_assoc. reflexivity.
  - apply prints_bind; [apply prints_print|]. apply prints_bind; [apply prints_string|apply prints_print].
Qed.

Lemma combine_shift {A} n (l : list A) : combine (seq (S n) (length l)) l =
  match l with [] => [] | x :: r => (S n, x) :: combine (seq (S (S n)) (length r)) r end.
Proof. destruct l; reflexivity. Qed.

Lemma parts_prints {A} (label : string) (get : Z -> res A) (one : A -> pio unit)
      (pieces : A -> list (option (list Z))) : forall l n i,
  Z.of_nat i = n -> (forall j x, nth_error l j = Some x -> get (Z.of_nat (i + j)) = Ok x) ->
  (forall x, In x l -> prints (one x) (pieces x)) ->
  prints (parts_fprint (str label) get one (length l) n)
    (concat (map (fun x => Some (part_line label (fst x)) :: pieces (snd x)) (combine (seq (S i) (length l)) l))).
Proof.
  induction l as [|x l IH]; intros n i Hn Hg Hone.
  - apply prints_ret.
  - rewrite combine_shift. cbn [length parts_fprint map concat fst snd].
    change (Some (part_line label (S i)) :: pieces x) with ([Some (part_line label (S i))] ++ pieces x).
    rewrite <- app_assoc. apply prints_bind.
    + rewrite !str_text. unfold part_line. replace (Z.of_nat (S i)) with (n + 1) by lia. apply prints_print.
    + eapply prints_lift.
      { rewrite <- Hn. rewrite <- (Nat.add_0_r i). apply (Hg 0%nat). reflexivity. }
      cbv beta. apply prints_bind; [apply Hone; left; reflexivity|]. apply IH.
      * lia.
      * intros j y Hy. replace (S i + j)%nat with (i + S j)%nat by lia. apply Hg. exact Hy.
      * intros y Hy. apply Hone. now right.
Qed.

Lemma znth_of_nat {A} (l : list A) j x : nth_error l j = Some x -> znth l (Z.of_nat j) = Some x.
Proof. unfold znth. rewrite (proj2 (Z.ltb_ge (Z.of_nat j) 0)) by lia. now rewrite Nat2Z.id. Qed.

Lemma section_prints cp e i x : section_fine cp e x ->
  prints (section_fprint lib x) (tl (section_pieces lib text empty date cp e (i, x))).
Proof.
  intros [Hc Hp]. unfold section_fprint. cbv zeta.
  assert (H : prints
    (parts_fprint (str "Property") (get_property x) (value_fprint lib (sc_class x))
       (Z.to_nat (zlen (sc_properties x))) 0)
    (concat (map (property_pieces lib text empty date cp e (sc_class x)) (numbered (sc_properties x))))).
  { unfold zlen. rewrite Nat2Z.id.
    apply (parts_prints "Property" _ _ (fun p =>
      [ Some (identifier_line (sc_class x) p ++ type_line (il_type_name lib) p);
        data_piece text empty date cp e p; Some [10] ])).
    - reflexivity.
    - intros j p Hj. cbn [Nat.add]. unfold get_property. now rewrite (znth_of_nat _ _ _ Hj).
    - intros p Hin. apply value_prints. rewrite Forall_forall in Hp. auto. }
  apply (prints_same _ ([Some (class_line (sc_class x))] ++
    [Some ([TAB] ++ str "Number of properties" ++ [TAB] ++ str ": " ++ integer (zlen (sc_properties x)) ++ [NL])] ++
    [Some [NL]] ++
    concat (map (property_pieces lib text empty date cp e (sc_class x)) (numbered (sc_properties x))))).
  - unfold section_pieces. cbn [app tl snd]. unfold number_line. rewrite !str_text.
    cbn [printed fst snd]. f_equal. flat. reflexivity.
  - apply prints_bind; [now apply class_prints|]. apply prints_bind; [apply prints_print|].
    apply prints_bind; [apply prints_print|exact H].
Qed.

Lemma set_prints cp x : set_fine cp x ->
  prints (set_fprint lib x) (set_pieces lib text empty date cp x).
Proof.
  intros [Hc Hs]. unfold set_fprint. cbv zeta.
  assert (H : prints
    (parts_fprint (str "Section") (get_section x) (section_fprint lib)
       (Z.to_nat (zlen (ps_sections x))) 0)
    (concat (map (section_pieces lib text empty date cp (ps_order x)) (numbered (ps_sections x))))).
  { unfold zlen. rewrite Nat2Z.id.
    apply (parts_prints "Section" _ _ (fun sec => tl (section_pieces lib text empty date cp (ps_order x) (0%nat, sec)))).
    - reflexivity.
    - intros j p Hj. cbn [Nat.add]. unfold get_section. now rewrite (znth_of_nat _ _ _ Hj).
    - intros p Hin. apply section_prints. rewrite Forall_forall in Hs. auto. }
  apply (prints_same _ ([Some (class_line (ps_class x))] ++
    [Some ([TAB] ++ str "Number of sections" ++ [TAB] ++ str ": " ++ integer (zlen (ps_sections x)) ++ [NL])] ++
    [Some [NL]] ++
    concat (map (section_pieces lib text empty date cp (ps_order x)) (numbered (ps_sections x))))).
  - unfold set_pieces. cbn [app]. unfold number_line. rewrite !str_text.
    cbn [printed fst snd]. f_equal. flat. reflexivity.
  - apply prints_bind; [now apply class_prints|]. apply prints_bind; [apply prints_print|].
    apply prints_bind; [apply prints_print|exact H].
Qed.
End Values.
