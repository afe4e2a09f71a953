(** Lemmas on getopt and the options of the tools. *)
From Coq Require Import String ZArith List Bool Lia Wf_nat.
From Verif Require Import Base Spec_Tree M_Getopt Spec_Getopt L_Base.
Import ListNotations.
Open Scope Z_scope.

Lemma char_at_in l k c : znth l k = Some c -> char_at (l, k) = Ok c.
Proof.
  intros H. unfold char_at. cbn [fst snd]. pose proof (znth_range _ _ _ H).
  destruct (Z.eqb_spec k (zlen l)); [lia|]. unfold arr_get. now rewrite H.
Qed.

Lemma char_at_end l : char_at (l, zlen l) = Ok 0.
Proof. unfold char_at. cbn [fst snd]. now rewrite Z.eqb_refl. Qed.

Lemma search_takes c : forall options, Forall (fun x => 0 < x < 128) options ->
  match search_character options c with
  | Some k => exists v, char_at (options, k + 1) = Ok v /\ 0 <= k < zlen options /\
      takes options c = (if c =? 58 then None else Some (v =? 58))
  | None => takes options c = None
  end.
Proof.
  assert (T : forall l, c = 58 -> takes l c = None).
  { induction l as [|x l IH]; intros E; [reflexivity|]. cbn [takes]. rewrite (IH E).
    subst c. now rewrite andb_false_r. }
  induction options as [|x l IH]; intros HF; [reflexivity|].
  cbn [search_character takes]. inversion HF as [|? ? Hx HF']; subst.
  destruct (Z.eqb_spec x c) as [->|Hn].
  - cbn [andb]. destruct l as [|y l].
    + exists 0. split; [reflexivity|]. split; [unfold zlen; cbn; lia|].
      destruct (Z.eqb_spec c 58); reflexivity.
    + exists y. split; [apply char_at_in; reflexivity|]. split; [unfold zlen; cbn; lia|].
      destruct (Z.eqb_spec c 58) as [E|E]; cbn [negb]; [now apply T|].
      destruct (Z.eqb_spec y 58) as [->|Hy]; [reflexivity|].
      destruct y as [|p|p]; try reflexivity. repeat (destruct p as [p|p|]; try reflexivity). congruence.
  - cbn [andb]. specialize (IH HF'). destruct (search_character l c) as [k|]; cbn [option_map]; [|exact IH].
    destruct IH as (v & Hv & Hk & ->). exists v. split; [|split; [unfold zlen in *; cbn [length]; lia|reflexivity]].
    rewrite <- Hv. unfold char_at. cbn [fst snd]. unfold zlen in *. cbn [length].
    destruct (Z.eqb_spec (k + 1 + 1) (Z.of_nat (S (length l)))), (Z.eqb_spec (k + 1) (Z.of_nat (length l))); try lia; [reflexivity|].
    unfold arr_get, znth. replace (k + 1 + 1 <? 0) with false by lia. replace (k + 1 <? 0) with false by lia.
    replace (Z.to_nat (k + 1 + 1)) with (S (Z.to_nat (k + 1))) by lia. reflexivity.
Qed.

Definition from_word (options w : list Z) (rest : list (list Z)) : list event * ending :=
  let (ev, t) := letters options w in
  match t with
  | Done => let (ev', e) := command_line options rest in (ev ++ ev', e)
  | Bad c => (ev ++ [Unknown c], Failed)
  | Wants c =>
      match rest with
      | [] => (ev ++ [Missing c], Failed)
      | arg :: rest => let (ev', e) := command_line options rest in (ev ++ WithArgument c arg :: ev', e)
      end
  end.

Lemma command_line_word options c w rest : c <> 45 ->
  command_line options ((45 :: c :: w) :: rest) = from_word options (c :: w) rest.
Proof.
  intros Hc. cbn [command_line]. unfold from_word.
  destruct c as [|p|p]; try reflexivity. repeat (destruct p as [p|p|]; try reflexivity). congruence.
Qed.

Lemma command_line_operand options a rest : (forall w, a <> 45 :: w) ->
  command_line options (a :: rest) = ([], Operands (a :: rest)).
Proof.
  intros Ha. cbn [command_line]. destruct a as [|c w]; [reflexivity|].
  destruct c as [|p|p]; try reflexivity. repeat (destruct p as [p|p|]; try reflexivity).
  exfalso. now apply (Ha w).
Qed.

Lemma from_word_flag options c w rest : takes options c = Some false ->
  from_word options (c :: w) rest =
  let (ev, e) := match w with [] => command_line options rest | _ => from_word options w rest end in
  (Flag c :: ev, e).
Proof.
  intros H. unfold from_word. cbn [letters]. rewrite H. destruct w as [|c' w'].
  - cbn [letters app]. destruct (command_line options rest); reflexivity.
  - destruct (letters options (c' :: w')) as [ev t]. destruct t.
    + destruct (command_line options rest); reflexivity.
    + destruct rest as [|arg rest]; [reflexivity|]. destruct (command_line options rest); reflexivity.
    + reflexivity.
Qed.

Lemma skipn_cons {B} (l : list B) k x r : skipn k l = x :: r -> nth_error l k = Some x /\ skipn (S k) l = r.
Proof.
  revert l. induction k as [|k IH]; intros [|y l] H; try discriminate.
  - injection H as -> ->. auto.
  - cbn [skipn] in H. now apply IH.
Qed.

Lemma skipn_znth {B} (l : list B) k x r : 0 <= k -> skipn (Z.to_nat k) l = x :: r ->
  znth l k = Some x /\ skipn (Z.to_nat (k + 1)) l = r /\ k + 1 <= zlen l /\ (k + 1 = zlen l <-> r = []).
Proof.
  intros Hk H. destruct (skipn_cons _ _ _ _ H) as (H1 & H2).
  replace (Z.to_nat (k + 1)) with (S (Z.to_nat k)) by lia.
  assert (HL : length (skipn (Z.to_nat k) l) = S (length r)) by now rewrite H.
  rewrite skipn_length in HL. unfold zlen.
  split; [unfold znth; now replace (k <? 0) with false by lia|]. split; [exact H2|]. split; [lia|].
  split; [intros E; destruct r; [reflexivity|cbn [length] in HL; lia]|intros ->; cbn [length] in HL; lia].
Qed.

Section Loop.
Variable A : Type.
Variable options : list Z.
Variable set : Z -> option (list Z) -> A -> reaction A.
Variable finish : list (list Z) -> Z -> A -> res (request A).
Variable fin : list (list Z) -> A -> res (request A).
Variable argv : list (list Z).
Hypothesis Hopt : Forall (fun x => 0 < x < 128) options.
Hypothesis Hset : forall arg a, set 63 arg a = Invalid /\ set 58 arg a = Invalid.
Hypothesis Hfin : forall i a, 1 <= i <= zlen argv -> finish argv i a = fin (skipn (Z.to_nat i) argv) a.
Hypothesis Hargv : Forall c_word argv.

Fixpoint obey (l : list event) (e : ending) (a : A) : res (request A) :=
  let react r l := match r with GoOn a => obey l e a | Leave q => Ok q | Invalid => Ok (Usage false None) end in
  match l with
  | [] => match e with Operands ops => fin ops a | Failed => Err | Dash => Undef end
  | Flag c :: l => react (set c None a) l
  | WithArgument c arg :: l => react (set c (Some arg) a) l
  | _ :: l => Ok (Usage false None)
  end.

(** One call at the letter [c], the character [k] of a word. *)
Lemma getopt_at g g' word k c :
  current_option argv g = Ok (g', Some (word, k)) -> znth word k = Some c -> c_word word ->
  let i := g_optind g' in
  let state n a q := {| g_optind := n; g_optarg := a; g_optopt := c; g_next := q |} in
  getopt options argv g =
  match takes options c with
  | None => Ok (63, state (if k + 1 =? zlen word then i + 1 else i) (g_optarg g') None)
  | Some false => if k + 1 =? zlen word then Ok (c, state (i + 1) None None)
                  else Ok (c, state i None (Some (word, k + 1)))
  | Some true =>
      if negb (k + 1 =? zlen word) then Ok (c, state (i + 1) (Some (word, k + 1)) None)
      else if zlen argv <=? i + 1 then Ok (58, state (i + 1) (g_optarg g') None)
      else match znth argv (i + 1) with
           | Some a => Ok (c, state (i + 1 + 1) (Some (a, 0)) None)
           | None => Undef
           end
  end.
Proof.
  intros Hc Hk Hw i state. unfold getopt. rewrite Hc. cbn [rbind].
  rewrite (char_at_in _ _ _ Hk). cbn [rbind]. cbv zeta.
  pose proof (znth_range _ _ _ Hk) as Hr.
  assert (HE : exists c', char_at (next_char (word, k)) = Ok c' /\ (c' =? 0) = (k + 1 =? zlen word)).
  { unfold next_char. cbn [fst snd]. destruct (Z.eqb_spec (k + 1) (zlen word)) as [E|E].
    - exists 0. rewrite E, char_at_end. auto.
    - destruct (znth_some word (k + 1)) as (c' & Hc'); [lia|]. exists c'. split; [now apply char_at_in|].
      unfold c_word in Hw. rewrite Forall_forall in Hw. specialize (Hw c' (znth_In _ _ _ Hc')).
      destruct (Z.eqb_spec c' 0); [lia|reflexivity]. }
  destruct HE as (c' & -> & HE). cbn [rbind]. rewrite HE. clear HE.
  pose proof (search_takes c options Hopt) as HS.
  destruct (search_character options c) as [m|].
  - destruct HS as (v & Hv & _ & ->). destruct (Z.eqb_spec c 58) as [->|Hn]; [reflexivity|].
    rewrite Hv. cbn [rbind]. destruct (v =? 58); cbn [negb].
    + destruct (k + 1 =? zlen word); cbn [negb]; [|reflexivity].
      fold i. destruct (zlen argv <=? i + 1); [reflexivity|]. unfold arr_get.
      destruct (znth argv (i + 1)); reflexivity.
    + reflexivity.
  - rewrite HS. reflexivity.
Qed.

Definition room (w : list Z) (rest : list (list Z)) : nat := (length w + length (concat rest))%nat.

Definition at_word (g : gstate) (w : list Z) (rest : list (list Z)) : Prop :=
  exists g' word k, current_option argv g = Ok (g', Some (word, k)) /\
    1 <= g_optind g' < zlen argv /\ c_word word /\ 0 <= k /\ w <> [] /\ skipn (Z.to_nat k) word = w /\
    skipn (Z.to_nat (g_optind g' + 1)) argv = rest.

Lemma forget_invalid (i : Z) : 1 <= i <= zlen argv ->
  forget (do invalid <- arr_get argv (i - 1); Ok (@Usage A false (Some invalid))) = Ok (Usage false None).
Proof.
  intros Hi. unfold arr_get. destruct (znth_some argv (i - 1)) as (x & ->); [lia|]. reflexivity.
Qed.

Theorem options_loop_ok : forall fuel g a,
  (forall w rest, at_word g w rest -> (room w rest < fuel)%nat ->
     forget (option_loop A options set finish fuel argv g a) =
     forget (let (l, e) := from_word options w rest in obey l e a)) /\
  (g_next g = None -> 1 <= g_optind g <= zlen argv ->
     (length (concat (skipn (Z.to_nat (g_optind g)) argv)) < fuel)%nat ->
     forget (option_loop A options set finish fuel argv g a) =
     forget (let (l, e) := command_line options (skipn (Z.to_nat (g_optind g)) argv) in obey l e a)).
Proof.
  induction fuel as [|fuel IH]; intros g a; [split; intros; lia|].
  assert (H1 : forall w rest, at_word g w rest -> (room w rest < S fuel)%nat ->
     forget (option_loop A options set finish (S fuel) argv g a) =
     forget (let (l, e) := from_word options w rest in obey l e a)).
  { intros w rest (g' & word & k & Hc & Hi & Hw & Hk & Hne & Hs & Hr) HR.
    destruct w as [|c w]; [congruence|].
    destruct (skipn_znth _ _ _ _ Hk Hs) as (Hzc & Hs' & Hle & Hend).
    assert (Hpos : 0 < c < 256).
    { unfold c_word in Hw. rewrite Forall_forall in Hw. exact (Hw c (znth_In _ _ _ Hzc)). }
    pose proof (getopt_at g g' word k c Hc Hzc Hw) as HG. cbv zeta in HG.
    cbn [option_loop]. rewrite HG. clear HG.
    destruct (takes options c) as [[|]|] eqn:Et.
    - destruct (Z.eqb_spec (k + 1) (zlen word)) as [E|E].
      + assert (Hwn : w = []) by now apply Hend. rewrite Hwn in *. clear w Hwn. cbn [negb].
        destruct (Z.leb_spec (zlen argv) (g_optind g' + 1)) as [L|L].
        * cbn [rbind]. change (58 =? -1) with false. cbv iota. rewrite (proj2 (Hset _ _)).
          cbn [g_optind]. rewrite forget_invalid by lia.
          assert (Hrn : rest = []).
          { rewrite <- Hr. apply skipn_all2. unfold zlen in *. lia. }
          rewrite Hrn. unfold from_word. cbn [letters]. rewrite Et. reflexivity.
        * destruct (znth_some argv (g_optind g' + 1)) as (arg & Harg); [lia|]. rewrite Harg. cbn [rbind].
          replace (c =? -1) with false by lia.
          destruct rest as [|arg' rest].
          { apply (f_equal (@length _)) in Hr. rewrite skipn_length in Hr. cbn [length] in Hr. unfold zlen in *. lia. }
          destruct (skipn_znth argv (g_optind g' + 1) arg' rest) as (Ha & Hr' & Hle' & _); [lia|exact Hr|].
          assert (arg' = arg) by congruence. subst arg'.
          cbn [g_optarg option_map]. change (string_at (arg, 0)) with arg.
          unfold from_word. cbn [letters]. rewrite Et. cbn [app].
          pose proof (fun a' => proj2 (IH {| g_optind := g_optind g' + 1 + 1; g_optarg := Some (arg, 0);
                                   g_optopt := c; g_next := None |} a') eq_refl) as IH'.
          cbn [g_optind] in IH'. rewrite Hr' in IH'.
          destruct (command_line options rest) as [ev e]. cbn [obey].
          destruct (set c (Some arg) a) as [a'|q|].
          -- apply IH'; [lia|]. unfold room in HR. cbn [length concat] in HR. rewrite app_length in HR. lia.
          -- reflexivity.
          -- cbn [g_optind]. apply forget_invalid. lia.
      + cbn [negb]. cbn [rbind]. replace (c =? -1) with false by lia. cbn [g_optarg option_map].
        change (string_at (word, k + 1)) with (skipn (Z.to_nat (k + 1)) word). rewrite Hs'.
        assert (w <> []) by (intros ->; apply E; now apply Hend).
        unfold from_word. cbn [letters]. rewrite Et. destruct w as [|c1 w1]; [congruence|]. cbn [app].
        pose proof (fun a' => proj2 (IH {| g_optind := g_optind g' + 1; g_optarg := Some (word, k + 1);
                                   g_optopt := c; g_next := None |} a') eq_refl) as IH'.
        cbn [g_optind] in IH'. rewrite Hr in IH'.
        destruct (command_line options rest) as [ev e]. cbn [obey].
        destruct (set c (Some (c1 :: w1)) a) as [a'|q|].
        -- apply IH'; [lia|]. unfold room in HR. cbn [length] in HR. lia.
        -- reflexivity.
        -- cbn [g_optind]. apply forget_invalid. lia.
    - rewrite from_word_flag by exact Et. destruct (Z.eqb_spec (k + 1) (zlen word)) as [E|E].
      + assert (Hwn : w = []) by now apply Hend. rewrite Hwn in *. clear w Hwn. cbn [rbind]. replace (c =? -1) with false by lia.
        cbn [g_optarg option_map].
        pose proof (fun a' => proj2 (IH {| g_optind := g_optind g' + 1; g_optarg := None;
                                   g_optopt := c; g_next := None |} a') eq_refl) as IH'.
        cbn [g_optind] in IH'. rewrite Hr in IH'.
        destruct (command_line options rest) as [ev e]. cbn [obey].
        destruct (set c None a) as [a'|q|].
        -- apply IH'; [lia|]. unfold room in HR. cbn [length] in HR. lia.
        -- reflexivity.
        -- cbn [g_optind]. apply forget_invalid. lia.
      + assert (Hw1 : w <> []) by (intros ->; apply E; now apply Hend).
        cbn [rbind]. replace (c =? -1) with false by lia. cbn [g_optarg option_map].
        set (gn := {| g_optind := g_optind g'; g_optarg := None; g_optopt := c; g_next := Some (word, k + 1) |}).
        assert (IH' : forall a', forget (option_loop A options set finish fuel argv gn a') =
                      forget (let (l, e) := from_word options w rest in obey l e a')).
        { intros a'. apply (proj1 (IH gn a')).
          - exists {| g_optind := g_optind g'; g_optarg := None; g_optopt := c; g_next := None |}, word, (k + 1).
            split; [reflexivity|]. cbn [g_optind]. repeat split; auto; lia.
          - unfold room in *. cbn [length] in HR. lia. }
        destruct w as [|c1 w1]; [congruence|].
        destruct (from_word options (c1 :: w1) rest) as [ev e]. cbn [obey].
        destruct (set c None a) as [a'|q|].
        -- apply IH'.
        -- reflexivity.
        -- cbn [gn g_optind]. apply forget_invalid. lia.
    - cbn [rbind]. change (63 =? -1) with false. cbv iota. rewrite (proj1 (Hset _ _)).
      cbn [g_optind]. unfold from_word. cbn [letters]. rewrite Et. cbn [app obey forget].
      rewrite forget_invalid; [reflexivity|]. destruct (_ =? _); lia. }
  split; [exact H1|].
  intros Hn Hi HR. destruct (skipn (Z.to_nat (g_optind g)) argv) as [|a0 rest] eqn:Es.
  - (* no more words *)
    assert (HC : current_option argv g = Ok (g, None)).
    { unfold current_option. rewrite Hn. apply (f_equal (@length _)) in Es. rewrite skipn_length in Es.
      cbn [length] in Es. replace (zlen argv <=? g_optind g) with true by (unfold zlen; lia). reflexivity. }
    cbn [option_loop]. unfold getopt. rewrite HC. cbn [rbind]. change (-1 =? -1) with true. cbv iota.
    cbn [command_line obey]. rewrite Hfin, Es by lia. reflexivity.
  - destruct (skipn_znth argv (g_optind g) a0 rest) as (Ha & Hr & Hle & _); [lia|exact Es|].
    assert (HW : c_word a0) by (rewrite Forall_forall in Hargv; exact (Hargv a0 (znth_In _ _ _ Ha))).
    assert (HC : current_option argv g =
      match a0 with
      | 45 :: w => match w with
                   | [] => Ok (g, Some (a0, 1))
                   | 45 :: _ => Ok ({| g_optind := g_optind g + 1; g_optarg := g_optarg g; g_optopt := g_optopt g; g_next := None |}, None)
                   | _ => Ok (g, Some (a0, 1))
                   end
      | _ => Ok (g, None)
      end).
    { unfold current_option. rewrite Hn. replace (zlen argv <=? g_optind g) with false by lia.
      unfold arr_get. rewrite Ha. cbn [rbind]. destruct a0 as [|c0 w]; [reflexivity|].
      rewrite (char_at_in (c0 :: w) 0 c0) by reflexivity. cbn [rbind].
      inversion HW as [|? ? Hc0 HW']; subst.
      destruct (Z.eqb_spec c0 0); [lia|]. destruct (Z.eqb_spec c0 45) as [->|H45]; cbn [negb].
      - unfold next_char. cbn [fst snd]. destruct w as [|c1 w]; [reflexivity|].
        change (0 + 1) with 1. rewrite (char_at_in (45 :: c1 :: w) 1 c1) by reflexivity. cbn [rbind].
        destruct (Z.eqb_spec c1 45) as [->|H]; [reflexivity|].
        destruct c1 as [|p|p]; try reflexivity. repeat (destruct p as [p|p|]; try reflexivity). congruence.
      - destruct c0 as [|p|p]; try reflexivity. repeat (destruct p as [p|p|]; try reflexivity). congruence. }
    assert (HOp : (forall w, a0 <> 45 :: w) -> forget (option_loop A options set finish (S fuel) argv g a) =
      forget (let (l, e) := command_line options (a0 :: rest) in obey l e a)).
    { intros H. rewrite command_line_operand by exact H.
      assert (HC' : current_option argv g = Ok (g, None)).
      { rewrite HC. destruct a0 as [|c0 w]; [reflexivity|].
        destruct c0 as [|p|p]; try reflexivity. repeat (destruct p as [p|p|]; try reflexivity). exfalso. now apply (H w). }
      cbn [option_loop]. unfold getopt. rewrite HC'. cbn [rbind]. change (-1 =? -1) with true. cbv iota.
      cbn [obey]. rewrite Hfin, Es by lia. reflexivity. }
    destruct a0 as [|c0 w]; [apply HOp; intros w; discriminate|].
    destruct (Z.eq_dec c0 45) as [->|H45]; [|apply HOp; intros w' H'; injection H' as ?; congruence].
    clear HOp. destruct w as [|c1 w].
    + (* the word - *)
      cbn [option_loop]. unfold getopt. rewrite HC. cbn [rbind command_line obey].
      reflexivity.
    + destruct (Z.eq_dec c1 45) as [->|H].
      * cbn [option_loop]. unfold getopt. rewrite HC. cbn [rbind]. change (-1 =? -1) with true. cbv iota.
        cbn [command_line obey g_optind]. rewrite Hfin, Hr by lia. reflexivity.
      * rewrite command_line_word by exact H. apply H1.
        -- exists g, (45 :: c1 :: w), 1. split.
           { rewrite HC. destruct c1 as [|p|p]; try reflexivity. repeat (destruct p as [p|p|]; try reflexivity). congruence. }
           repeat split; auto; try lia. discriminate.
        -- unfold room. cbn [concat length] in HR. rewrite app_length in HR. cbn [length] in HR |- *. lia.
Qed.
End Loop.

(** ** The options of the tools *)

Definition event_fits (options : list Z) (e : event) : Prop :=
  match e with
  | Flag c => takes options c = Some false
  | WithArgument c _ => takes options c = Some true
  | _ => True
  end.

Lemma letters_fit options : forall w, Forall (event_fits options) (fst (letters options w)) /\
  match snd (letters options w) with Wants c => takes options c = Some true | _ => True end.
Proof.
  induction w as [|c w IH]; cbn [letters]; [split; [constructor|exact I]|].
  destruct (takes options c) as [[|]|] eqn:E; [| |split; [constructor|exact I]].
  - destruct w; cbn [fst snd]; split; auto.
  - destruct (letters options w) as [ev t]. cbn [fst snd] in *. destruct IH. split; [constructor|]; auto.
Qed.

Lemma events_fit options : forall words, Forall (event_fits options) (fst (command_line options words)).
Proof.
  intros words. remember (length words) as n eqn:Hn. revert words Hn.
  induction n as [n IH] using (well_founded_induction lt_wf). intros words Hn.
  destruct words as [|a rest]; [constructor|].
  destruct a as [|c0 w]; [constructor|].
  destruct (Z.eq_dec c0 45) as [->|H45].
  2:{ rewrite command_line_operand; [constructor|]. intros w' H'. injection H' as ?. congruence. }
  destruct w as [|c w]; [constructor|].
  destruct (Z.eq_dec c 45) as [->|Hc]; [constructor|].
  rewrite command_line_word by exact Hc. unfold from_word.
  pose proof (letters_fit options (c :: w)) as (HL & HW).
  destruct (letters options (c :: w)) as [ev t]. cbn [fst snd] in HL, HW. cbn [length] in Hn.
  destruct t as [|c'|c'].
  - pose proof (IH (length rest) ltac:(lia) rest eq_refl) as HR.
    destruct (command_line options rest) as [ev' e]. cbn [fst] in *. apply Forall_app; auto.
  - destruct rest as [|arg rest]; cbn [fst].
    + apply Forall_app; split; [exact HL|repeat constructor].
    + cbn [length] in Hn. pose proof (IH (length rest) ltac:(lia) rest eq_refl) as HR.
      destruct (command_line options rest) as [ev' e]. cbn [fst] in *.
      apply Forall_app; split; [exact HL|]. constructor; auto.
  - cbn [fst]. apply Forall_app; split; [exact HL|repeat constructor].
Qed.

Definition argument_from (c : Z) (l : list event) (a : option (list Z)) : option (list Z) :=
  fold_left (fun a e => match e with
                        | WithArgument x arg => if x =? c then Some arg else a
                        | _ => a
                        end) l a.

Definition end_with (l : list event) (e : ending) (start : list (list Z) -> option settings) : res (request settings) :=
  match find ends_tool l with
  | Some (Flag c) => Ok (if c =? 104 then Usage true None else Copyright)
  | Some _ => Ok (Usage false None)
  | None =>
      match e with
      | Operands ops => Ok (match start ops with Some s => Start s | None => Usage false None end)
      | Failed => Err
      | Dash => Undef
      end
  end.

Definition info_fin (ops : list (list Z)) (s : settings) : res (request settings) :=
  match ops with [] => Ok (Usage false None) | source :: _ => Ok (Start (set_source source [] s)) end.

Definition export_fin sep (ops : list (list Z)) (s : settings) : res (request settings) :=
  match ops with
  | [] => Ok (Usage false None)
  | source :: _ =>
      Ok (Start (match st_target s with
                 | Some _ => set_source source [] s
                 | None => set_target (Some (match after_separator sep source with
                                             | Some x => x
                                             | None => source
                                             end)) (set_source source [] s)
                 end))
  end.

Definition mount_fin (ops : list (list Z)) (s : settings) : res (request settings) :=
  match ops with source :: mount_point :: _ => Ok (Start (set_source source mount_point s)) | _ => Ok (Usage false None) end.

Lemma takes_cases c : forall options b, takes options c = Some b -> In c options.
Proof.
  induction options as [|x l IH]; intros b H; [discriminate|]. cbn [takes] in H.
  destruct (Z.eqb_spec x c) as [->|Hn]; [now left|]. cbn [andb] in H. right. eapply IH, H.
Qed.

Ltac by_letter H :=
  pose proof (takes_cases _ _ _ H) as HI; vm_compute in HI;
  repeat (destruct HI as [<-|HI]; [try discriminate H|]); try contradiction HI.

Definition react (r : reaction settings) (go : settings -> res (request settings)) : res (request settings) :=
  match r with GoOn s => go s | Leave q => Ok q | Invalid => Ok (Usage false None) end.

Lemma obey_flag set fin c l e s :
  obey settings set fin (Flag c :: l) e s = react (set c None s) (obey settings set fin l e).
Proof. reflexivity. Qed.
Lemma obey_argument set fin c arg l e s :
  obey settings set fin (WithArgument c arg :: l) e s = react (set c (Some arg) s) (obey settings set fin l e).
Proof. reflexivity. Qed.

Lemma end_with_flag c l e f : (c =? 104) || (c =? 86) = false -> end_with (Flag c :: l) e f = end_with l e f.
Proof. intros H. unfold end_with. cbn [find ends_tool]. rewrite H. reflexivity. Qed.

Lemma end_with_ext l e f f' : (forall ops, f ops = f' ops) -> end_with l e f = end_with l e f'.
Proof.
  intros H. unfold end_with. destruct (find ends_tool l) as [[]|]; try reflexivity.
  destruct e; try reflexivity. now rewrite H.
Qed.

Ltac on_flag IH HF :=
  rewrite obey_flag; unfold react;
  match goal with |- forget (match ?f with _ => _ end) = _ => let r := eval cbv - [set_allocation set_verbose] in f in change f with r end;
  cbv iota; rewrite IH by exact HF; rewrite end_with_flag by reflexivity; apply end_with_ext;
  intros [|]; [reflexivity|]; cbn; rewrite ?orb_true_r; reflexivity.

Lemma info_obey : forall l e s, Forall (event_fits (text_of "ac:hvV")) l ->
  forget (obey settings info_set info_fin l e s) =
  end_with l e (fun ops => match ops with
    | [] => None
    | source :: _ =>
        Some {| st_allocation := st_allocation s || has_flag 97 l; st_codepage := argument_from 99 l (st_codepage s);
                st_log := st_log s; st_target := st_target s; st_extended := st_extended s;
                st_verbose := st_verbose s || has_flag 118 l; st_source := source; st_mount_point := [] |}
    end).
Proof.
  induction l as [|v l IH]; intros e s HF.
  - cbn [obey]. destruct e as [ops| |]; try reflexivity. unfold info_fin, end_with. cbn [find has_flag existsb argument_from fold_left].
    destruct ops as [|source ops]; [reflexivity|]. rewrite !orb_false_r. reflexivity.
  - inversion HF as [|? ? Hv HF']; subst. destruct v as [c|c arg|c|c]; cbn [event_fits] in Hv; [| |reflexivity|reflexivity].
    + by_letter Hv; try reflexivity; on_flag IH HF'.
    + by_letter Hv. rewrite obey_argument. unfold react.
      change (info_set 99 (Some arg) s) with (GoOn (set_codepage (Some arg) s)). cbv iota. rewrite IH by exact HF'.
      reflexivity.
Qed.

Lemma export_obey sep : forall l e s, Forall (event_fits (text_of "c:hl:t:vV")) l ->
  forget (obey settings export_set (export_fin sep) l e s) =
  end_with l e (fun ops => match ops with
    | [] => None
    | source :: _ =>
        Some {| st_allocation := st_allocation s; st_codepage := argument_from 99 l (st_codepage s);
                st_log := argument_from 108 l (st_log s);
                st_target := Some (match argument_from 116 l (st_target s) with
                                   | Some t => t
                                   | None => match after_separator sep source with Some x => x | None => source end
                                   end);
                st_extended := st_extended s;
                st_verbose := st_verbose s || has_flag 118 l; st_source := source; st_mount_point := [] |}
    end).
Proof.
  induction l as [|v l IH]; intros e s HF.
  - cbn [obey]. destruct e as [ops| |]; try reflexivity. unfold export_fin, end_with. cbn [find has_flag existsb argument_from fold_left].
    destruct ops as [|source ops]; [reflexivity|]. rewrite !orb_false_r.
    destruct s as [? ? ? [t|] ? ? ? ?]; reflexivity.
  - inversion HF as [|? ? Hv HF']; subst. destruct v as [c|c arg|c|c]; cbn [event_fits] in Hv; [| |reflexivity|reflexivity].
    + by_letter Hv; try reflexivity; on_flag IH HF'.
    + by_letter Hv; rewrite obey_argument; unfold react.
      * change (export_set 99 (Some arg) s) with (GoOn (set_codepage (Some arg) s)). cbv iota. rewrite IH by exact HF'.
        reflexivity.
      * change (export_set 108 (Some arg) s) with (GoOn (set_log (Some arg) s)). cbv iota. rewrite IH by exact HF'.
        reflexivity.
      * change (export_set 116 (Some arg) s) with (GoOn (set_target (Some arg) s)). cbv iota. rewrite IH by exact HF'.
        reflexivity.
Qed.

Lemma mount_obey : forall l e s, Forall (event_fits (text_of "c:hvVX:")) l ->
  forget (obey settings mount_set mount_fin l e s) =
  end_with l e (fun ops => match ops with
    | source :: mount_point :: _ =>
        Some {| st_allocation := st_allocation s; st_codepage := argument_from 99 l (st_codepage s);
                st_log := st_log s; st_target := st_target s; st_extended := argument_from 88 l (st_extended s);
                st_verbose := st_verbose s || has_flag 118 l; st_source := source; st_mount_point := mount_point |}
    | _ => None
    end).
Proof.
  induction l as [|v l IH]; intros e s HF.
  - cbn [obey]. destruct e as [ops| |]; try reflexivity. unfold mount_fin, end_with. cbn [find has_flag existsb argument_from fold_left].
    destruct ops as [|source [|mount_point ops]]; try reflexivity. rewrite !orb_false_r. reflexivity.
  - inversion HF as [|? ? Hv HF']; subst. destruct v as [c|c arg|c|c]; cbn [event_fits] in Hv; [| |reflexivity|reflexivity].
    + by_letter Hv; try reflexivity; on_flag IH HF'.
    + by_letter Hv; rewrite obey_argument; unfold react.
      * change (mount_set 99 (Some arg) s) with (GoOn (set_codepage (Some arg) s)). cbv iota. rewrite IH by exact HF'.
        reflexivity.
      * change (mount_set 88 (Some arg) s) with (GoOn (set_extended (Some arg) s)). cbv iota. rewrite IH by exact HF'.
        reflexivity.
Qed.

Definition some_words (argv : list (list Z)) : Prop := argv <> [] /\ Forall c_word argv.

Lemma skipn_tl {B} (l : list B) : skipn 1 l = tl l.
Proof. destruct l; reflexivity. Qed.

Lemma take_source_ok argv i s : 1 <= i <= zlen argv ->
  take_source argv i s = info_fin (skipn (Z.to_nat i) argv) s.
Proof.
  intros Hi. unfold take_source, info_fin. destruct (skipn (Z.to_nat i) argv) as [|x l] eqn:E.
  - apply (f_equal (@List.length _)) in E. rewrite skipn_length in E. cbn [List.length] in E.
    replace (i =? zlen argv) with true by (unfold zlen in *; lia). reflexivity.
  - destruct (skipn_znth argv i x l) as (H1 & _ & H2 & _); [lia|exact E|].
    replace (i =? zlen argv) with false by lia. unfold arr_get. rewrite H1. reflexivity.
Qed.

Lemma take_source_target_ok sep argv i s : 1 <= i <= zlen argv ->
  take_source_target sep argv i s = export_fin sep (skipn (Z.to_nat i) argv) s.
Proof.
  intros Hi. unfold take_source_target. rewrite take_source_ok by exact Hi.
  destruct (skipn (Z.to_nat i) argv); [reflexivity|]. unfold info_fin, export_fin. cbn [rbind].
  destruct s as [? ? ? [t|] ? ? ? ?]; reflexivity.
Qed.

Lemma take_source_mount_point_ok argv i s : 1 <= i <= zlen argv ->
  take_source_mount_point argv i s = mount_fin (skipn (Z.to_nat i) argv) s.
Proof.
  intros Hi. unfold take_source_mount_point, mount_fin. destruct (skipn (Z.to_nat i) argv) as [|x l] eqn:E.
  - apply (f_equal (@List.length _)) in E. rewrite skipn_length in E. cbn [List.length] in E.
    replace (i =? zlen argv) with true by (unfold zlen in *; lia). reflexivity.
  - destruct (skipn_znth argv i x l) as (H1 & H2 & H3 & H4); [lia|exact E|].
    replace (i =? zlen argv) with false by lia. unfold arr_get. rewrite H1. cbn [rbind].
    destruct l as [|y l].
    + replace (i + 1 =? zlen argv) with true by (symmetry; apply Z.eqb_eq; now apply H4). reflexivity.
    + destruct (skipn_znth argv (i + 1) y l) as (H5 & _ & H6 & _); [lia|exact H2|].
      replace (i + 1 =? zlen argv) with false by lia. rewrite H5. reflexivity.
Qed.

Ltac letters_ok := repeat constructor; cbn; lia.

Lemma start_room (argv : list (list Z)) fuel : argv <> [] -> (List.length (concat argv) < fuel)%nat ->
  1 <= g_optind first_state <= zlen argv /\
  (List.length (concat (skipn (Z.to_nat (g_optind first_state)) argv)) < fuel)%nat.
Proof.
  intros H HF. destruct argv as [|x l]; [congruence|]. change (g_optind first_state) with 1.
  change (skipn (Z.to_nat 1) (x :: l)) with l. cbn [concat] in HF. rewrite app_length in HF.
  unfold zlen. cbn [List.length]. lia.
Qed.

Lemma info_options_ok fuel argv : argv <> [] -> Forall c_word argv -> (List.length (concat argv) < fuel)%nat ->
  forget (info_options fuel argv) = tool (text_of "ac:hvV") info_start (tl argv).
Proof.
  intros Hn Hw HF. destruct (start_room argv fuel Hn HF) as (H1 & H2).
  unfold info_options.
  rewrite (proj2 (options_loop_ok settings (text_of "ac:hvV") info_set take_source info_fin argv
    ltac:(letters_ok) ltac:(intros; split; reflexivity) (fun i a H => take_source_ok argv i a H) Hw fuel first_state no_settings)
    eq_refl H1 H2).
  change (Z.to_nat (g_optind first_state)) with 1%nat. rewrite skipn_tl. unfold tool.
  pose proof (events_fit (text_of "ac:hvV") (tl argv)) as HE.
  destruct (command_line (text_of "ac:hvV") (tl argv)) as [l e]. cbn [fst] in HE.
  rewrite info_obey by exact HE. reflexivity.
Qed.

Lemma export_options_ok sep fuel argv : argv <> [] -> Forall c_word argv -> (List.length (concat argv) < fuel)%nat ->
  forget (export_options sep fuel argv) =
  tool (text_of "c:hl:t:vV")
    (export_start (fun l => match after_separator sep l with Some x => x | None => l end)) (tl argv).
Proof.
  intros Hn Hw HF. destruct (start_room argv fuel Hn HF) as (H1 & H2).
  unfold export_options.
  rewrite (proj2 (options_loop_ok settings (text_of "c:hl:t:vV") export_set (take_source_target sep) (export_fin sep) argv
    ltac:(letters_ok) ltac:(intros; split; reflexivity) (fun i a H => take_source_target_ok sep argv i a H) Hw fuel first_state no_settings)
    eq_refl H1 H2).
  change (Z.to_nat (g_optind first_state)) with 1%nat. rewrite skipn_tl. unfold tool.
  pose proof (events_fit (text_of "c:hl:t:vV") (tl argv)) as HE.
  destruct (command_line (text_of "c:hl:t:vV") (tl argv)) as [l e]. cbn [fst] in HE.
  rewrite export_obey by exact HE. reflexivity.
Qed.

Lemma mount_options_ok fuel argv : argv <> [] -> Forall c_word argv -> (List.length (concat argv) < fuel)%nat ->
  forget (mount_options fuel argv) = tool (text_of "c:hvVX:") mount_start (tl argv).
Proof.
  intros Hn Hw HF. destruct (start_room argv fuel Hn HF) as (H1 & H2).
  unfold mount_options.
  rewrite (proj2 (options_loop_ok settings (text_of "c:hvVX:") mount_set take_source_mount_point mount_fin argv
    ltac:(letters_ok) ltac:(intros; split; reflexivity) (fun i a H => take_source_mount_point_ok argv i a H) Hw fuel first_state no_settings)
    eq_refl H1 H2).
  change (Z.to_nat (g_optind first_state)) with 1%nat. rewrite skipn_tl. unfold tool.
  pose proof (events_fit (text_of "c:hvVX:") (tl argv)) as HE.
  destruct (command_line (text_of "c:hvVX:") (tl argv)) as [l e]. cbn [fst] in HE.
  rewrite mount_obey by exact HE. unfold mount_start, end_with.
  destruct (find ends_tool l) as [[]|]; try reflexivity.
Qed.

(** The default target. *)
Lemma after_separator_ok sep : forall l,
  match after_separator sep l with
  | Some x => ~ In sep x /\ exists path, l = path ++ sep :: x
  | None => ~ In sep l
  end.
Proof.
  induction l as [|c l IH]; cbn [after_separator]; [easy|].
  destruct (after_separator sep l) as [x|].
  - destruct IH as (H & path & ->). split; [exact H|]. exists (c :: path). reflexivity.
  - destruct (Z.eqb_spec c sep) as [->|Hn].
    + split; [exact IH|]. exists []. reflexivity.
    + intros [H|H]; [congruence|now apply IH].
Qed.

Lemma default_target sep l :
  base_name sep l (match after_separator sep l with Some x => x | None => l end).
Proof.
  pose proof (after_separator_ok sep l) as H. unfold base_name.
  destruct (after_separator sep l) as [x|]; [destruct H; auto|auto].
Qed.

Lemma split_unique (sep : Z) : forall p q a b, ~ In sep a -> ~ In sep b -> p ++ sep :: a = q ++ sep :: b -> a = b.
Proof.
  induction p as [|x p IH]; intros [|y q] a b Ha Hb H.
  - now injection H as ->.
  - cbn [app] in H. injection H as <- H. exfalso. apply Ha. rewrite H. apply in_or_app. right. now left.
  - cbn [app] in H. injection H as -> H. exfalso. apply Hb. rewrite <- H. apply in_or_app. right. now left.
  - cbn [app] in H. injection H as _ H. eapply IH; eauto.
Qed.

Lemma base_name_unique sep l a b : base_name sep l a -> base_name sep l b -> a = b.
Proof.
  intros (Ha & HA) (Hb & HB). destruct HA as [->|(p & ->)], HB as [HB|(q & HB)].
  - congruence.
  - exfalso. apply Ha. rewrite HB. apply in_or_app. right. now left.
  - exfalso. apply Hb. rewrite HB. apply in_or_app. right. now left.
  - eapply split_unique; eauto.
Qed.

(** ** All that getopt tells *)

Definition told : Type := list (Z * option (list Z)) * list (list Z).

Lemma collect_obey options fin (Hfin : forall ops a, fin ops a = Ok (Start (fst a, ops))) :
  ~ In 63 options -> forall l e (a : told), Forall (event_fits options) l ->
  forget (obey told collect fin l e a) =
  if existsb is_error l then Ok (Usage false None)
  else match e with
       | Operands ops => Ok (Start (fst a ++ map tells l, ops))
       | Failed => Err
       | Dash => Undef
       end.
Proof.
  intros H63. assert (HC : forall c b arg (a : told), takes options c = Some b ->
    collect c arg a = GoOn (fst a ++ [(c, arg)], [])).
  { intros c b arg a H. unfold collect. pose proof (takes_cases _ _ _ H) as HI.
    destruct (Z.eqb_spec c 63) as [->|Hn]; [contradiction|].
    destruct (Z.eqb_spec c 58) as [->|Hm]; [|reflexivity].
    exfalso. clear -H. induction options as [|x l IH]; [discriminate|]. cbn [takes] in H.
    rewrite andb_false_r in H. auto. }
  induction l as [|v l IH]; intros e a HF.
  - cbn. destruct e; try reflexivity. rewrite Hfin, app_nil_r. reflexivity.
  - inversion HF as [|? ? Hv HF']; subst. destruct v as [c|c arg|c|c]; cbn [event_fits] in Hv; [| |reflexivity|reflexivity].
    + change (obey told collect fin (Flag c :: l) e a) with
        (match collect c None a with GoOn a => obey told collect fin l e a | Leave q => Ok q | Invalid => Ok (Usage false None) end).
      rewrite (HC c _ None a Hv). rewrite IH by exact HF'. cbn [existsb is_error orb fst map tells].
      now rewrite <- app_assoc.
    + change (obey told collect fin (WithArgument c arg :: l) e a) with
        (match collect c (Some arg) a with GoOn a => obey told collect fin l e a | Leave q => Ok q | Invalid => Ok (Usage false None) end).
      rewrite (HC c _ (Some arg) a Hv). rewrite IH by exact HF'. cbn [existsb is_error orb fst map tells].
      now rewrite <- app_assoc.
Qed.

Lemma getopt_ok options fuel argv :
  Forall (fun x => 0 < x < 128 /\ x <> 63) options ->
  argv <> [] -> Forall c_word argv -> (List.length (concat argv) < fuel)%nat ->
  forget (option_loop told options collect (fun argv i a => Ok (Start (fst a, skipn (Z.to_nat i) argv)))
            fuel argv first_state ([], [])) =
  let (l, e) := command_line options (tl argv) in
  if existsb is_error l then Ok (Usage false None)
  else match e with
       | Operands ops => Ok (Start (map tells l, ops))
       | Failed => Err
       | Dash => Undef
       end.
Proof.
  intros HO Hn Hw HF. destruct (start_room argv fuel Hn HF) as (H1 & H2).
  assert (HO1 : Forall (fun x => 0 < x < 128) options) by (eapply Forall_impl; [|exact HO]; tauto).
  assert (HO2 : ~ In 63 options) by (intros H; rewrite Forall_forall in HO; now apply (HO _ H)).
  rewrite (proj2 (options_loop_ok told options collect (fun argv i a => Ok (Start (fst a, skipn (Z.to_nat i) argv)))
    (fun ops a => Ok (Start (fst a, ops))) argv HO1 ltac:(intros; split; reflexivity)
    ltac:(intros; reflexivity) Hw fuel first_state ([], [])) eq_refl H1 H2).
  change (Z.to_nat (g_optind first_state)) with 1%nat. rewrite skipn_tl.
  pose proof (events_fit options (tl argv)) as HE.
  destruct (command_line options (tl argv)) as [l e]. cbn [fst] in HE.
  rewrite (collect_obey options) by auto. reflexivity.
Qed.

Lemma failed_last options : forall words l, command_line options words = (l, Failed) -> existsb is_error l = true.
Proof.
  intros words. remember (List.length words) as n eqn:Hn. revert words Hn.
  induction n as [n IH] using (well_founded_induction lt_wf). intros words Hn l H.
  destruct words as [|a rest]; [discriminate|].
  destruct a as [|c0 w]; [discriminate|].
  destruct (Z.eq_dec c0 45) as [->|H45].
  2:{ rewrite command_line_operand in H; [discriminate|]. intros w' H'. injection H' as ?. congruence. }
  destruct w as [|c w]; [discriminate|].
  destruct (Z.eq_dec c 45) as [->|Hc]; [discriminate|].
  rewrite command_line_word in H by exact Hc. unfold from_word in H.
  destruct (letters options (c :: w)) as [ev t]. cbn [List.length] in Hn.
  destruct t as [|c'|c'].
  - destruct (command_line options rest) as [ev' e] eqn:E. injection H as <- ->.
    rewrite existsb_app, (IH (List.length rest) ltac:(lia) rest eq_refl _ E). apply orb_true_r.
  - destruct rest as [|arg rest].
    + injection H as <-. rewrite existsb_app. apply orb_true_r.
    + cbn [List.length] in Hn. destruct (command_line options rest) as [ev' e] eqn:E. injection H as <- ->.
      rewrite existsb_app. cbn [existsb]. rewrite (IH (List.length rest) ltac:(lia) rest eq_refl _ E).
      now rewrite !orb_true_r.
  - injection H as <-. rewrite existsb_app. apply orb_true_r.
Qed.

Lemma tool_defined options start words l e : command_line options words = (l, e) -> e <> Dash ->
  exists r, tool options start words = Ok r.
Proof.
  intros H Hd. unfold tool. rewrite H. destruct (find ends_tool l) as [[]|] eqn:E; eauto.
  destruct e as [ops| |]; [eauto| |congruence].
  apply failed_last in H. apply existsb_exists in H as (x & Hx & He).
  pose proof (find_none _ _ E x Hx) as HN. destruct x; try discriminate.
Qed.

Lemma dash_word options : forall words l, command_line options words = (l, Dash) -> In [45] words.
Proof.
  intros words. remember (List.length words) as n eqn:Hn. revert words Hn.
  induction n as [n IH] using (well_founded_induction lt_wf). intros words Hn l H.
  destruct words as [|a rest]; [discriminate|].
  destruct a as [|c0 w]; [discriminate|].
  destruct (Z.eq_dec c0 45) as [->|H45].
  2:{ rewrite command_line_operand in H; [discriminate|]. intros w' H'. injection H' as ?. congruence. }
  destruct w as [|c w]; [now left|].
  destruct (Z.eq_dec c 45) as [->|Hc]; [discriminate|].
  rewrite command_line_word in H by exact Hc. unfold from_word in H.
  destruct (letters options (c :: w)) as [ev t]. cbn [List.length] in Hn.
  destruct t as [|c'|c'].
  - destruct (command_line options rest) as [ev' e] eqn:E. injection H as <- ->.
    right. exact (IH (List.length rest) ltac:(lia) rest eq_refl _ E).
  - destruct rest as [|arg rest]; [discriminate|].
    cbn [List.length] in Hn. destruct (command_line options rest) as [ev' e] eqn:E. injection H as <- ->.
    right. right. exact (IH (List.length rest) ltac:(lia) rest eq_refl _ E).
  - discriminate.
Qed.

Lemma tool_answers options start words : ~ In [45] words -> exists r, tool options start words = Ok r.
Proof.
  intros H. destruct (command_line options words) as [l e] eqn:E.
  apply (tool_defined options start words l e E). intros ->. apply H. eapply dash_word, E.
Qed.

Lemma forget_answers {A} (r : res (request A)) x : forget r = Ok x -> exists y, r = Ok y.
Proof. destruct r as [y| | |]; cbn; [eauto|discriminate..]. Qed.
