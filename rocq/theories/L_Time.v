(** Lemmas on the conversion of timestamps to dates. *)
From Coq Require Import ZArith List Bool Lia Zify ZifyClasses.
From Verif Require Import Base M_Time Spec_Time.
Import ListNotations.
Open Scope Z_scope.

(** * Loops with a decreasing measure *)
Section Loops.
Context {S R : Type}.
Variable f : S -> pass S R.
Variable I : S -> Prop.
Variable Q : R -> Prop.
Variable m : S -> Z.
Hypothesis Hf : forall s, I s ->
  match f s with Next s' => I s' /\ m s' < m s | Done r => Q r end.

Lemma passes_ok : forall p s, I s ->
  match passes p f s with Next s' => I s' /\ m s' <= m s - Zpos p | Done r => Q r end.
Proof.
  induction p as [p IH|p IH|]; intros s Hs; cbn [passes].
  - specialize (Hf s Hs). destruct (f s) as [s1|r]; [|exact Hf]. destruct Hf as [H1 H1m].
    specialize (IH s1 H1) as A. destruct (passes p f s1) as [s2|r]; [|exact A]. destruct A as [H2 H2m].
    specialize (IH s2 H2) as B. destruct (passes p f s2) as [s3|r]; [|exact B]. destruct B as [H3 H3m].
    split; [exact H3|lia].
  - specialize (IH s Hs) as A. destruct (passes p f s) as [s2|r]; [|exact A]. destruct A as [H2 H2m].
    specialize (IH s2 H2) as B. destruct (passes p f s2) as [s3|r]; [|exact B]. destruct B as [H3 H3m].
    split; [exact H3|lia].
  - specialize (Hf s Hs). destruct (f s) as [s1|r]; [|exact Hf]. destruct Hf. split; [assumption|lia].
Qed.

Lemma while_ok : forall s, I s -> (forall s, I s -> 0 <= m s) -> m s < 18446744073709551616 ->
  exists r, while f s = Ok r /\ Q r.
Proof.
  intros s Hs H0 Hm. unfold while. pose proof (passes_ok 18446744073709551616 s Hs) as H.
  destruct (passes _ f s) as [s'|r].
  - destruct H as [Hs' H]. specialize (H0 s' Hs'). lia.
  - eauto.
Qed.
End Loops.

(** * The calendar as a number of days *)
Definition days_before_year (y : Z) : Z :=
  365 * (y - 1) + (y - 1) / 4 - (y - 1) / 100 + (y - 1) / 400.

Definition days_before_month (y m : Z) : Z :=
  fold_right Z.add 0 (firstn (Z.to_nat (m - 1)) (month_lengths y)).

Definition day_number (d : date) : Z :=
  let '(y, m, n) := d in days_before_year y + days_before_month y m + n.

Definition year_days (y : Z) : Z := if leapb y then 366 else 365.

Lemma leap_test_eq y : leap_test y = leapb y.
Proof.
  unfold leap_test, leapb. destruct (y mod 400 =? 0) eqn:E4; [|rewrite !orb_false_r; reflexivity].
  apply Z.eqb_eq in E4. assert (y mod 4 = 0) as -> by (Z.to_euclidean_division_equations; lia).
  rewrite !orb_true_r. reflexivity.
Qed.

Lemma div_step y k : 0 < k -> y / k = (y - 1) / k + if y mod k =? 0 then 1 else 0.
Proof.
  intros Hk. pose proof (Z.div_mod y k ltac:(lia)) as E. pose proof (Z.mod_pos_bound y k Hk) as B.
  destruct (y mod k =? 0) eqn:Em; [apply Z.eqb_eq in Em|apply Z.eqb_neq in Em].
  - assert ((y - 1) / k = y / k - 1); [|lia]. symmetry. apply Z.div_unique with (r := k - 1); lia.
  - assert ((y - 1) / k = y / k); [|lia]. symmetry. apply Z.div_unique with (r := y mod k - 1); lia.
Qed.

Lemma year_step y : days_before_year (y + 1) = days_before_year y + year_days y.
Proof.
  unfold days_before_year, year_days. rewrite <- leap_test_eq. unfold leap_test.
  replace (y + 1 - 1) with y by lia. rewrite (div_step y 4), (div_step y 100), (div_step y 400) by lia.
  assert (y mod 400 = 0 -> y mod 100 = 0) by (Z.to_euclidean_division_equations; lia).
  assert (y mod 100 = 0 -> y mod 4 = 0) by (Z.to_euclidean_division_equations; lia).
  destruct (y mod 4 =? 0) eqn:E1; destruct (y mod 100 =? 0) eqn:E2; destruct (y mod 400 =? 0) eqn:E3; cbn [andb orb negb];
  repeat match goal with H : (_ =? _) = true |- _ => apply Z.eqb_eq in H | H : (_ =? _) = false |- _ => apply Z.eqb_neq in H end;
  lia.
Qed.

Lemma century_step y : y mod 100 = 0 ->
  days_before_year (y + 100) = days_before_year y + if y mod 400 =? 0 then 36525 else 36524.
Proof.
  unfold days_before_year. intros H.
  destruct (y mod 400 =? 0) eqn:E3; [apply Z.eqb_eq in E3|apply Z.eqb_neq in E3];
  Z.to_euclidean_division_equations; lia.
Qed.

Lemma year_mono y z : y <= z -> days_before_year y <= days_before_year z.
Proof. unfold days_before_year. intros H. Z.to_euclidean_division_equations; lia. Qed.

Lemma year_mono_inv y z : days_before_year y < days_before_year z -> y < z.
Proof. intros H. destruct (Z_lt_le_dec y z); [assumption|]. pose proof (year_mono z y). lia. Qed.

Lemma month_range y m len : znth (month_lengths y) (m - 1) = Some len -> 1 <= m <= 12.
Proof.
  unfold znth. destruct (m - 1 <? 0) eqn:E; [discriminate|]. apply Z.ltb_ge in E. intros H.
  assert (Z.to_nat (m - 1) < length (month_lengths y))%nat by (apply nth_error_Some; congruence).
  cbn in H0. lia.
Qed.

Lemma months m : 1 <= m <= 12 ->
  m = 1 \/ m = 2 \/ m = 3 \/ m = 4 \/ m = 5 \/ m = 6 \/ m = 7 \/ m = 8 \/ m = 9 \/ m = 10 \/ m = 11 \/ m = 12.
Proof. lia. Qed.

Ltac each_month H := apply months in H; destruct H as [->|[->|[->|[->|[->|[->|[->|[->|[->|[->|[->| ->]]]]]]]]]]].

Lemma month_days_eq y m : month_days y m = znth (month_lengths y) (m - 1).
Proof.
  destruct (Z_lt_le_dec m 1) as [H|H]; [|destruct (Z_lt_le_dec 12 m) as [H'|H']].
  - unfold month_days, znth. replace (m - 1 <? 0) with true by (symmetry; apply Z.ltb_lt; lia).
    repeat match goal with |- context [m =? ?k] => replace (m =? k) with false by (symmetry; apply Z.eqb_neq; lia) end.
    reflexivity.
  - unfold month_days, znth. replace (m - 1 <? 0) with false by (symmetry; apply Z.ltb_ge; lia).
    repeat match goal with |- context [m =? ?k] => replace (m =? k) with false by (symmetry; apply Z.eqb_neq; lia) end.
    cbn. symmetry. apply nth_error_None. cbn. lia.
  - assert (Hm : 1 <= m <= 12) by lia. unfold month_days. rewrite leap_test_eq. each_month Hm; reflexivity.
Qed.

Lemma month_step y m len : znth (month_lengths y) (m - 1) = Some len ->
  days_before_month y (m + 1) = days_before_month y m + len /\ 28 <= len <= 31.
Proof.
  intros H. pose proof (month_range _ _ _ H) as Hm. unfold days_before_month, month_lengths in *.
  destruct (leapb y); each_month Hm; cbn in H; injection H as <-; (split; [reflexivity|lia]).
Qed.

Lemma month_some y m : 1 <= m <= 12 -> exists len, znth (month_lengths y) (m - 1) = Some len.
Proof. intros Hm. each_month Hm; eexists; reflexivity. Qed.

Lemma months_of_year y : days_before_month y 13 = year_days y.
Proof. unfold days_before_month, year_days, month_lengths. destruct (leapb y); reflexivity. Qed.

Lemma month_mono y m n : 1 <= m -> m <= n -> n <= 13 -> days_before_month y m <= days_before_month y n.
Proof.
  intros H1 H2. pattern n. apply Zlt_lower_bound_ind with (z := m); [|assumption]. clear n H2. intros n IH Hmn Hn.
  destruct (Z.eq_dec m n) as [->|]; [lia|]. destruct (month_some y (n - 1)) as [len Hl]; [lia|].
  destruct (month_step _ _ _ Hl) as [E ?]. replace (n - 1 + 1) with n in E by lia. specialize (IH (n - 1)). lia.
Qed.

Lemma first_month y : days_before_month y 1 = 0.
Proof. reflexivity. Qed.

Lemma day_in_year y m n : valid_date (y, m, n) ->
  1 <= m <= 12 /\ 1 <= days_before_month y m + n <= year_days y.
Proof.
  intros (_ & len & Hl & Hn). pose proof (month_range _ _ _ Hl) as Hm. split; [exact Hm|].
  destruct (month_step _ _ _ Hl) as [E _]. pose proof (month_mono y 1 m). pose proof (month_mono y (m + 1) 13).
  rewrite first_month in *. rewrite months_of_year in *. lia.
Qed.

Lemma day_number_inj d e : valid_date d -> valid_date e -> day_number d = day_number e -> d = e.
Proof.
  destruct d as [[y m] n], e as [[y' m'] n']. intros Hd He H. cbn in H.
  pose proof (day_in_year _ _ _ Hd) as [Hm Bd]. pose proof (day_in_year _ _ _ He) as [Hm' Be].
  assert (y = y').
  { pose proof (year_step y). pose proof (year_step y').
    destruct (Z.lt_trichotomy y y') as [L|[L|L]]; [|exact L|];
    [pose proof (year_mono (y + 1) y')|pose proof (year_mono (y' + 1) y)]; lia. }
  subst y'. destruct Hd as (_ & len & Hl & Hn), He as (_ & len' & Hl' & Hn').
  destruct (month_step _ _ _ Hl) as [E _]. destruct (month_step _ _ _ Hl') as [E' _].
  assert (m = m').
  { destruct (Z.lt_trichotomy m m') as [L|[L|L]]; [|exact L|];
    [pose proof (month_mono y (m + 1) m')|pose proof (month_mono y (m' + 1) m)]; lia. }
  subst m'. f_equal. lia.
Qed.

Lemma tomorrow_ok d : valid_date d -> valid_date (tomorrow d) /\ day_number (tomorrow d) = day_number d + 1.
Proof.
  destruct d as [[y m] n]. intros (Hy & len & Hl & Hn). pose proof (month_range _ _ _ Hl) as Hm.
  unfold tomorrow. rewrite Hl. destruct (month_step _ _ _ Hl) as [E ?].
  destruct (n <? len) eqn:El; [apply Z.ltb_lt in El|apply Z.ltb_ge in El; destruct (m <? 12) eqn:Em].
  - split; [cbn [valid_date]; eauto with zarith|]. cbn. lia.
  - apply Z.ltb_lt in Em. destruct (month_some y (m + 1)) as [len' Hl']; [lia|].
    destruct (month_step _ _ _ Hl'). split; [split; [lia|]; exists len'; split; [exact Hl'|lia]|]. cbn. lia.
  - apply Z.ltb_ge in Em. assert (m = 12) by lia. subst m. split; [split; [lia|]; exists 31; split; [reflexivity|lia]|].
    cbn [day_number]. rewrite first_month, year_step, <- months_of_year. change (12 + 1) with 13 in E. lia.
Qed.

Lemma days_after_ok n d : 0 <= n -> valid_date d ->
  valid_date (days_after n d) /\ day_number (days_after n d) = day_number d + n.
Proof.
  intros Hn Hd. unfold days_after.
  assert (H : forall k, valid_date (Nat.iter k tomorrow d) /\
                        day_number (Nat.iter k tomorrow d) = day_number d + Z.of_nat k).
  { induction k as [|k [IH1 IH2]]; [split; [exact Hd|change (Nat.iter 0 tomorrow d) with d; lia]|].
    change (Nat.iter (Datatypes.S k) tomorrow d) with (tomorrow (Nat.iter k tomorrow d)).
    destruct (tomorrow_ok _ IH1) as [H1 H2]. split; [exact H1|]. rewrite H2, IH2. lia. }
  destruct (H (Z.to_nat n)) as [H1 H2]. split; [exact H1|]. rewrite H2. lia.
Qed.

Lemma days_after_is n d e : 0 <= n -> valid_date d -> valid_date e -> day_number e = day_number d + n ->
  e = days_after n d.
Proof.
  intros Hn Hd He H. destruct (days_after_ok n d Hn Hd) as [H1 H2]. apply day_number_inj; [exact He|exact H1|lia].
Qed.

(** * The three loops *)
Definition LAST_DAY : Z := days_before_year 65536.

Lemma u16_id x : 0 <= x < 65536 -> u16 x = x.
Proof. apply Z.mod_small. Qed.
Lemma u8_id x : 0 <= x < 256 -> u8 x = x.
Proof. apply Z.mod_small. Qed.

Lemma centuries_ok y n : 1 <= y -> 1 <= n < 18446744073709551616 -> (n <= 36524 \/ y mod 100 = 0) ->
  days_before_year y + n <= LAST_DAY ->
  exists y' n' k, while century_pass (y, n, 0) = Ok (y', n', k) /\ 1 <= y' /\ 1 <= n' <= 36525 /\
    days_before_year y' + n' = days_before_year y + n.
Proof.
  intros Hy Hn Hc HL.
  destruct (while_ok century_pass
    (fun s => let '(y', n', _) := s in 1 <= y' /\ 1 <= n' /\ (n' <= 36524 \/ y' mod 100 = 0) /\
        days_before_year y' + n' = days_before_year y + n)
    (fun s => let '(y', n', _) := s in 1 <= y' /\ 1 <= n' <= 36525 /\
        days_before_year y' + n' = days_before_year y + n)
    (fun s => snd (fst s))) with (s := (y, n, 0)) as ([[y' n'] k] & E & H).
  - intros [[y' n'] k] (H1 & H2 & H3 & H4). unfold century_pass.
    replace (n' <=? 0) with false by (symmetry; apply Z.leb_gt; lia).
    set (dc := if y' mod 400 =? 0 then 36525 else 36524).
    assert (Hdc : 36524 <= dc <= 36525) by (unfold dc; destruct (y' mod 400 =? 0); lia).
    destruct (n' <=? dc) eqn:E.
    + apply Z.leb_le in E. repeat split; lia.
    + apply Z.leb_gt in E. destruct H3 as [H3|H3]; [lia|]. pose proof (century_step y' H3) as Hs. fold dc in Hs.
      assert (y' + 100 < 65536) by (apply year_mono_inv; fold LAST_DAY; lia).
      rewrite u16_id by lia. cbn [fst snd]. split; [|lia]. split; [lia|]. split; [lia|]. split; [|lia].
      right. replace (y' + 100) with (y' + 1 * 100) by lia. rewrite Z.mod_add by lia. exact H3.
  - repeat split; try lia; assumption.
  - intros [[y' n'] k]. cbn. lia.
  - cbn. lia.
  - exists y', n', k. auto.
Qed.

Lemma years_ok y n : 1 <= y -> 1 <= n <= 36525 -> days_before_year y + n <= LAST_DAY ->
  exists y' n', while year_pass (y, n) = Ok (y', n') /\ 1 <= y' /\ 1 <= n' <= year_days y' /\
    days_before_year y' + n' = days_before_year y + n.
Proof.
  intros Hy Hn HL.
  destruct (while_ok year_pass
    (fun s => let '(y', n') := s in 1 <= y' /\ 1 <= n' /\ days_before_year y' + n' = days_before_year y + n)
    (fun s => let '(y', n') := s in 1 <= y' /\ 1 <= n' <= year_days y' /\
        days_before_year y' + n' = days_before_year y + n)
    (fun s => snd s)) with (s := (y, n)) as ([y' n'] & E & H).
  - intros [y' n'] (H1 & H2 & H4). unfold year_pass. rewrite leap_test_eq. fold (year_days y').
    replace (n' <=? 0) with false by (symmetry; apply Z.leb_gt; lia).
    assert (365 <= year_days y') by (unfold year_days; destruct (leapb y'); lia).
    destruct (n' <=? year_days y') eqn:E.
    + apply Z.leb_le in E. repeat split; lia.
    + apply Z.leb_gt in E. pose proof (year_step y') as Hs.
      assert (y' + 1 < 65536) by (apply year_mono_inv; fold LAST_DAY; lia).
      rewrite u16_id by lia. cbn [fst snd]. repeat split; lia.
  - repeat split; try lia; assumption.
  - intros [y' n']. cbn. lia.
  - cbn. lia.
  - exists y', n'. auto.
Qed.

Lemma months_ok y n : 1 <= y -> 1 <= n <= year_days y ->
  exists m n', while (month_pass y) (1, n) = Ok (Some (m, n')) /\ valid_date (y, m, n') /\
    days_before_month y m + n' = n.
Proof.
  intros Hy Hn. assert (year_days y <= 366) by (unfold year_days; destruct (leapb y); lia).
  destruct (while_ok (month_pass y)
    (fun s => let '(m, n') := s in 1 <= m <= 12 /\ 1 <= n' /\ days_before_month y m + n' = n)
    (fun s => match s with Some (m, n') => valid_date (y, m, n') /\ days_before_month y m + n' = n | None => False end)
    (fun s => snd s)) with (s := (1, n)) as ([[m n']|] & E & H'); cbn [snd] in *.
  - intros [m n'] (H1 & H2 & H4). unfold month_pass. rewrite month_days_eq.
    replace (n' <=? 0) with false by (symmetry; apply Z.leb_gt; lia).
    destruct (month_some y m H1) as [len Hl]. rewrite Hl. destruct (month_step _ _ _ Hl) as [Hs Hlen].
    destruct (n' <=? len) eqn:E.
    + apply Z.leb_le in E. split; [|lia]. split; [lia|]. exists len. split; [exact Hl|lia].
    + apply Z.leb_gt in E. cbn [snd]. assert (m <> 12).
      { intros ->. rewrite <- months_of_year in Hn. replace 13 with (12 + 1) in Hn by lia. lia. }
      rewrite u8_id by lia. repeat split; lia.
  - rewrite first_month. lia.
  - intros [m n']. cbn. lia.
  - lia.
  - exists m, n'. auto.
  - destruct H'.
Qed.

(** From a year and a day of it, counted from 1, to the date. *)
Lemma time_elements_ok y n h mi s us :
  1 <= y -> 1 <= n < 18446744073709551616 -> (n <= 36524 \/ y mod 100 = 0) ->
  days_before_year y + n <= LAST_DAY ->
  exists c, time_elements y n h mi s us = Ok (Some c) /\
    (dc_year c, dc_month c, dc_day c) = days_after (n - 1) (y, 1, 1) /\
    dc_hours c = h /\ dc_minutes c = mi /\ dc_seconds c = s /\ dc_micro_seconds c = us.
Proof.
  intros Hy Hn Hc HL. destruct (centuries_ok y n Hy Hn Hc HL) as (y1 & n1 & k & E1 & Hy1 & Hn1 & D1).
  destruct (years_ok y1 n1 Hy1 Hn1) as (y2 & n2 & E2 & Hy2 & Hn2 & D2); [lia|].
  destruct (months_ok y2 n2 Hy2 Hn2) as (m & n3 & E3 & V & D3).
  assert (Hn3 : 1 <= n3 <= 31).
  { destruct V as (_ & len & Hl & ?). destruct (month_step _ _ _ Hl). lia. }
  unfold time_elements. rewrite E1. cbn [rbind]. rewrite E2. cbn [rbind]. rewrite E3. cbn [rbind].
  eexists. split; [reflexivity|]. cbn. rewrite u8_id by lia.
  split; [|repeat split]. apply days_after_is; [lia| |exact V|].
  - split; [exact Hy|]. exists 31. split; [reflexivity|lia].
  - cbn [day_number]. rewrite first_month. lia.
Qed.

Lemma time_elements_zero y h mi s us :
  time_elements y 0 h mi s us =
  Ok (Some {| dc_year := y; dc_month := 1; dc_day := 0; dc_hours := h; dc_minutes := mi;
              dc_seconds := s; dc_micro_seconds := us |}).
Proof. reflexivity. Qed.

Lemma days_after_add n k d : 0 <= n -> 0 <= k -> valid_date d -> days_after n (days_after k d) = days_after (k + n) d.
Proof.
  intros Hn Hk Hd. destruct (days_after_ok k d Hk Hd) as [V1 E1]. destruct (days_after_ok n _ Hn V1) as [V2 E2].
  apply days_after_is; [lia|exact Hd|exact V2|lia].
Qed.

Lemma jan_first y : 1 <= y -> valid_date (y, 1, 1).
Proof. intros Hy. split; [exact Hy|]. exists 31. split; [reflexivity|lia]. Qed.

Lemma jan_first_after y z : 1 <= y -> y <= z ->
  days_after (days_before_year z - days_before_year y) (y, 1, 1) = (z, 1, 1).
Proof.
  intros Hy Hz. symmetry. pose proof (year_mono y z Hz).
  apply days_after_is; [lia|apply jan_first; lia|apply jan_first; lia|]. cbn [day_number]. rewrite !first_month. lia.
Qed.

(** Two starts of a table of years: before [z] from [y], after it from [z].
    The day before [z] is converted to day 0. *)
Lemma two_starts y z n h mi s us :
  1 <= y -> y <= z -> z mod 100 = 0 -> 1 <= days_before_year z - days_before_year y <= 36525 ->
  1 <= n < 18446744073709551616 ->
  days_before_year y + n <= LAST_DAY ->
  let first := days_before_year z - days_before_year y in
  let r := if first <=? n then time_elements z (n - first) h mi s us else time_elements y n h mi s us in
  (n = first -> r = Ok (Some {| dc_year := z; dc_month := 1; dc_day := 0; dc_hours := h; dc_minutes := mi;
                                dc_seconds := s; dc_micro_seconds := us |})) /\
  (n <> first -> exists c, r = Ok (Some c) /\
    (dc_year c, dc_month c, dc_day c) = days_after (n - 1) (y, 1, 1) /\
    dc_hours c = h /\ dc_minutes c = mi /\ dc_seconds c = s /\ dc_micro_seconds c = us).
Proof.
  intros Hy Hz Hc Hf Hn HL first r. unfold r. split.
  - intros ->. rewrite Z.leb_refl, Z.sub_diag. apply time_elements_zero.
  - intros Hne. destruct (first <=? n) eqn:E.
    + apply Z.leb_le in E. destruct (time_elements_ok z (n - first) h mi s us) as (c & Ec & Ed & Er);
        try (unfold first in *; lia).
      exists c. split; [exact Ec|]. split; [|exact Er]. rewrite Ed.
      rewrite <- (jan_first_after y z Hy Hz). fold first. rewrite days_after_add by (try apply jan_first; unfold first in *; lia).
      f_equal. lia.
    + apply Z.leb_gt in E. apply time_elements_ok; unfold first in *; lia.
Qed.

(** The loops end whatever the start is. *)
Lemma time_elements_defined y n h mi s us : 0 <= n < 18446744073709551616 ->
  exists c, time_elements y n h mi s us = Ok (Some c).
Proof.
  intros Hn.
  destruct (while_ok century_pass (fun t => 0 <= snd (fst t)) (fun t => 0 <= snd (fst t) <= 36525) (fun t => snd (fst t)))
    with (s := (y, n, 0)) as ([[y1 n1] k] & E1 & H1); cbn [fst snd] in *; try lia.
  { intros [[y' n'] k]. cbn [fst snd]. intros H. unfold century_pass. destruct (n' <=? 0) eqn:E; [apply Z.leb_le in E; cbn; lia|].
    apply Z.leb_gt in E. destruct (y' mod 400 =? 0);
    (match goal with |- context [n' <=? ?k] => destruct (n' <=? k) eqn:E' end;
     [apply Z.leb_le in E'|apply Z.leb_gt in E']; cbn [fst snd]; lia). }
  destruct (while_ok year_pass (fun t => 0 <= snd t) (fun t => 0 <= snd t <= year_days (fst t)) (fun t => snd t))
    with (s := (y1, n1)) as ([y2 n2] & E2 & H2); cbn [fst snd] in *; try lia.
  { intros [y' n']. cbn [fst snd]. intros H. unfold year_pass. rewrite leap_test_eq. fold (year_days y').
    assert (365 <= year_days y') by (unfold year_days; destruct (leapb y'); lia).
    destruct (n' <=? 0) eqn:E; [apply Z.leb_le in E; cbn; lia|]. apply Z.leb_gt in E.
    destruct (n' <=? year_days y') eqn:E'; [apply Z.leb_le in E'|apply Z.leb_gt in E']; cbn [fst snd]; lia. }
  assert (year_days y2 <= 366) by (unfold year_days; destruct (leapb y2); lia).
  destruct (while_ok (month_pass y2)
    (fun t => let '(m, n') := t in 1 <= m <= 12 /\ 0 <= n' /\ days_before_month y2 m + n' = n2)
    (fun t => t <> None) (fun t => snd t)) with (s := (1, n2)) as ([[m n']|] & E & H'); cbn [snd] in *.
  - intros [m n'] (H1' & H2' & H4). unfold month_pass. rewrite month_days_eq.
    destruct (n' <=? 0) eqn:E0; [discriminate|]. apply Z.leb_gt in E0.
    destruct (month_some y2 m H1') as [len Hl]. rewrite Hl. destruct (month_step _ _ _ Hl) as [Hs Hlen].
    destruct (n' <=? len) eqn:E; [discriminate|]. apply Z.leb_gt in E. cbn [snd]. assert (m <> 12).
    { intros ->. rewrite <- months_of_year in H2. replace 13 with (12 + 1) in H2 by lia. lia. }
    rewrite u8_id by lia. repeat split; lia.
  - rewrite first_month. lia.
  - intros [m n']. cbn. lia.
  - lia.
  - unfold time_elements. rewrite E1. cbn [rbind]. rewrite E2. cbn [rbind]. rewrite E. cbn [rbind]. eauto.
  - congruence.
Qed.

(** The passes of the loop over the centuries. *)
Lemma century_passes y n : 0 <= n < 18446744073709551616 ->
  exists y' n' k, while century_pass (y, n, 0) = Ok (y', n', k) /\ n <= 36525 * (k + 1).
Proof.
  intros Hn.
  destruct (while_ok century_pass
    (fun t => let '(_, n', k) := t in 0 <= n' /\ n <= n' + 36525 * k)
    (fun t => let '(_, n', k) := t in n <= 36525 * (k + 1))
    (fun t => snd (fst t))) with (s := (y, n, 0)) as ([[y1 n1] k] & E1 & H1); cbn [fst snd] in *; try lia.
  - intros [[y' n'] k] [H H']. unfold century_pass. destruct (n' <=? 0) eqn:E; [apply Z.leb_le in E; lia|].
    apply Z.leb_gt in E. destruct (y' mod 400 =? 0);
    (match goal with |- context [n' <=? ?k] => destruct (n' <=? k) eqn:E' end;
     [apply Z.leb_le in E'|apply Z.leb_gt in E']; cbn [fst snd]; lia).
  - intros [[y' n'] k]. cbn. lia.
  - eauto.
Qed.

(** * Splitting a time into days, hours, minutes and seconds *)
Lemma split_time t : 0 <= t ->
  let h := u8 (t / 60 / 60 mod 24) in let m := u8 (t / 60 mod 60) in let s := u8 (t mod 60) in
  let n := t / 60 / 60 / 24 in
  0 <= h < 24 /\ 0 <= m < 60 /\ 0 <= s < 60 /\ 0 <= n /\ t = ((n * 24 + h) * 60 + m) * 60 + s /\ n = t / 86400.
Proof.
  intros Ht h m s n.
  assert (Hh : h = t / 60 / 60 mod 24) by (apply u8_id; pose proof (Z.mod_pos_bound (t / 60 / 60) 24); lia).
  assert (Hm : m = t / 60 mod 60) by (apply u8_id; pose proof (Z.mod_pos_bound (t / 60) 60); lia).
  assert (Hs : s = t mod 60) by (apply u8_id; pose proof (Z.mod_pos_bound t 60); lia).
  rewrite Hh, Hm, Hs.
  pose proof (Z.mod_pos_bound (t / 60 / 60) 24). pose proof (Z.mod_pos_bound (t / 60) 60). pose proof (Z.mod_pos_bound t 60).
  pose proof (Z.div_mod t 60 ltac:(lia)). pose proof (Z.div_mod (t / 60) 60 ltac:(lia)).
  pose proof (Z.div_mod (t / 60 / 60) 24 ltac:(lia)).
  unfold n. clearbody h m s. clear n.
  repeat split; try lia.
  rewrite !Z.div_div by lia. reflexivity.
Qed.

Lemma valid_date_not_day0 y m : ~ valid_date (y, m, 0).
Proof. intros (_ & len & _ & H). lia. Qed.

(** * FILETIME *)
Lemma filetime_call ft : 0 <= ft < 2 ^ 64 ->
  exists n h mi s us rest,
    0 <= n /\ 0 <= h < 24 /\ 0 <= mi < 60 /\ 0 <= s < 60 /\ 0 <= rest < 10000000 /\
    us = rest * 1000000 / 10000000 /\ 0 <= us < 1000000 /\
    ft = (((n * 24 + h) * 60 + mi) * 60 + s) * 10000000 + rest /\ n = ft / 864000000000 /\ n <= 21350398 /\
    new_from_filetime ft = if 36159 <=? n + 1 then time_elements 1700 (n + 1 - 36159) h mi s us
                           else time_elements 1601 (n + 1) h mi s us.
Proof.
  intros Hft. change (2 ^ 64) with 18446744073709551616 in Hft.
  assert (H1 : 0 <= ft / 10000000) by (apply Z.div_pos; lia).
  destruct (split_time _ H1) as (Hh & Hm & Hs & Hn & Ht & En). cbv zeta in *.
  pose proof (Z.mod_pos_bound ft 10000000 ltac:(lia)) as Hr. pose proof (Z.div_mod ft 10000000 ltac:(lia)) as Ed.
  rewrite (Z.div_div ft 10000000 86400) in En by lia. change (10000000 * 86400) with 864000000000 in En.
  assert (Hmax : ft / 864000000000 <= 21350398) by (apply Z.lt_succ_r, Z.div_lt_upper_bound; lia).
  unfold new_from_filetime. cbv zeta.
  set (h := u8 (ft / 10000000 / 60 / 60 mod 24)) in *. set (m := u8 (ft / 10000000 / 60 mod 60)) in *.
  set (s := u8 (ft / 10000000 mod 60)) in *. set (n := ft / 10000000 / 60 / 60 / 24) in *.
  exists n, h, m, s, (ft mod 10000000 / 10), (ft mod 10000000).
  assert (Eu : ft mod 10000000 / 10 = ft mod 10000000 * 1000000 / 10000000).
  { change 10000000 with (10 * 1000000) at 3. rewrite Z.div_mul_cancel_r by lia. reflexivity. }
  repeat split; try lia.
  - apply Z.div_pos; lia.
  - apply Z.div_lt_upper_bound; lia.
  - unfold u32, u64, TWO32. rewrite (Z.mod_small (ft mod 10000000)) by lia.
    rewrite (Z.mod_small (n + 1)) by lia. reflexivity.
Qed.

Lemma filetime_cases ft : 0 <= ft < 2 ^ 64 ->
  (ft / 864000000000 = 36158 ->
   exists c, new_from_filetime ft = Ok (Some c) /\ (dc_year c, dc_month c, dc_day c) = (1700, 1, 0)) /\
  (ft / 864000000000 <> 36158 ->
   exists c, new_from_filetime ft = Ok (Some c) /\ exact_call 10000000 ft (1601, 1, 1) c).
Proof.
  intros Hft. destruct (filetime_call ft Hft) as (n & h & mi & s & us & rest & Hn & Hh & Hm & Hs & Hr & Eu & Hu & Et & En & Hmax & ->).
  rewrite <- En.
  destruct (two_starts 1601 1700 (n + 1) h mi s us) as [A B]; try reflexivity; try lia.
  { vm_compute. split; discriminate. }
  { change LAST_DAY with 23936166. change (days_before_year 1601) with 584388. lia. }
  change (days_before_year 1700 - days_before_year 1601) with 36159 in A, B.
  split.
  - intros E. rewrite A by lia. eexists. split; reflexivity.
  - intros E. destruct B as (c & Ec & Ed & Eh & Em & Es & Ems); [lia|]. exists c. split; [exact Ec|].
    unfold exact_call. rewrite Eh, Em, Es, Ems. repeat split; try lia.
    exists n, rest. repeat split; try lia. rewrite Ed. f_equal. lia.
Qed.

Lemma filetime_python ft : 0 <= ft < 2 ^ 64 ->
  exists c, new_from_filetime ft = Ok (Some c) /\
    (python_accepts c <-> ft < 2650467744000000000 /\ ft / 864000000000 <> 36158).
Proof.
  intros Hft. destruct (filetime_cases ft Hft) as [A B].
  destruct (Z.eq_dec (ft / 864000000000) 36158) as [E|E].
  - destruct (A E) as (c & Ec & Ed). exists c. split; [exact Ec|]. split; [|lia].
    intros (_ & V & _). rewrite Ed in V. destruct (valid_date_not_day0 _ _ V).
  - destruct (B E) as (c & Ec & Hh & Hm & Hs & Hu & n & rest & Hn & Hr & Ed & Et & _). exists c. split; [exact Ec|].
    destruct (days_after_ok n (1601, 1, 1) Hn) as [V D]; [apply jan_first; lia|]. rewrite <- Ed in V, D.
    cbn [day_number] in D. rewrite first_month in D.
    pose proof (day_in_year _ _ _ V) as [_ Hy]. pose proof (year_step (dc_year c)) as Hs'.
    change (days_before_year 1601) with 584388 in D.
    assert (Hk : dc_year c <= 9999 <-> n < 3067671).
    { change 3067671 with (days_before_year 10000 - 584388). split; intros L.
      - pose proof (year_mono (dc_year c + 1) 10000). lia.
      - destruct (Z_lt_le_dec 9999 (dc_year c)); [|lia]. pose proof (year_mono 10000 (dc_year c)). lia. }
    unfold python_accepts. split; [intros (Hp & _)|intros (Hp & _)]; [split; [|exact E]|].
    + lia.
    + split; [apply Hk; lia|]. split; [exact V|]. lia.
Qed.

(** * HFS and POSIX times *)
Lemma hfs_cases t : 0 <= t < 2 ^ 32 ->
  exists c, new_from_hfs_time t = Ok (Some c) /\
    (t / 86400 <> 35063 -> exact_call 1 t (1904, 1, 1) c) /\
    (t / 86400 = 35063 -> (dc_year c, dc_month c, dc_day c) = (2000, 1, 0) /\ ~ python_accepts c).
Proof.
  intros Ht. change (2 ^ 32) with 4294967296 in Ht. destruct (split_time t) as (Hh & Hm & Hs & Hn & Et & En); [lia|].
  cbv zeta in *. unfold new_from_hfs_time. cbv zeta.
  set (h := u8 (t / 60 / 60 mod 24)) in *. set (m := u8 (t / 60 mod 60)) in *. set (s := u8 (t mod 60)) in *.
  set (n := t / 60 / 60 / 24) in *. rewrite <- En.
  assert (Hmax : n <= 49710) by (rewrite En; apply Z.lt_succ_r, Z.div_lt_upper_bound; lia).
  unfold u32, TWO32. rewrite (Z.mod_small (n + 1)) by lia.
  destruct (two_starts 1904 2000 (n + 1) h m s 0) as [A B]; try reflexivity; try lia.
  { vm_compute. split; discriminate. }
  { change LAST_DAY with 23936166. change (days_before_year 1904) with 695055. lia. }
  change (days_before_year 2000 - days_before_year 1904) with 35064 in A, B.
  destruct (Z.eq_dec n 35063) as [E|E].
  - rewrite A by lia. eexists. split; [reflexivity|]. split; [lia|]. intros _. split; [reflexivity|].
    intros (_ & V & _). exact (valid_date_not_day0 _ _ V).
  - destruct B as (c & Ec & Ed & Eh & Em & Es & Ems); [lia|]. exists c. split; [exact Ec|]. split; [|lia]. intros _.
    unfold exact_call. rewrite Eh, Em, Es, Ems. repeat split; try lia.
    exists n, 0. repeat split; try lia. rewrite Ed. f_equal. lia.
Qed.

Lemma posix_elements_cases t us : 0 <= t < 2005949145600 ->
  exists c h m s n, posix_elements t us = Ok (Some c) /\
    dc_hours c = h /\ dc_minutes c = m /\ dc_seconds c = s /\ dc_micro_seconds c = us /\
    0 <= h < 24 /\ 0 <= m < 60 /\ 0 <= s < 60 /\ 0 <= n /\ t = ((n * 24 + h) * 60 + m) * 60 + s /\ n = t / 86400 /\
    (n <> 10956 -> (dc_year c, dc_month c, dc_day c) = days_after n (1970, 1, 1)) /\
    (n = 10956 -> (dc_year c, dc_month c, dc_day c) = (2000, 1, 0)).
Proof.
  intros Ht. destruct (split_time t) as (Hh & Hm & Hs & Hn & Et & En); [lia|].
  cbv zeta in *. unfold posix_elements. cbv zeta.
  assert (0 <= t / 60) by (apply Z.div_pos; lia). assert (0 <= t / 60 / 60) by (apply Z.div_pos; lia).
  rewrite (Z.quot_div_nonneg t 60), (Z.quot_div_nonneg (t / 60) 60), (Z.quot_div_nonneg (t / 60 / 60) 24) by lia.
  rewrite (Z.rem_mod_nonneg t 60), (Z.rem_mod_nonneg (t / 60) 60), (Z.rem_mod_nonneg (t / 60 / 60) 24) by lia.
  set (h := u8 (t / 60 / 60 mod 24)) in *. set (m := u8 (t / 60 mod 60)) in *. set (s := u8 (t mod 60)) in *.
  set (n := t / 60 / 60 / 24) in *.
  assert (Hmax : n <= 23217003) by (rewrite En; apply Z.lt_succ_r, Z.div_lt_upper_bound; lia).
  unfold posix_start, add_s64, INT64_MIN, INT64_MAX.
  replace (n + 1 <? -9223372036854775808) with false by (symmetry; apply Z.ltb_ge; lia).
  replace (9223372036854775807 <? n + 1) with false by (symmetry; apply Z.ltb_ge; lia). cbn [orb rbind].
  destruct (two_starts 1970 2000 (n + 1) h m s us) as [A B]; try reflexivity; try lia.
  { vm_compute. split; discriminate. }
  { change LAST_DAY with 23936166. change (days_before_year 1970) with 719162. lia. }
  change (days_before_year 2000 - days_before_year 1970) with 10957 in A, B.
  assert (Er : (do (year, number_of_days) <- (if 10957 <=? n + 1 then Ok (2000, u64 (n + 1 - 10957)) else Ok (1970, u64 (n + 1)));
               time_elements year number_of_days h m s us) =
               if 10957 <=? n + 1 then time_elements 2000 (n + 1 - 10957) h m s us else time_elements 1970 (n + 1) h m s us).
  { destruct (10957 <=? n + 1) eqn:E; [apply Z.leb_le in E|apply Z.leb_gt in E]; cbn [rbind]; unfold u64;
    rewrite Z.mod_small by lia; reflexivity. }
  rewrite Er. destruct (Z.eq_dec n 10956) as [E|E].
  - rewrite A by lia. do 5 eexists. split; [reflexivity|]. cbn. repeat split; try reflexivity; try lia; assumption.
  - destruct B as (c & Ec & Ed & Eh & Em & Es & Ems); [lia|]. exists c, h, m, s, n. repeat split; try assumption; try lia.
    intros _. rewrite Ed. f_equal. lia.
Qed.

Lemma posix_cases t : 0 <= t < 2005949145600 ->
  exists c, new_from_posix_time t = Ok (Some c) /\
    (t / 86400 <> 10956 -> exact_call 1 t (1970, 1, 1) c) /\
    (t / 86400 = 10956 -> (dc_year c, dc_month c, dc_day c) = (2000, 1, 0) /\ ~ python_accepts c).
Proof.
  intros Ht. destruct (posix_elements_cases t 0 Ht) as (c & h & m & s & n & Ec & Eh & Em & Es & Eu & Hh & Hm & Hs & Hn & Et & En & A & B).
  exists c. split; [exact Ec|]. rewrite <- En. split.
  - intros E. unfold exact_call. rewrite Eh, Em, Es, Eu. repeat split; try lia.
    exists n, 0. repeat split; try lia. apply A, E.
  - intros E. specialize (B E). split; [exact B|]. intros (_ & V & _). rewrite B in V. exact (valid_date_not_day0 _ _ V).
Qed.

Lemma posix_micro_cases t : 0 <= t < 2005949145600 * 1000000 ->
  exists c, new_from_posix_time_in_micro_seconds t = Ok (Some c) /\
    (t / 86400000000 <> 10956 -> exact_call 1000000 t (1970, 1, 1) c) /\
    (t / 86400000000 = 10956 -> (dc_year c, dc_month c, dc_day c) = (2000, 1, 0) /\ ~ python_accepts c).
Proof.
  intros Ht. pose proof (Z.mod_pos_bound t 1000000 ltac:(lia)) as Hr. pose proof (Z.div_mod t 1000000 ltac:(lia)) as Ed.
  assert (0 <= t / 1000000) by (apply Z.div_pos; lia). assert (t / 1000000 < 2005949145600) by (apply Z.div_lt_upper_bound; lia).
  destruct (posix_elements_cases (t / 1000000) (t mod 1000000)) as (c & h & m & s & n & Ec & Eh & Em & Es & Eu & Hh & Hm & Hs & Hn & Et & En & A & B); [lia|].
  rewrite (Z.div_div t 1000000 86400) in En by lia. change (1000000 * 86400) with 86400000000 in En.
  exists c. split.
  { unfold new_from_posix_time_in_micro_seconds. cbv zeta. rewrite Z.quot_div_nonneg, Z.rem_mod_nonneg by lia.
    unfold u32, TWO32. rewrite (Z.mod_small (t mod 1000000)) by lia. exact Ec. }
  rewrite <- En. split.
  - intros E. unfold exact_call. rewrite Eh, Em, Es, Eu. repeat split; try lia.
    exists n, (t mod 1000000). repeat split; try lia. apply A, E. rewrite Z.div_mul; lia.
  - intros E. specialize (B E). split; [exact B|]. intros (_ & V & _). rewrite B in V. exact (valid_date_not_day0 _ _ V).
Qed.

Lemma posix_wraps : exists t c, 0 <= t <= INT64_MAX /\ new_from_posix_time t = Ok (Some c) /\ python_accepts c /\
    (dc_year c, dc_month c, dc_day c) = (2026, 11, 20) /\
    days_after (t / 86400) (1970, 1, 1) = (67562, 11, 16).
Proof.
  exists ((days_before_year 67562 + days_before_month 67562 11 + 16 - 1 - days_before_year 1970) * 86400).
  eexists. split; [vm_compute; split; discriminate|]. split; [vm_compute; reflexivity|]. split; [|split].
  - vm_compute. repeat split; try discriminate. exists 30. repeat split; discriminate.
  - reflexivity.
  - symmetry. apply days_after_is; [vm_compute; discriminate|apply jan_first; lia| |vm_compute; reflexivity].
    split; [lia|]. exists 30. split; [reflexivity|lia].
Qed.

Lemma u8_neg x : 0 < x < 60 -> u8 (- x) = 256 - x.
Proof. intros H. unfold u8. symmetry. apply Z.mod_unique with (q := -1); lia. Qed.

Lemma posix_negative t : INT64_MIN <= t < 0 ->
  exists c, new_from_posix_time t = Ok (Some c) /\
    (-172800 < t -> ~ python_accepts c) /\
    (t <= -172800 ->
     exists y n y' n' k, posix_start (- (- t / 86400)) = Ok (y, n) /\
       while century_pass (y, n, 0) = Ok (y', n', k) /\ 500000000000000 < k).
Proof.
  intros Ht. unfold INT64_MIN in Ht. set (p := - t). assert (Hp : 0 < p <= 9223372036854775808) by (unfold p; lia).
  replace t with (- p) by (unfold p; lia). clearbody p. clear t Ht.
  assert (P1 : 0 <= p / 60) by (apply Z.div_pos; lia). assert (P2 : 0 <= p / 60 / 60) by (apply Z.div_pos; lia).
  assert (P3 : 0 <= p / 60 / 60 / 24) by (apply Z.div_pos; lia).
  unfold new_from_posix_time, posix_elements. cbv zeta.
  rewrite (Z.quot_opp_l p 60), (Z.rem_opp_l p 60) by lia. rewrite (Z.quot_div_nonneg p 60), (Z.rem_mod_nonneg p 60) by lia.
  rewrite (Z.quot_opp_l (p / 60) 60), (Z.rem_opp_l (p / 60) 60) by lia. rewrite (Z.quot_div_nonneg (p / 60) 60), (Z.rem_mod_nonneg (p / 60) 60) by lia.
  rewrite (Z.quot_opp_l (p / 60 / 60) 24), (Z.rem_opp_l (p / 60 / 60) 24) by lia. rewrite (Z.quot_div_nonneg (p / 60 / 60) 24), (Z.rem_mod_nonneg (p / 60 / 60) 24) by lia.
  assert (En : p / 60 / 60 / 24 = p / 86400) by (rewrite !Z.div_div by lia; reflexivity).
  pose proof (Z.mod_pos_bound (p / 60 / 60) 24 ltac:(lia)). pose proof (Z.mod_pos_bound (p / 60) 60 ltac:(lia)).
  pose proof (Z.mod_pos_bound p 60 ltac:(lia)).
  pose proof (Z.div_mod p 60 ltac:(lia)). pose proof (Z.div_mod (p / 60) 60 ltac:(lia)). pose proof (Z.div_mod (p / 60 / 60) 24 ltac:(lia)).
  rewrite <- En. set (n := p / 60 / 60 / 24) in *.
  set (h := p / 60 / 60 mod 24) in *. set (m := p / 60 mod 60) in *. set (s := p mod 60) in *.
  assert (Hmax : n <= 106751991167300) by (rewrite En; apply Z.lt_succ_r, Z.div_lt_upper_bound; lia).
  unfold posix_start, add_s64, INT64_MIN, INT64_MAX.
  replace (- n + 1 <? -9223372036854775808) with false by (symmetry; apply Z.ltb_ge; lia).
  replace (9223372036854775807 <? - n + 1) with false by (symmetry; apply Z.ltb_ge; lia). cbn [orb rbind].
  replace (10957 <=? - n + 1) with false by (symmetry; apply Z.leb_gt; lia). cbn [rbind].
  destruct (Z_lt_le_dec n 2) as [Hn|Hn].
  - assert (n = 0 \/ n = 1) as [E|E] by lia.
    + rewrite E. change (u64 (-0 + 1)) with 1.
      exists (Build_date_call 1970 1 1 (u8 (- h)) (u8 (- m)) (u8 (- s)) 0).
      split; [vm_compute; reflexivity|]. split; [|lia].
      intros _ (_ & _ & Ah & Am & As & _). cbn [dc_hours dc_minutes dc_seconds] in *.
      destruct (Z.eq_dec h 0); [|rewrite u8_neg in Ah by lia; lia].
      destruct (Z.eq_dec m 0); [|rewrite u8_neg in Am by lia; lia].
      destruct (Z.eq_dec s 0); [lia|rewrite u8_neg in As by lia; lia].
    + rewrite E. change (u64 (-(1) + 1)) with 0. rewrite time_elements_zero. eexists. split; [reflexivity|]. split; [|lia].
      intros _ (_ & V & _). exact (valid_date_not_day0 _ _ V).
  - assert (Eu : u64 (- n + 1) = 18446744073709551617 - n) by (unfold u64; symmetry; apply Z.mod_unique with (q := -1); lia).
    rewrite Eu. destruct (time_elements_defined 1970 (18446744073709551617 - n) (u8 (- h)) (u8 (- m)) (u8 (- s)) 0) as [c Ec]; [lia|].
    exists c. split; [exact Ec|]. split; [lia|]. intros _.
    destruct (century_passes 1970 (18446744073709551617 - n)) as (y' & n' & k & Ek & Hk); [lia|].
    do 5 eexists. split; [reflexivity|]. split; [exact Ek|lia].
Qed.

(** * FAT date and time *)
Lemma fat_cases x : 0 <= x < 2 ^ 32 ->
  exists d m y s mi h,
    0 <= d < 32 /\ 0 <= m < 16 /\ 0 <= y < 128 /\ 0 <= s < 32 /\ 0 <= mi < 64 /\ 0 <= h < 32 /\
    x = d + 2 ^ 5 * m + 2 ^ 9 * y + 2 ^ 16 * s + 2 ^ 21 * mi + 2 ^ 27 * h /\
    (valid_date (1980 + y, m, d) ->
     new_from_fat_date_time x =
     Ok (Some {| dc_year := 1980 + y; dc_month := m; dc_day := d; dc_hours := h; dc_minutes := mi;
                 dc_seconds := 2 * s; dc_micro_seconds := 0 |})) /\
    (~ valid_date (1980 + y, m, d) -> new_from_fat_date_time x = Ok None).
Proof.
  intros Hx. change (2 ^ 32) with 4294967296 in Hx. unfold new_from_fat_date_time. cbv zeta.
  rewrite !Z.shiftr_div_pow2 by lia.
  change 31 with (Z.ones 5). change 15 with (Z.ones 4). change 127 with (Z.ones 7). change 63 with (Z.ones 6).
  rewrite !Z.land_ones by lia.
  change (2 ^ 5) with 32. change (2 ^ 4) with 16. change (2 ^ 7) with 128. change (2 ^ 6) with 64.
  change (2 ^ 9) with 512. change (2 ^ 16) with 65536. change (2 ^ 21) with 2097152. change (2 ^ 27) with 134217728.
  set (x1 := x / 32). set (x2 := x1 / 16). set (x3 := x2 / 128). set (x4 := x3 / 32). set (x5 := x4 / 64).
  pose proof (Z.div_mod x 32 ltac:(lia)) as D0. fold x1 in D0. pose proof (Z.mod_pos_bound x 32 ltac:(lia)) as B0.
  pose proof (Z.div_mod x1 16 ltac:(lia)) as D1. fold x2 in D1. pose proof (Z.mod_pos_bound x1 16 ltac:(lia)) as B1.
  pose proof (Z.div_mod x2 128 ltac:(lia)) as D2. fold x3 in D2. pose proof (Z.mod_pos_bound x2 128 ltac:(lia)) as B2.
  pose proof (Z.div_mod x3 32 ltac:(lia)) as D3. fold x4 in D3. pose proof (Z.mod_pos_bound x3 32 ltac:(lia)) as B3.
  pose proof (Z.div_mod x4 64 ltac:(lia)) as D4. fold x5 in D4. pose proof (Z.mod_pos_bound x4 64 ltac:(lia)) as B4.
  assert (B5 : 0 <= x5 < 32) by lia.
  exists (x mod 32), (x1 mod 16), (x2 mod 128), (x3 mod 32), (x4 mod 64), x5.
  rewrite (Z.mod_small x5 32) by lia.
  set (d := x mod 32) in *. set (m := x1 mod 16) in *. set (y := x2 mod 128) in *. set (s := x3 mod 32) in *. set (mi := x4 mod 64) in *.
  rewrite !u8_id by lia. rewrite u16_id by lia. rewrite month_days_eq.
  repeat split; try lia.
  - intros (_ & len & Hl & Hd). rewrite Hl.
    replace (d =? 0) with false by (symmetry; apply Z.eqb_neq; lia).
    replace (len <? d) with false by (symmetry; apply Z.ltb_ge; lia). cbn [orb]. rewrite (Z.mul_comm s 2). reflexivity.
  - intros HV. destruct (znth (month_lengths (1980 + y)) (m - 1)) as [len|] eqn:Hl; [|reflexivity].
    destruct (d =? 0) eqn:E0; [reflexivity|]. apply Z.eqb_neq in E0. cbn [orb].
    destruct (len <? d) eqn:E1; [reflexivity|]. apply Z.ltb_ge in E1. exfalso. apply HV. split; [lia|].
    exists len. split; [exact Hl|lia].
Qed.
