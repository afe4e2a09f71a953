(** Property theorems on the conversion of timestamps to dates (C38 to C40). *)
From Coq Require Import ZArith List Bool Lia.
From Verif Require Import Base M_Time Spec_Time L_Time.
Import ListNotations.
Open Scope Z_scope.

(** C38 *)
Theorem C38_filetime :
  forall ft, 0 <= ft < 2 ^ 64 -> ft / 864000000000 <> 36158 ->
    exists c, new_from_filetime ft = Ok (Some c) /\ exact_call 10000000 ft (1601, 1, 1) c.
Proof.
  intros ft Hft Hd. destruct (filetime_cases ft Hft) as [_ H]. apply H, Hd.
Qed.
Print Assumptions C38_filetime.

(** The 31 December 1699: Python is given day 0 of January 1700 (finding). *)
Theorem C38_end_of_1699_refuted :
  forall ft, 0 <= ft < 2 ^ 64 -> ft / 864000000000 = 36158 ->
    days_after 36158 (1601, 1, 1) = (1699, 12, 31) /\
    exists c, new_from_filetime ft = Ok (Some c) /\
      (dc_year c, dc_month c, dc_day c) = (1700, 1, 0) /\ ~ python_accepts c.
Proof.
  intros ft Hft Hd. destruct (filetime_cases ft Hft) as [H _].
  split; [symmetry; apply days_after_is; [lia|apply jan_first; lia| |reflexivity]; split; [lia|]; exists 31; split; [reflexivity|lia]|].
  destruct (H Hd) as (c & E & Ec). exists c. split; [exact E|]. split; [exact Ec|].
  intros (_ & V & _). rewrite Ec in V. exact (valid_date_not_day0 _ _ V).
Qed.
Print Assumptions C38_end_of_1699_refuted.

(** The timestamps for which the caller gets a datetime object. *)
Theorem C38_python :
  forall ft, 0 <= ft < 2 ^ 64 ->
    exists c, new_from_filetime ft = Ok (Some c) /\
      (python_accepts c <-> ft < 2650467744000000000 /\ ft / 864000000000 <> 36158).
Proof. exact filetime_python. Qed.
Print Assumptions C38_python.

(** 2026-11-16 04:00:59.123456 with 7 further units of 100 nanoseconds; the
    first and the last day of a leap year; the end of the range of Python. *)
Example C38_case :
  map new_from_filetime [134392752591234567; 125911584000000000; 126227807999999999; 2650467743999999999] =
  map (fun c => Ok (Some c))
  [Build_date_call 2026 11 16 4 0 59 123456; Build_date_call 2000 1 1 0 0 0 0;
   Build_date_call 2000 12 31 23 59 59 999999; Build_date_call 9999 12 31 23 59 59 999999].
Proof. vm_compute. reflexivity. Qed.

Example C38_end_of_1699_case :
  31241376000000000 / 864000000000 = 36159 /\
  map new_from_filetime [31240512000000000 - 1; 31240512000000000; 31241376000000000] =
  map (fun c => Ok (Some c))
  [Build_date_call 1699 12 30 23 59 59 999999; Build_date_call 1700 1 0 0 0 0 0; Build_date_call 1700 1 1 0 0 0 0].
Proof. vm_compute. split; reflexivity. Qed.

(** C39: HFS times *)
Theorem C39_hfs_time :
  forall t, 0 <= t < 2 ^ 32 ->
    exists c, new_from_hfs_time t = Ok (Some c) /\
      (t / 86400 <> 35063 -> exact_call 1 t (1904, 1, 1) c) /\
      (t / 86400 = 35063 -> (dc_year c, dc_month c, dc_day c) = (2000, 1, 0) /\ ~ python_accepts c).
Proof. exact hfs_cases. Qed.
Print Assumptions C39_hfs_time.

(** POSIX times from 1970 to the end of the year 65535. *)
Theorem C39_posix_time :
  forall t, 0 <= t < 2005949145600 ->
    exists c, new_from_posix_time t = Ok (Some c) /\
      (t / 86400 <> 10956 -> exact_call 1 t (1970, 1, 1) c) /\
      (t / 86400 = 10956 -> (dc_year c, dc_month c, dc_day c) = (2000, 1, 0) /\ ~ python_accepts c).
Proof. exact posix_cases. Qed.
Print Assumptions C39_posix_time.

Theorem C39_posix_time_in_micro_seconds :
  forall t, 0 <= t < 2005949145600 * 1000000 ->
    exists c, new_from_posix_time_in_micro_seconds t = Ok (Some c) /\
      (t / 86400000000 <> 10956 -> exact_call 1000000 t (1970, 1, 1) c) /\
      (t / 86400000000 = 10956 -> (dc_year c, dc_month c, dc_day c) = (2000, 1, 0) /\ ~ python_accepts c).
Proof. exact posix_micro_cases. Qed.
Print Assumptions C39_posix_time_in_micro_seconds.

(** What the excepted days and the end of the range are. *)
Theorem C39_days :
  days_after 35063 (1904, 1, 1) = (1999, 12, 31) /\ days_after 10956 (1970, 1, 1) = (1999, 12, 31) /\
  days_after (2005949145600 / 86400 - 1) (1970, 1, 1) = (65535, 12, 31).
Proof.
  split; [|split]; symmetry; (apply days_after_is; [vm_compute; discriminate|apply jan_first; lia| |vm_compute; reflexivity]);
  (split; [lia|]; exists 31; split; [reflexivity|lia]).
Qed.
Print Assumptions C39_days.

(** Past the year 65535 the year wraps around, and Python accepts a date that
    is 65536 years and some days off (finding). *)
Theorem C39_year_wraps_refuted :
  exists t c, 0 <= t <= INT64_MAX /\ new_from_posix_time t = Ok (Some c) /\ python_accepts c /\
    (dc_year c, dc_month c, dc_day c) = (2026, 11, 20) /\
    days_after (t / 86400) (1970, 1, 1) = (67562, 11, 16).
Proof. exact posix_wraps. Qed.
Print Assumptions C39_year_wraps_refuted.

(** Before 1970: in the last two days Python never accepts what it is given;
    earlier the loop over the centuries makes more than 5 * 10^14 passes
    (finding).  The call still ends. *)
Theorem C39_before_1970 :
  forall t, INT64_MIN <= t < 0 ->
    exists c, new_from_posix_time t = Ok (Some c) /\
      (-172800 < t -> ~ python_accepts c) /\
      (t <= -172800 ->
       exists y n y' n' k, posix_start (- (- t / 86400)) = Ok (y, n) /\
         while century_pass (y, n, 0) = Ok (y', n', k) /\ 500000000000000 < k).
Proof. exact posix_negative. Qed.
Print Assumptions C39_before_1970.

Example C39_case :
  map new_from_hfs_time [0; 3029529600 - 1; 3029529600; 4294967295] =
  map (fun c => Ok (Some c))
  [Build_date_call 1904 1 1 0 0 0 0; Build_date_call 2000 1 0 23 59 59 0; Build_date_call 2000 1 1 0 0 0 0;
   Build_date_call 2040 2 6 6 28 15 0] /\
  map new_from_posix_time [68169600; 946598400 - 1; 946598400; 946684800; 1709164800] =
  map (fun c => Ok (Some c))
  [Build_date_call 1972 2 29 0 0 0 0; Build_date_call 1999 12 30 23 59 59 0; Build_date_call 2000 1 0 0 0 0 0;
   Build_date_call 2000 1 1 0 0 0 0; Build_date_call 2024 2 29 0 0 0 0] /\
  new_from_posix_time_in_micro_seconds 1709164800000007 = Ok (Some (Build_date_call 2024 2 29 0 0 0 7)) /\
  new_from_posix_time (-1) = Ok (Some (Build_date_call 1970 1 1 0 0 255 0)).
Proof. vm_compute. repeat split. Qed.

(** C40 *)
Theorem C40_fat_date_time :
  forall x, 0 <= x < 2 ^ 32 ->
    exists d m y s mi h,
      0 <= d < 32 /\ 0 <= m < 16 /\ 0 <= y < 128 /\ 0 <= s < 32 /\ 0 <= mi < 64 /\ 0 <= h < 32 /\
      x = d + 2 ^ 5 * m + 2 ^ 9 * y + 2 ^ 16 * s + 2 ^ 21 * mi + 2 ^ 27 * h /\
      (valid_date (1980 + y, m, d) ->
       new_from_fat_date_time x =
       Ok (Some {| dc_year := 1980 + y; dc_month := m; dc_day := d; dc_hours := h; dc_minutes := mi;
                   dc_seconds := 2 * s; dc_micro_seconds := 0 |})) /\
      (~ valid_date (1980 + y, m, d) -> new_from_fat_date_time x = Ok None).
Proof. exact fat_cases. Qed.
Print Assumptions C40_fat_date_time.

(** 2010-08-12 20:47:24 (the lower half is the date), 29 February of a leap
    year and of another year, month 13, day 0. *)
Example C40_case :
  map new_from_fat_date_time
    [2783722764; 29 + 32 * 2 + 512 * 24; 29 + 32 * 2 + 512 * 25; 1 + 32 * 13; 32] =
  [Ok (Some (Build_date_call 2010 8 12 20 47 24 0)); Ok (Some (Build_date_call 2004 2 29 0 0 0 0));
   Ok None; Ok None; Ok None].
Proof. vm_compute. reflexivity. Qed.
