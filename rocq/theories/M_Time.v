(** Model of pyolecf/pyolecf_datetime.c, without
    pyolecf_datetime_new_from_floatingtime (floating point, lines 350-525). *)
From Coq Require Import ZArith List Bool.
From Verif Require Import Base.
Import ListNotations.
Open Scope Z_scope.

(** Conversion to uint8_t. *)
Definition u8 (x : Z) : Z := x mod 256.

(** Arguments of PyDateTime_FromDateAndTime, lines 159-166, 276-283. *)
Record date_call := {
  dc_year : Z;
  dc_month : Z;
  dc_day : Z;
  dc_hours : Z;
  dc_minutes : Z;
  dc_seconds : Z;
  dc_micro_seconds : Z
}.

(** One pass through the body of a while loop: goes on or leaves the loop. *)
Inductive pass (S R : Type) : Type :=
| Next (s : S)
| Done (r : R).
Arguments Next {S R} s.
Arguments Done {S R} r.

(** At most [p] passes.  The loops of this file can make up to 2^49 passes,
    hence the bound is a binary number. *)
Fixpoint passes {S R} (p : positive) (f : S -> pass S R) (s : S) : pass S R :=
  match p with
  | xH => f s
  | xO q => match passes q f s with Next s' => passes q f s' | Done r => Done r end
  | xI q =>
    match f s with
    | Next s1 => match passes q f s1 with Next s' => passes q f s' | Done r => Done r end
    | Done r => Done r
    end
  end.

Definition while {S R} (f : S -> pass S R) (s : S) : res R :=
  match passes 18446744073709551616 f s with
  | Done r => Ok r
  | Next _ => NoFuel
  end.

(** The leap year test, lines 73-75, 101-103 and 221-223. *)
Definition leap_test (year : Z) : bool :=
  ((year mod 4 =? 0) && negb (year mod 100 =? 0)) || (year mod 400 =? 0).

(** pyolecf_datetime_new_from_time_elements lines 50-67: the loop over the
    centuries.  The third component counts the passes and is not in the code. *)
Definition century_pass (s : Z * Z * Z) : pass (Z * Z * Z) (Z * Z * Z) :=
  let '(year, number_of_days, n) := s in
  if number_of_days <=? 0 then Done s
  else
    let days_in_century := if year mod 400 =? 0 then 36525 else 36524 in
    if number_of_days <=? days_in_century then Done s
    else Next (u16 (year + 100), number_of_days - days_in_century, n + 1).

(** Lines 68-90: the loop over the years. *)
Definition year_pass (s : Z * Z) : pass (Z * Z) (Z * Z) :=
  let '(year, number_of_days) := s in
  if number_of_days <=? 0 then Done s
  else
    let days_in_year := if leap_test year then 366 else 365 in
    if number_of_days <=? days_in_year then Done s
    else Next (u16 (year + 1), number_of_days - days_in_year).

(** Lines 97-144 and 217-262: the number of days of a month; None is the
    branch of an unsupported month. *)
Definition month_days (year month : Z) : option Z :=
  if month =? 2 then Some (if leap_test year then 29 else 28)
  else if (month =? 4) || (month =? 6) || (month =? 9) || (month =? 11) then Some 30
  else if (month =? 1) || (month =? 3) || (month =? 5) || (month =? 7) || (month =? 8)
          || (month =? 10) || (month =? 12) then Some 31
  else None.

(** Lines 95-152: the loop over the months; None is the return of NULL. *)
Definition month_pass (year : Z) (s : Z * Z) : pass (Z * Z) (option (Z * Z)) :=
  let '(month, number_of_days) := s in
  if number_of_days <=? 0 then Done (Some s)
  else
    match month_days year month with
    | None => Done None
    | Some days_in_month =>
      if number_of_days <=? days_in_month then Done (Some s)
      else Next (u8 (month + 1), number_of_days - days_in_month)
    end.

(** pyolecf_datetime_new_from_time_elements, lines 34-169.  The result is what
    is passed to Python; None is the return of NULL before that. *)
Definition time_elements (year number_of_days hours minutes seconds micro_seconds : Z)
  : res (option date_call) :=
  do (y1, d1, _) <- while century_pass (year, number_of_days, 0);
  do (y2, d2) <- while year_pass (y1, d1);
  do m <- while (month_pass y2) (1, d2);
  match m with
  | None => Ok None
  | Some (month, d3) =>
    Ok (Some {| dc_year := y2; dc_month := month; dc_day := u8 d3; dc_hours := hours;
                dc_minutes := minutes; dc_seconds := seconds;
                dc_micro_seconds := micro_seconds |})
  end.

(** pyolecf_datetime_new_from_fat_date_time, lines 174-286.  The shifts and
    masks are quotients and remainders of unsigned numbers. *)
Definition new_from_fat_date_time (fat_date_time : Z) : res (option date_call) :=
  let day_of_month := u8 (Z.land fat_date_time 31) in
  let f1 := Z.shiftr fat_date_time 5 in
  let month := u8 (Z.land f1 15) in
  let f2 := Z.shiftr f1 4 in
  let year := u16 (1980 + Z.land f2 127) in
  let f3 := Z.shiftr f2 7 in
  let seconds := u8 (Z.land f3 31 * 2) in
  let f4 := Z.shiftr f3 5 in
  let minutes := u8 (Z.land f4 63) in
  let f5 := Z.shiftr f4 6 in
  let hours := u8 (Z.land f5 31) in
  match month_days year month with
  | None => Ok None
  | Some days_in_month =>
    if (day_of_month =? 0) || (days_in_month <? day_of_month) then Ok None
    else Ok (Some {| dc_year := year; dc_month := month; dc_day := day_of_month;
                     dc_hours := hours; dc_minutes := minutes; dc_seconds := seconds;
                     dc_micro_seconds := 0 |})
  end.

(** pyolecf_datetime_new_from_filetime, lines 291-345.  All values are
    unsigned. *)
Definition new_from_filetime (filetime : Z) : res (option date_call) :=
  let micro_seconds := u32 (filetime mod 10000000) / 10 in
  let f1 := filetime / 10000000 in
  let seconds := u8 (f1 mod 60) in
  let f2 := f1 / 60 in
  let minutes := u8 (f2 mod 60) in
  let f3 := f2 / 60 in
  let hours := u8 (f3 mod 24) in
  let f4 := u64 (f3 / 24 + 1) in
  if 36159 <=? f4
  then time_elements 1700 (f4 - 36159) hours minutes seconds micro_seconds
  else time_elements 1601 f4 hours minutes seconds micro_seconds.

(** pyolecf_datetime_new_from_hfs_time, lines 530-578. *)
Definition new_from_hfs_time (hfs_time : Z) : res (option date_call) :=
  let seconds := u8 (hfs_time mod 60) in
  let f2 := hfs_time / 60 in
  let minutes := u8 (f2 mod 60) in
  let f3 := f2 / 60 in
  let hours := u8 (f3 mod 24) in
  let f4 := u32 (f3 / 24 + 1) in
  if 35064 <=? f4
  then time_elements 2000 (f4 - 35064) hours minutes seconds 0
  else time_elements 1904 f4 hours minutes seconds 0.

(** Lines 605-624 and 664-683: the year and the number of days that are passed
    on, from the number of days since 1970, which is negative before 1970. *)
Definition posix_start (days : Z) : res (Z * Z) :=
  do p4 <- add_s64 days 1;
  if 10957 <=? p4 then Ok (2000, u64 (p4 - 10957)) else Ok (1970, u64 p4).

(** Lines 594-630 and 653-689, the part shared by the two POSIX conversions:
    [posix_time] is in seconds.  Division and remainder of int64_t round
    towards zero. *)
Definition posix_elements (posix_time micro_seconds : Z) : res (option date_call) :=
  let seconds := u8 (Z.rem posix_time 60) in
  let p2 := Z.quot posix_time 60 in
  let minutes := u8 (Z.rem p2 60) in
  let p3 := Z.quot p2 60 in
  let hours := u8 (Z.rem p3 24) in
  do (year, number_of_days) <- posix_start (Z.quot p3 24);
  time_elements year number_of_days hours minutes seconds micro_seconds.

(** pyolecf_datetime_new_from_posix_time, lines 583-631. *)
Definition new_from_posix_time (posix_time : Z) : res (option date_call) :=
  posix_elements posix_time 0.

(** pyolecf_datetime_new_from_posix_time_in_micro_seconds, lines 636-690. *)
Definition new_from_posix_time_in_micro_seconds (posix_time : Z) : res (option date_call) :=
  let micro_seconds := u32 (Z.rem posix_time 1000000) in
  posix_elements (Z.quot posix_time 1000000) micro_seconds.
