(** What a timestamp means: the Gregorian calendar, written without reference
    to the model. *)
From Coq Require Import ZArith List Bool.
From Verif Require Import Base M_Time.
Import ListNotations.
Open Scope Z_scope.

(** Leap years of the Gregorian calendar. *)
Definition leapb (y : Z) : bool :=
  (y mod 4 =? 0) && (negb (y mod 100 =? 0) || (y mod 400 =? 0)).

(** Lengths of the months, January first. *)
Definition month_lengths (y : Z) : list Z :=
  [31; if leapb y then 29 else 28; 31; 30; 31; 30; 31; 31; 30; 31; 30; 31].

(** A day of the calendar: year, month (1 to 12), day of the month. *)
Definition date : Type := Z * Z * Z.

Definition valid_date (d : date) : Prop :=
  let '(y, m, n) := d in
  1 <= y /\ exists len, znth (month_lengths y) (m - 1) = Some len /\ 1 <= n <= len.

(** The day after a day. *)
Definition tomorrow (d : date) : date :=
  let '(y, m, n) := d in
  match znth (month_lengths y) (m - 1) with
  | Some len =>
    if n <? len then (y, m, n + 1) else if m <? 12 then (y, m + 1, 1) else (y + 1, 1, 1)
  | None => d
  end.

(** The day [n] days after a day. *)
Definition days_after (n : Z) (d : date) : date := Nat.iter (Z.to_nat n) tomorrow d.

(** [c] is the point in time [t] after midnight at the start of the day [d0],
    where a second has [units] units of time and what is below a microsecond
    is dropped. *)
Definition exact_call (units t : Z) (d0 : date) (c : date_call) : Prop :=
  0 <= dc_hours c < 24 /\ 0 <= dc_minutes c < 60 /\ 0 <= dc_seconds c < 60 /\
  0 <= dc_micro_seconds c < 1000000 /\
  (exists n rest, 0 <= n /\ 0 <= rest < units /\
     (dc_year c, dc_month c, dc_day c) = days_after n d0 /\
     t = (((n * 24 + dc_hours c) * 60 + dc_minutes c) * 60 + dc_seconds c) * units + rest /\
     dc_micro_seconds c = rest * 1000000 / units).

(** What Python's datetime accepts (the documented ranges of
    PyDateTime_FromDateAndTime): otherwise the call returns NULL with a
    ValueError. *)
Definition python_accepts (c : date_call) : Prop :=
  dc_year c <= 9999 /\ valid_date (dc_year c, dc_month c, dc_day c) /\
  0 <= dc_hours c <= 23 /\ 0 <= dc_minutes c <= 59 /\ 0 <= dc_seconds c <= 59 /\
  0 <= dc_micro_seconds c <= 999999.
