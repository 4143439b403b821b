(** Specification of calendar time, independent of datetime's closed formulas:
    days are counted by adding up the lengths of years and months. *)
From Verif Require Import Base PyDate.
Open Scope Z_scope.

Definition leap_year (y : Z) : bool := (y mod 400 =? 0) || ((y mod 4 =? 0) && negb (y mod 100 =? 0)).
Definition year_len (y : Z) : Z := if leap_year y then 366 else 365.
Definition month_len (y m : Z) : Z :=
  match m with
  | 1 => 31 | 2 => if leap_year y then 29 else 28 | 3 => 31 | 4 => 30 | 5 => 31 | 6 => 30
  | 7 => 31 | 8 => 31 | 9 => 30 | 10 => 31 | 11 => 30 | 12 => 31 | _ => 0
  end.
(** total length of the years 1..n *)
Fixpoint years_len (n : nat) : Z :=
  match n with O => 0 | S k => years_len k + year_len (Z.of_nat n) end.
(** total length of the months 1..n of year y *)
Fixpoint months_len (y : Z) (n : nat) : Z :=
  match n with O => 0 | S k => months_len y k + month_len y (Z.of_nat n) end.
(** days elapsed from 1 January of year 1 to the given date *)
Definition civil_day (y m d : Z) : Z :=
  years_len (Z.to_nat (y - 1)) + months_len y (Z.to_nat (m - 1)) + (d - 1).
Definition valid_date (y m d : Z) : Prop :=
  1 <= y <= 9999 /\ 1 <= m <= 12 /\ 1 <= d <= month_len y m.
(** microseconds elapsed from the start of year 1 to midnight of the given date *)
Definition midnight (y m d : Z) : Z := civil_day y m d * 86400000000.
(** a datetime whose fields are all in range *)
Definition valid_datetime (t : datetime) : Prop :=
  valid_date (dy t) (dmo t) (dd t) /\
  0 <= dh t <= 23 /\ 0 <= dmi t <= 59 /\ 0 <= ds t <= 59 /\ 0 <= dus t <= 999999.
(** the instant a datetime denotes *)
Definition instant (t : datetime) : Z :=
  midnight (dy t) (dmo t) (dd t) + ((dh t * 60 + dmi t) * 60 + ds t) * 1000000 + dus t.
(** two-digit years: 89..99 are 19yy, 0..88 are 20yy *)
Definition century (y : Z) : Z :=
  if y <? 89 then 2000 + y else if y <? 100 then 1900 + y else y.

(** the end of year 9999 *)
Definition end_of_time : Z := 3652059 * 86400000000.

(** the fields validate_epoch accepts *)
Definition epoch_in_range (y mo d h mi s us : Z) : Prop :=
  valid_date (century y) mo d /\ 0 <= h <= 23 /\ 0 <= mi <= 120 /\ 0 <= s <= 120 /\ 0 <= us <= 999999.
(** the instant they denote *)
Definition epoch_value (y mo d h mi s us : Z) : Z :=
  midnight (century y) mo d + ((h * 60 + mi) * 60 + s) * 1000000 + us.

(** within the range of a C int *)
Definition fits (n : Z) : Prop := - 2 ^ 31 <= n < 2 ^ 31.

