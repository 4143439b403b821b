(** Python datetime (naive), after the algorithms of CPython's datetime module.
    This file models the Python runtime, not code of the repository. *)
From Verif Require Import Base PyStr PyFloat.
Open Scope Z_scope.

Definition is_leap (y : Z) : bool :=
  (y mod 4 =? 0) && (negb (y mod 100 =? 0) || (y mod 400 =? 0)).
Definition days_before_year (y : Z) : Z :=
  let p := y - 1 in p * 365 + p / 4 - p / 100 + p / 400.
Definition days_in_month (y m : Z) : Z :=
  if m =? 2 then (if is_leap y then 29 else 28)
  else if (m =? 4) || (m =? 6) || (m =? 9) || (m =? 11) then 30 else 31.
Definition dbm_table (m : Z) : Z :=
  nth (Z.to_nat m) [0; 0; 31; 59; 90; 120; 151; 181; 212; 243; 273; 304; 334] 0.
Definition days_before_month (y m : Z) : Z :=
  dbm_table m + (if (2 <? m) && is_leap y then 1 else 0).
(** date.toordinal: 0001-01-01 is day 1 *)
Definition ymd2ord (y m d : Z) : Z := days_before_year y + days_before_month y m + d.

(** date.fromordinal, CPython's _ord2ymd *)
Definition ord2ymd (n0 : Z) : Z * Z * Z :=
  let n := n0 - 1 in
  let n400 := n / 146097 in let n := n mod 146097 in
  let y := n400 * 400 + 1 in
  let n100 := n / 36524 in let n := n mod 36524 in
  let n4 := n / 1461 in let n := n mod 1461 in
  let n1 := n / 365 in let n := n mod 365 in
  let y := y + n100 * 100 + n4 * 4 + n1 in
  if (n1 =? 4) || (n100 =? 4) then (y - 1, 12, 31)
  else
    let leap := (n1 =? 3) && (negb (n4 =? 24) || (n100 =? 3)) in
    let m := Z.shiftr (n + 50) 5 in
    let pre := dbm_table m + (if (2 <? m) && leap then 1 else 0) in
    if n <? pre then
      let m' := m - 1 in
      let dim := if (m' =? 2) && leap then 29 else days_in_month 1 m' in
      (y, m', n - (pre - dim) + 1)
    else (y, m, n - pre + 1).

Record datetime := mkDT { dy : Z; dmo : Z; dd : Z; dh : Z; dmi : Z; ds : Z; dus : Z }.

Definition dt_eqb (a b : datetime) : bool :=
  (dy a =? dy b) && (dmo a =? dmo b) && (dd a =? dd b) && (dh a =? dh b) &&
  (dmi a =? dmi b) && (ds a =? ds b) && (dus a =? dus b).
Definition odt_eqb (a b : option datetime) : bool :=
  match a, b with
  | Some x, Some y => dt_eqb x y
  | None, None => true
  | _, _ => false
  end.

Definition ymd_ok (y m d : Z) : bool :=
  (1 <=? y) && (y <=? 9999) && (1 <=? m) && (m <=? 12) && (1 <=? d) && (d <=? days_in_month y m).
Definition hms_ok (h mi s us : Z) : bool :=
  (0 <=? h) && (h <=? 23) && (0 <=? mi) && (mi <=? 59) && (0 <=? s) && (s <=? 59) &&
  (0 <=? us) && (us <=? 999999).
Definition dt_ok (t : datetime) : bool :=
  ymd_ok (dy t) (dmo t) (dd t) && hms_ok (dh t) (dmi t) (ds t) (dus t).

Definition c_int (n : Z) : bool := (-2147483648 <=? n) && (n <=? 2147483647).
(** datetime.datetime(y, m, d, h, mi, s, us): OverflowError for arguments beyond a C int,
    ValueError for out-of-range fields. *)
Definition mk_datetime (y m d h mi s us : Z) : res datetime :=
  if negb (forallb c_int [y; m; d; h; mi; s; us]) then Err OverflowError
  else if dt_ok (mkDT y m d h mi s us) then Ok (mkDT y m d h mi s us)
  else Err ValueError.

Definition us_per_sec : Z := 1000000.
Definition us_per_day : Z := 86400000000.

(** time of day in microseconds *)
Definition tod_us (t : datetime) : Z := ((dh t * 60 + dmi t) * 60 + ds t) * us_per_sec + dus t.
(** microseconds since 0001-01-01 00:00 *)
Definition dt_us (t : datetime) : Z := (ymd2ord (dy t) (dmo t) (dd t) - 1) * us_per_day + tod_us t.

Definition dt_of_us (u : Z) : datetime :=
  let '(y, m, d) := ord2ymd (u / us_per_day + 1) in
  let t := u mod us_per_day in
  let s := t / us_per_sec in
  mkDT y m d (s / 3600) (s / 60 mod 60) (s mod 60) (t mod us_per_sec).

Definition max_ordinal : Z := 3652059.

(** datetime + timedelta: OverflowError outside years 1..9999 *)
Definition dt_add (t : datetime) (us : Z) : res datetime :=
  let u := dt_us t + us in
  if (0 <=? u) && (u <? max_ordinal * us_per_day) then Ok (dt_of_us u) else Err OverflowError.

(** datetime - datetime: a timedelta, in microseconds *)
Definition dt_sub (a b : datetime) : Z := dt_us a - dt_us b.

(** timedelta.total_seconds(): correctly rounded us / 10^6 *)
Definition total_seconds (us : Z) : float := b64_of_dec (us <? 0) (Z.abs us) (-6).

(** datetime comparison *)
Definition dt_ltb (a b : datetime) : bool := dt_us a <? dt_us b.
Definition dt_leb (a b : datetime) : bool := dt_us a <=? dt_us b.

(** .date() equality *)
Definition same_date (a b : datetime) : bool :=
  (dy a =? dy b) && (dmo a =? dmo b) && (dd a =? dd b).
(** datetime.date *)
Definition date := (Z * Z * Z)%type.
Definition dt_date (t : datetime) : date := (dy t, dmo t, dd t).
Definition date_eqb (a b : date) : bool :=
  let '(y, m, d) := a in let '(y', m', d') := b in (y =? y') && (m =? m') && (d =? d').
(** datetime.time *)
Definition tod := (Z * Z * Z * Z)%type.
Definition dt_time (t : datetime) : tod := (dh t, dmi t, ds t, dus t).
Definition tod_eqb (a b : tod) : bool :=
  let '(h, m, s, u) := a in let '(h', m', s', u') := b in
  (h =? h') && (m =? m') && (s =? s') && (u =? u').
(** day of year, strftime('%j') *)
Definition day_of_year (y m d : Z) : Z := days_before_month y m + d.
