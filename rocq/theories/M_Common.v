(** Model of tecs/rinex/common.py. *)
From Verif Require Import Base PyStr PyFloat PyDate.
Open Scope Z_scope.

(** common.py:54-58: two-digit years. *)
Definition full_year (y : Z) : Z :=
  if y <? 100 then (if 89 <=? y then y + 1900 else y + 2000) else y.

(** common.py:64-68: one round of the loop, value [v] and multiplier [ier];
    returns the new value and the seconds added to [delta]. *)
Definition clip60 (v ier : Z) : Z * Z :=
  if (60 <=? v) && (v <=? 120) then (59, (v - 59) * ier) else (v, 0).

(** common.py:32-72, validate_epoch applied to a seven-element list
    [year, month, day, hour, min, sec, microsec]. *)
Definition validate_epoch (y mo d h mi s us : Z) : res datetime :=
  let y' := full_year y in
  let '(s', d1) := clip60 s 1 in          (* index -2 *)
  let '(mi', d2) := clip60 mi 60 in       (* index -3 *)
  do t <- mk_datetime y' mo d h mi' s' us;
  dt_add t ((d1 + d2) * us_per_sec).

(** common.py:32-72, validate_epoch applied to a six-element list, as v3/n.py:88 does: the index -2 is
    then the minute and -3 the hour. *)
Definition validate_epoch6 (y mo d h mi s : Z) : res datetime :=
  let y' := full_year y in
  let '(mi', d1) := clip60 mi 1 in
  let '(h', d2) := clip60 h 60 in
  do t <- mk_datetime y' mo d h' mi' s 0;
  dt_add t ((d1 + d2) * us_per_sec).

(** 1e+6 *)
Definition f1e6 : float := float_of_Z 1000000.

(** common.py:75-90, sec2sec_ms: [k] is the number of decimals in the format
    ("%.1f" here; v2/o.py:375-380 repeats the code with "%.5f"). *)
Definition split_sec (k : nat) (sec : float) : res (Z * Z) :=
  do i <- float_to_int sec;
  let microsec := fmul (fsub sec (float_of_Z i)) f1e6 in
  do m <- py_float (fmt_f k microsec);
  do us <- float_to_int m;
  Ok (i, us).
Definition sec2sec_ms : float -> res (Z * Z) := split_sec 1.
