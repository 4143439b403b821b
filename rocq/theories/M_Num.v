(** The numbers the numeric modules compute with.  tec.py, sat/common.py, sat/gps.py, sat/glonass.py and
    sat/geo.py are modelled over an abstract collection of operations, used with binary64 (the program)
    and with the real numbers (the formulas, without rounding). *)
From Coq Require Import Reals.
From Verif Require Import Base PyFloat.
Open Scope nat_scope.

Record ops (T : Type) := mkOps {
  o_lit : Z -> Z -> T;                 (* the literal m * 10^e *)
  o_add : T -> T -> T; o_sub : T -> T -> T; o_mul : T -> T -> T; o_neg : T -> T; o_abs : T -> T;
  o_div : T -> T -> res T;             (* ZeroDivisionError *)
  o_pow : T -> nat -> res T;           (* x ** n, OverflowError *)
  o_sqrt : T -> res T;                 (* ValueError: math domain error *)
  o_sin : T -> res T; o_cos : T -> res T; o_atan : T -> T; o_atan2 : T -> T -> T;
  o_pi : T;
  o_eqb : T -> T -> bool; o_ltb : T -> T -> bool; o_leb : T -> T -> bool }.
Arguments o_lit {T}. Arguments o_add {T}. Arguments o_sub {T}. Arguments o_mul {T}. Arguments o_neg {T}. Arguments o_abs {T}.
Arguments o_div {T}. Arguments o_pow {T}. Arguments o_sqrt {T}. Arguments o_sin {T}. Arguments o_cos {T}. Arguments o_atan {T}.
Arguments o_atan2 {T}. Arguments o_pi {T}. Arguments o_eqb {T}. Arguments o_ltb {T}. Arguments o_leb {T}.

(** The C library functions behind math.sin, cos, atan, atan2 and float ** int: not modelled, any functions. *)
Record libm := mkLibm {
  l_sin : float -> float; l_cos : float -> float; l_atan : float -> float; l_atan2 : float -> float -> float; l_pow : float -> nat -> float }.

Definition is_inf (x : float) : bool := match x with S754_infinity _ => true | _ => false end.
(** math.sin(inf) is a ValueError *)
Definition no_inf (f : float -> float) (x : float) : res float := if is_inf x then Err ValueError else Ok (f x).
(** float ** int: OverflowError when a finite base gives an infinite result *)
Definition float_pow (m : libm) (x : float) (n : nat) : res float :=
  let y := l_pow m x n in if is_inf y && negb (is_inf x) then Err OverflowError else Ok y.
(** math.sqrt *)
Definition float_sqrt (x : float) : res float :=
  match x with S754_finite true _ _ | S754_infinity true => Err ValueError | _ => Ok (fsqrt_raw x) end.
(** math.pi *)
Definition float_pi : float := b64_of_dec false 3141592653589793 (-15).
Definition Fops (m : libm) : ops float :=
  mkOps float (fun a e => b64_of_dec (a <? 0)%Z (Z.abs a) e) fadd fsub fmul fneg fabs fdiv (float_pow m) float_sqrt
    (no_inf (l_sin m)) (no_inf (l_cos m)) (l_atan m) (l_atan2 m) float_pi feqb fltb fleb.

(** The real numbers. *)
Definition Rlit (m e : Z) : R := (IZR m * (if (0 <=? e)%Z then IZR (10 ^ e) else / IZR (10 ^ (- e))))%R.
Definition Reqb (x y : R) : bool := if Req_EM_T x y then true else false.
Definition Rltb (x y : R) : bool := if Rlt_dec x y then true else false.
Definition Rleb (x y : R) : bool := if Rle_dec x y then true else false.
(** the angle of the point (x, y) in (-pi, pi], 0 for the origin *)
Definition Ratan2 (y x : R) : R :=
  if Rlt_dec 0 x then atan (y / x)
  else if Rlt_dec x 0 then (if Rle_dec 0 y then atan (y / x) + PI else atan (y / x) - PI)%R
  else if Rlt_dec 0 y then (PI / 2)%R else if Rlt_dec y 0 then (- (PI / 2))%R else 0%R.
Definition Rops : ops R :=
  mkOps R Rlit Rplus Rminus Rmult Ropp Rabs
    (fun x y => if Req_EM_T y 0 then Err ZeroDivisionError else Ok (x / y)%R)
    (fun x n => Ok (x ^ n)%R)
    (fun x => if Rlt_dec x 0 then Err ValueError else Ok (sqrt x))
    (fun x => Ok (sin x)) (fun x => Ok (cos x)) atan Ratan2 PI Reqb Rltb Rleb.

(** an integer literal *)
Definition o_int {T} (o : ops T) (n : Z) : T := o_lit o n 0.
(** bool(x) *)
Definition o_truth {T} (o : ops T) (x : T) : bool := negb (o_eqb o x (o_int o 0)).
