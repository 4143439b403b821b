(** Specification: angles and orbits in binary64. *)
From Coq Require Import Reals.
From Flocq Require Import Core BinarySingleNaN.
From Verif Require Import Base PyStr PyFloat M_Num S_Tec.
Open Scope R_scope.

(** The C library's sin and cos are within 2 ^ -52. *)
Definition trig_accurate (m : libm) : Prop := forall x, is_real x -> Rabs (real x) <= 100 ->
  (is_real (l_sin m x) /\ Rabs (real (l_sin m x) - sin (real x)) <= / 4503599627370496) /\
  (is_real (l_cos m x) /\ Rabs (real (l_cos m x) - cos (real x)) <= / 4503599627370496).
(** what atan2 may return: not a number, or a number between -pi and pi (rounded to binary64) *)
Definition angle (v : float) : Prop := v = S754_nan \/ (is_real v /\ Rabs (real v) <= real float_pi).
(** not a number, or a number from 0 to 360, 360 included *)
Definition in_360 (v : float) : Prop := v = S754_nan \/ (is_real v /\ 0 <= real v <= 360).
(** A site on the equator, a tenth of a nanometre west of the zero meridian, and a C library that is right about it:
    x ** 2 is the rounded product, sin 0 = 0, cos 0 = 1, atan2(0, x) = 0 and atan2(y, x) = y / x, rounded. *)
Definition west_x : float := float_of_Z 6378137.
Definition west_y : float := b64_of_dec true 1 (-10).
Record library (m : libm) := mkLibrary {
  lib_square : forall x, l_pow m x 2 = fmul x x;
  lib_sin0 : l_sin m fzero = fzero;
  lib_cos0 : l_cos m fzero = float_of_Z 1;
  lib_atan0 : l_atan2 m fzero west_x = fzero;
  lib_tiny : Ok (l_atan2 m west_y west_x) = fdiv west_y west_x }.
