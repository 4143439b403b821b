(** Python float = IEEE binary64, as [spec_float] of the standard library (pure Gallina).
    This file models the Python runtime, not code of the repository. *)
From Coq Require Export Floats.SpecFloat.
From Verif Require Import Base PyStr.
Open Scope Z_scope.

Definition float := spec_float.
Definition fprec : Z := 53.
Definition femax : Z := 1024.

Definition fadd : float -> float -> float := SFadd fprec femax.
Definition fsub : float -> float -> float := SFsub fprec femax.
Definition fmul : float -> float -> float := SFmul fprec femax.
Definition fneg : float -> float := SFopp.
Definition fabs : float -> float := SFabs.
Definition fsqrt_raw : float -> float := SFsqrt fprec femax.
Definition fzero : float := S754_zero false.

(** x / y raises ZeroDivisionError for y = 0. *)
Definition fdiv (x y : float) : res float :=
  match y with S754_zero _ => Err ZeroDivisionError | _ => Ok (SFdiv fprec femax x y) end.

Definition feqb : float -> float -> bool := SFeqb.
Definition fltb : float -> float -> bool := SFltb.
Definition fleb : float -> float -> bool := SFleb.
Definition fis_zero (x : float) : bool := match x with S754_zero _ => true | _ => false end.
(** bool(x) *)
Definition ftruth (x : float) : bool := negb (fis_zero x).

(** Correctly rounded (-1)^neg * m * 10^e, for m >= 0. *)
Definition b64_of_dec (neg : bool) (m e : Z) : float :=
  match m with
  | Zpos p =>
    if 0 <=? e then binary_round fprec femax neg (Z.to_pos (Zpos p * 10 ^ e)%Z) 0
    else match 10 ^ (- e) with
         | Zpos q => let '(mz, ez, lz) := SFdiv_core_binary fprec femax (Zpos p) 0 (Zpos q) 0 in
                     binary_round_aux fprec femax neg mz ez lz
         | _ => S754_nan
         end
  | _ => S754_zero neg
  end.

Definition float_of_lit (l : flit) : float :=
  match l with
  | LDec neg m e => b64_of_dec neg m e
  | LInf neg => S754_infinity neg
  | LNaN => S754_nan
  end.

(** float(s) *)
Definition py_float_opt (s : str) : option float := option_map float_of_lit (float_lit s).
Definition py_float (s : str) : res float := of_option ValueError (py_float_opt s).

(** int -> float conversion, round half even; OverflowError when too large *)
Definition float_of_Z (n : Z) : float := b64_of_dec (n <? 0) (Z.abs n) 0.

(** int(x): truncation toward zero *)
Definition trunc_fin (s : bool) (m : positive) (e : Z) : Z :=
  let a := if 0 <=? e then Zpos m * 2 ^ e else Zpos m / 2 ^ (- e) in
  if s then - a else a.
Definition float_to_int (x : float) : res Z :=
  match x with
  | S754_zero _ => Ok 0
  | S754_finite s m e => Ok (trunc_fin s m e)
  | S754_infinity _ => Err OverflowError
  | S754_nan => Err ValueError
  end.

(** round half even of n / d, for d > 0 *)
Definition div_half_even (n d : Z) : Z :=
  let q := n / d in
  let r := n mod d in
  match 2 * r ?= d with
  | Lt => q
  | Gt => q + 1
  | Eq => if Z.even q then q else q + 1
  end.

(** |x| * 10^k rounded half-even to an integer, x = m * 2^e *)
Definition scaled (m : positive) (e : Z) (k : Z) : Z :=
  if 0 <=? e then Zpos m * 2 ^ e * 10 ^ k else div_half_even (Zpos m * 10 ^ k) (2 ^ (- e)).

(** "%.kf" of a number already scaled by 10^k *)
Definition fixed_str (neg : bool) (q : Z) (k : nat) : str :=
  let t := 10 ^ Z.of_nat k in
  (if neg then ["-"%char] else []) ++ nat_str (q / t) ++
  match k with
  | O => []
  | _ => "."%char :: pad_left "0"%char k (nat_str (q mod t))
  end.

(** "%.kf" % x  and '{:.kf}'.format(x): exact decimal rounding of the binary value *)
Definition fmt_f (k : nat) (x : float) : str :=
  match x with
  | S754_zero s => fixed_str s 0 k
  | S754_finite s m e => fixed_str s (scaled m e (Z.of_nat k)) k
  | S754_infinity s => (if s then lit "-inf" else lit "inf")
  | S754_nan => lit "nan"
  end.
(** '{:w.kf}'.format(x) *)
Definition fmt_wf (w k : nat) (x : float) : str := pad_left " "%char w (fmt_f k x).
