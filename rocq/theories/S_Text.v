(** Specification of fixed-column decimal text, independent of the readers:
    what integer or decimal number a column field denotes, and which binary64 number is
    the nearest one. *)
From Coq Require Import Reals.
From Flocq Require Import Core.Core IEEE754.BinarySingleNaN.
From Verif Require Import Base PyStr PyFloat.
Open Scope nat_scope.

(** c is one of 0..9 *)
Definition digit (c : ascii) : Prop := 48 <= nat_of_ascii c <= 57.
(** its value *)
Definition dig (c : ascii) : Z := Z.of_nat (nat_of_ascii c) - 48.
Definition digits (s : str) : Prop := Forall digit s.
(** positional value, most significant digit first *)
Fixpoint dec_value (s : str) : Z :=
  match s with
  | [] => 0
  | c :: r => (dig c * 10 ^ Z.of_nat (List.length r) + dec_value r)%Z
  end.

(** only blanks, tabs and line ends *)
Definition white (s : str) : Prop := Forall (fun c => is_space c = true) s.
Definition blanks (s : str) : Prop := Forall (fun c => c = " "%char) s.

(** [s] is an integer right-justified in [w] columns (Fortran Iw, no sign) *)
Definition int_field (w : nat) (s : str) (n : Z) : Prop :=
  List.length s = w /\
  exists b ds, s = b ++ ds /\ blanks b /\ digits ds /\ ds <> [] /\ n = dec_value ds.

(** [s] is a decimal right-justified in [w] columns with [k] decimals (Fortran Fw.k) denoting
    (-1)^neg * m / 10^k *)
Definition fix_field (w k : nat) (s : str) (neg : bool) (m : Z) : Prop :=
  List.length s = w /\
  exists b ip fp, s = b ++ (if neg then ["-"%char] else []) ++ ip ++ ["."%char] ++ fp /\
    blanks b /\ digits ip /\ digits fp /\ List.length fp = k /\ ip ++ fp <> [] /\
    m = dec_value (ip ++ fp).

(** a digit or a blank (blank counts as 0) *)
Definition flag_field (c : ascii) (n : Z) : Prop :=
  (c = " "%char /\ n = 0%Z) \/ (digit c /\ n = dig c).

(** [f] is the finite binary64 number nearest to x (ties to even) *)
Definition nearest64 (f : float) (x : R) : Prop :=
  valid_binary 53 1024 f = true /\
  is_finite_SF f = true /\
  SF2R radix2 f = Generic_fmt.round radix2 (FLT_exp (-1074) 53) ZnearestE x.

(** the real number (-1)^neg * m / 10^k *)
Definition dec_real (neg : bool) (m : Z) (k : nat) : R :=
  ((if neg then -1 else 1) * IZR m / 10 ^ k)%R.
