(** Python's str() of numbers: for a float the shortest decimal text that reads back as the same float (PyOS_double_to_string with
    format code 'r').  This file models the Python runtime, not code of the repository. *)
From Verif Require Import Base PyStr PyFloat.
Open Scope Z_scope.

Definition sf_eqb (x y : float) : bool :=
  match x, y with
  | S754_zero s, S754_zero t => Bool.eqb s t
  | S754_infinity s, S754_infinity t => Bool.eqb s t
  | S754_nan, S754_nan => true
  | S754_finite s m e, S754_finite t n f => Bool.eqb s t && Pos.eqb m n && (e =? f)
  | _, _ => false
  end.

(** m * 2^e as a fraction *)
Definition ratio (m : positive) (e : Z) : Z * Z := if 0 <=? e then (Zpos m * 2 ^ e, 1) else (Zpos m, 2 ^ (- e)).
(** k with 10^k <= n / d < 10^(k+1) *)
Fixpoint grow (fuel : nat) (n d k : Z) : Z :=
  match fuel with O => k | S f => if d * 10 <=? n then grow f n (d * 10) (k + 1) else k end.
Fixpoint shrink (fuel : nat) (n d k : Z) : Z :=
  match fuel with O => k | S f => if d <=? n then k else shrink f (n * 10) d (k - 1) end.
Definition dec_exp (n d : Z) : Z :=
  if d <=? n then grow (S (Z.to_nat (Z.log2 n))) n d 0 else shrink (S (Z.to_nat (Z.log2 d))) n d 0.

(** the two decimals c * 10^(-s) beside n / d: the nearer one, the other *)
Definition beside (n d s : Z) : Z * Z :=
  let '(a, b) := if 0 <=? s then (n * 10 ^ s, d) else (n, d * 10 ^ (- s)) in
  let c := div_half_even a b in
  (c, 2 * (a / b) + 1 - c).
(** of i digits, one that reads back as x *)
Definition reads_back (neg : bool) (x : float) (n d s : Z) : option Z :=
  let '(c, c') := beside n d s in
  if sf_eqb (b64_of_dec neg c (- s)) x then Some c
  else if sf_eqb (b64_of_dec neg c' (- s)) x then Some c' else None.
(** the fewest digits, from i on: c and s with c * 10^(-s); 17 always suffice *)
Fixpoint fewest (fuel : nat) (neg : bool) (x : float) (n d k i : Z) : Z * Z :=
  let s := i - 1 - k in
  match fuel with
  | O => (fst (beside n d s), s)
  | S f => match reads_back neg x n d s with
           | Some c => (c, s)
           | None => fewest f neg x n d k (i + 1)
           end
  end.

Fixpoint drop_zeros (s : str) : str :=
  match s with
  | [] => []
  | c :: r => match drop_zeros r with [] => if ceqb c "0"%char then [] else [c] | r' => c :: r' end
  end.
(** the text of 0.ds * 10^p *)
Definition place_point (ds : str) (p : Z) : str :=
  if (-4 <? p) && (p <=? 16) then
    if p <=? 0 then lit "0." ++ repeat "0"%char (Z.to_nat (- p)) ++ ds
    else if Z.of_nat (List.length ds) <=? p then ds ++ repeat "0"%char (Z.to_nat p - List.length ds) ++ lit ".0"
    else firstn (Z.to_nat p) ds ++ lit "." ++ skipn (Z.to_nat p) ds
  else
    firstn 1 ds ++ (match skipn 1 ds with [] => [] | r => lit "." ++ r end) ++
    (if p - 1 <? 0 then lit "e-" else lit "e+") ++ pad_left "0"%char 2 (nat_str (Z.abs (p - 1))).
Definition repr_float (x : float) : str :=
  match x with
  | S754_zero s => if s then lit "-0.0" else lit "0.0"
  | S754_infinity s => if s then lit "-inf" else lit "inf"
  | S754_nan => lit "nan"
  | S754_finite s m e =>
    let '(n, d) := ratio m e in
    let '(c, sc) := fewest 16 s x n d (dec_exp n d) 1 in
    let ds := nat_str c in
    (if s then lit "-" else []) ++ place_point (drop_zeros ds) (Z.of_nat (List.length ds) - sc)
  end.
