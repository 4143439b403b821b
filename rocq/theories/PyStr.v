(** The part of Python's str the code uses (CPython >= 3.6, one-byte text).
    This file models the Python runtime, not code of the repository. *)
From Verif Require Import Base.
Open Scope nat_scope.

Definition code (c : ascii) : N := N_of_ascii c.

(** str.isspace / str.strip white space: TAB LF VT FF CR FS GS RS US SPACE. *)
Definition is_space (c : ascii) : bool :=
  let n := code c in ((9 <=? n) && (n <=? 13) || (28 <=? n) && (n <=? 32))%N.

Definition is_digit (c : ascii) : bool := let n := code c in ((48 <=? n) && (n <=? 57))%N.
Definition digit_val (c : ascii) : Z := Z.of_N (code c) - 48.
Definition is_upper (c : ascii) : bool := let n := code c in ((65 <=? n) && (n <=? 90))%N.
Definition is_lower (c : ascii) : bool := let n := code c in ((97 <=? n) && (n <=? 122))%N.
(** regular-expression class \w *)
Definition is_word (c : ascii) : bool :=
  is_digit c || is_upper c || is_lower c || (code c =? 95)%N.
Definition upper_c (c : ascii) : ascii := if is_lower c then ascii_of_N (code c - 32) else c.
Definition lower_c (c : ascii) : ascii := if is_upper c then ascii_of_N (code c + 32) else c.
Definition upper (s : str) : str := map upper_c s.
Definition lower (s : str) : str := map lower_c s.

Definition ceqb (a b : ascii) : bool := Ascii.eqb a b.
Fixpoint seqb (a b : str) : bool :=
  match a, b with
  | [], [] => true
  | x :: a', y :: b' => ceqb x y && seqb a' b'
  | _, _ => false
  end.

(** s[i:j] for 0 <= i, 0 <= j *)
Definition slice (i j : nat) (s : str) : str := firstn (j - i) (skipn i s).
(** s[i:] *)
Definition from (i : nat) (s : str) : str := skipn i s.
(** s[i] for i >= 0: IndexError when out of range *)
Definition char_at (i : nat) (s : str) : res ascii := of_option IndexError (nth_error s i).

Fixpoint lstrip (s : str) : str :=
  match s with
  | c :: r => if is_space c then lstrip r else s
  | [] => []
  end.
Fixpoint rstrip (s : str) : str :=
  match s with
  | [] => []
  | c :: r => match rstrip r with
              | [] => if is_space c then [] else [c]
              | r' => c :: r'
              end
  end.
Definition strip (s : str) : str := rstrip (lstrip s).

(** s.isspace(): at least one character, all white *)
Definition isspace (s : str) : bool :=
  match s with [] => false | _ => forallb is_space s end.

Definition repeat_c (c : ascii) (n : nat) : str := repeat c n.
Definition spaces (n : nat) : str := repeat_c " "%char n.

(** s.replace(a, b) for one-character a, b *)
Definition replace_c (a b : ascii) (s : str) : str := map (fun c => if ceqb c a then b else c) s.

Fixpoint is_prefix (p s : str) : bool :=
  match p, s with
  | [], _ => true
  | x :: p', y :: s' => ceqb x y && is_prefix p' s'
  | _ :: _, [] => false
  end.
(** p in s *)
Fixpoint contains (p s : str) : bool :=
  is_prefix p s || match s with [] => false | _ :: s' => contains p s' end.

(** s.split(): maximal runs of non-white characters *)
Fixpoint split_aux (cur : str) (s : str) : list str :=
  match s with
  | [] => match cur with [] => [] | _ => [rev cur] end
  | c :: r => if is_space c
              then match cur with [] => split_aux [] r | _ => rev cur :: split_aux [] r end
              else split_aux (c :: cur) r
  end.
Definition split_ws (s : str) : list str := split_aux [] s.

(** s.split(c) for a one-character separator *)
Fixpoint split_on (sep : ascii) (s : str) : list str :=
  match s with
  | [] => [[]]
  | c :: r => if ceqb c sep then [] :: split_on sep r
              else match split_on sep r with
                   | w :: ws => (c :: w) :: ws
                   | [] => [[c]]
                   end
  end.

(** Value of a string of decimal digits. *)
Definition digits_val (s : str) : Z := fold_left (fun a c => (a * 10 + digit_val c)%Z) s 0%Z.
Definition all_digits (s : str) : bool := forallb is_digit s.

(** Remove the underscores PEP 515 allows in int() and float() arguments: each one must
    stand between two digits; [prev] tells whether the previous character is a digit. *)
Fixpoint drop_underscores (prev : bool) (s : str) : option str :=
  match s with
  | [] => Some []
  | c :: r =>
    if ceqb c "_"%char then
      match r with
      | d :: _ => if prev && is_digit d then drop_underscores false r else None
      | [] => None
      end
    else match drop_underscores (is_digit c) r with
         | Some r' => Some (c :: r')
         | None => None
         end
  end.

(** optional sign *)
Definition take_sign (s : str) : bool * str :=
  match s with
  | c :: r => if ceqb c "-"%char then (true, r)
              else if ceqb c "+"%char then (false, r) else (false, s)
  | [] => (false, [])
  end.

(** int(s), base 10; None stands for ValueError. *)
Definition py_int_opt (s : str) : option Z :=
  match drop_underscores false (strip s) with
  | None => None
  | Some t =>
    let '(neg, d) := take_sign t in
    match d with
    | [] => None
    | _ => if all_digits d then Some (if neg then - digits_val d else digits_val d)%Z else None
    end
  end.
Definition py_int (s : str) : res Z := of_option ValueError (py_int_opt s).

(** maximal prefix of digits *)
Fixpoint span_digits (s : str) : str * str :=
  match s with
  | c :: r => if is_digit c then let '(a, b) := span_digits r in (c :: a, b) else ([], s)
  | [] => ([], [])
  end.

(** What the text of a float() argument denotes: (-1)^neg * m * 10^e, an infinity or a NaN. *)
Inductive flit := LDec (neg : bool) (m : Z) (e : Z) | LInf (neg : bool) | LNaN.

Definition float_exponent (s : str) : option Z :=
  match s with
  | [] => Some 0%Z
  | c :: r =>
    if ceqb (lower_c c) "e"%char then
      let '(neg, d) := take_sign r in
      match d with
      | [] => None
      | _ => if all_digits d then Some (if neg then - digits_val d else digits_val d)%Z else None
      end
    else None
  end.

Definition float_lit (s : str) : option flit :=
  match drop_underscores false (strip s) with
  | None => None
  | Some t =>
    let '(neg, u) := take_sign t in
    let lu := lower u in
    if seqb lu (lit "inf") || seqb lu (lit "infinity") then Some (LInf neg)
    else if seqb lu (lit "nan") then Some LNaN
    else
      let '(ip, r) := span_digits u in
      let '(fp, r') := match r with
                       | c :: r1 => if ceqb c "."%char then span_digits r1 else ([], r)
                       | [] => ([], r)
                       end in
      match ip ++ fp with
      | [] => None
      | ds => match float_exponent r' with
              | Some x => Some (LDec neg (digits_val ds) (x - Z.of_nat (List.length fp)))
              | None => None
              end
      end
  end.

(** Decimal digits of a non-negative integer ("%d"). *)
Fixpoint dec_digits (fuel : nat) (n : Z) (acc : str) : str :=
  match fuel with
  | O => acc
  | S f =>
    let acc' := ascii_of_N (Z.to_N (48 + n mod 10)) :: acc in
    if (n <? 10)%Z then acc' else dec_digits f (n / 10)%Z acc'
  end.
Definition nat_str (n : Z) : str := dec_digits (S (Z.to_nat (Z.log2 n))) n [].
Definition z_str (n : Z) : str := if (n <? 0)%Z then "-"%char :: nat_str (- n) else nat_str n.

(** left padding *)
Definition pad_left (c : ascii) (w : nat) (s : str) : str := repeat_c c (w - List.length s) ++ s.
(** "%0wd" *)
Definition fmt_0d (w : nat) (n : Z) : str :=
  if (n <? 0)%Z then "-"%char :: pad_left "0"%char (w - 1) (nat_str (- n))
  else pad_left "0"%char w (nat_str n).
