(** Specification vocabulary for observation classes, the choice of observables and the
    validity word.  Independent of the functions of the model: only codes and values. *)
From Verif Require Import Base PyStr PyFloat PyDate M_Obs2 M_Label.
Open Scope nat_scope.

(** A RINEX 3 code "band attribute" such as L1C, as three characters. *)
Definition code3 (kind band attr : ascii) : str := [kind; band; attr].

(** lexicographic order by character codes *)
Inductive str_le : str -> str -> Prop :=
| sle_nil s : str_le [] s
| sle_lt a b s t : (code a < code b)%N -> str_le (a :: s) (b :: t)
| sle_eq a s t : str_le s t -> str_le (a :: s) (a :: t).

(** [k] is the alphabetically first key of the record that belongs to the class *)
Definition first_of_class (rec : record) (c : oclass) (k : str) : Prop :=
  In k (map fst rec) /\ In k c /\ forall k', In k' (map fst rec) -> In k' c -> str_le k k'.

(** some declared type belongs to the class *)
Definition declared (types : list str) (c : oclass) : Prop := exists t, In t types /\ In t c.

(** the value is there and not zero *)
Definition nonzero (v : obsval) : Prop := exists x, fst (fst v) = Some x /\ forall s, x <> S754_zero s.
Definition has_value (rec : record) (c : oclass) : Prop := exists t v, In (t, v) rec /\ In t c /\ nonzero v.

(** the loss-of-lock indicator of the phase used for the band is odd *)
Definition lock_lost (rec : record) (c : oclass) : Prop :=
  exists k v, first_of_class rec c k /\ In (k, v) rec /\ Z.odd (snd (fst v)) = true.

(** The bits of the validity word: number, class of codes. *)
Definition class_bit (k : Z) : option oclass :=
  match k with
  | 2 => Some cC1 | 3 => Some cL1 | 4 => Some cL2 | 5 => Some cP1 | 6 => Some cP2 | 7 => Some cS1
  | 8 => Some cS2 | 9 => Some cD1 | 10 => Some cD2 | 11 => Some cD5 | 12 => Some cC2 | 13 => Some cC5
  | 14 => Some cL5 | 15 => Some cS5 | _ => None
  end%Z.
Definition lock_bit (k : Z) : option oclass :=
  match k with 0 => Some cL1 | 1 => Some cL2 | 16 => Some cL5 | _ => None end%Z.
