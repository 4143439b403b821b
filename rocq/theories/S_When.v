(** Specification of the datetime column: what its text tells about the time of the row, and how wide it is. *)
From Verif Require Import Base PyStr PyDate S_Time.
Open Scope nat_scope.

(** the codes of datetimeFormat whose text has the same width for all dates with four-digit years (docs/usage.rst; C locale) *)
Definition code_width (d : ascii) : option nat :=
  match d with
  | "a" | "b" | "j" => Some 3
  | "w" | "%" => Some 1
  | "d" | "m" | "y" | "H" | "I" | "p" | "M" | "S" | "U" | "W" => Some 2
  | "Y" => Some 4
  | "f" => Some 6
  | "z" | "Z" => Some 0
  | "c" => Some 24
  | "x" | "X" => Some 8
  | _ => None
  end%char.
(** [fmt] consists of text and of such codes and its text is [n] characters wide *)
Inductive fixed : str -> nat -> Prop :=
| fx_end : fixed [] 0
| fx_last : fixed ["%"%char] 1
| fx_text c r n : c <> "%"%char -> fixed r n -> fixed (c :: r) (S n)
| fx_code d k r n : code_width d = Some k -> fixed r n -> fixed ("%"%char :: d :: r) (k + n).
(** [fmt] consists of text and of the codes listed in docs/usage.rst *)
Inductive documented : str -> Prop :=
| dc_end : documented []
| dc_last : documented ["%"%char]
| dc_text c r : c <> "%"%char -> documented r -> documented (c :: r)
| dc_code d r : code_width d <> None \/ d = "A"%char \/ d = "B"%char -> documented r -> documented ("%"%char :: d :: r).
(** [fmt] contains the code [d] *)
Inductive uses (d : ascii) : str -> Prop :=
| us_here r : uses d ("%"%char :: d :: r)
| us_text c r : c <> "%"%char -> uses d r -> uses d (c :: r)
| us_code e r : uses d r -> uses d ("%"%char :: e :: r).
(** the numbers of the codes *)
Definition code_value (d : ascii) (t : datetime) : Z :=
  match d with
  | "Y" => dy t
  | "m" | "b" | "B" => dmo t
  | "d" => dd t
  | "j" => civil_day (dy t) (dmo t) (dd t) - civil_day (dy t) 1 1 + 1
  | "H" => dh t
  | "M" => dmi t
  | "S" => ds t
  | "f" => dus t
  | _ => 0
  end%char%Z.
(** a date of the calendar with a four-digit year *)
Definition common_era (t : datetime) : Prop := valid_datetime t /\ (1000 <= dy t <= 9999)%Z.
(** formats that give the day and the second *)
Definition to_second (fmt : str) : Prop :=
  uses "Y" fmt /\ (uses "j" fmt \/ (uses "m" fmt \/ uses "b" fmt \/ uses "B" fmt) /\ uses "d" fmt) /\ uses "H" fmt /\ uses "M" fmt /\ uses "S" fmt.
