(** datetime.strftime(format) of a naive datetime in the C locale (the program never calls setlocale).
    This file models the Python runtime, not code of the repository. *)
From Verif Require Import Base PyStr PyFloat PyDate.
Open Scope Z_scope.

Definition day_names : list str := map lit ["Sunday"; "Monday"; "Tuesday"; "Wednesday"; "Thursday"; "Friday"; "Saturday"]%string.
Definition month_names : list str := map lit
  ["January"; "February"; "March"; "April"; "May"; "June"; "July"; "August"; "September"; "October"; "November"; "December"]%string.
(** 0: Sunday *)
Definition weekday (t : datetime) : Z := ymd2ord (dy t) (dmo t) (dd t) mod 7.
Definition yday (t : datetime) : Z := day_of_year (dy t) (dmo t) (dd t).
Definition day_name (t : datetime) : str := nth (Z.to_nat (weekday t)) day_names [].
Definition month_name (t : datetime) : str := nth (Z.to_nat (dmo t - 1)) month_names [].
Definition clock (t : datetime) : str := fmt_0d 2 (dh t) ++ lit ":" ++ fmt_0d 2 (dmi t) ++ lit ":" ++ fmt_0d 2 (ds t).

Definition hour12 (t : datetime) : Z := if dh t mod 12 =? 0 then 12 else dh t mod 12.

(** the codes listed in docs/usage.rst; other codes: None *)
Definition directive (c : ascii) (t : datetime) : option str :=
  match c with
  | "a" => Some (firstn 3 (day_name t))
  | "A" => Some (day_name t)
  | "w" => Some (nat_str (weekday t))
  | "d" => Some (fmt_0d 2 (dd t))
  | "b" => Some (firstn 3 (month_name t))
  | "B" => Some (month_name t)
  | "m" => Some (fmt_0d 2 (dmo t))
  | "y" => Some (fmt_0d 2 (dy t mod 100)%Z)
  | "Y" => Some (nat_str (dy t))
  | "H" => Some (fmt_0d 2 (dh t))
  | "I" => Some (fmt_0d 2 (hour12 t))
  | "p" => Some (if (dh t <? 12)%Z then lit "AM" else lit "PM")
  | "M" => Some (fmt_0d 2 (dmi t))
  | "S" => Some (fmt_0d 2 (ds t))
  | "f" => Some (fmt_0d 6 (dus t))
  | "z" => Some []
  | "Z" => Some []
  | "j" => Some (fmt_0d 3 (yday t))
  | "U" => Some (fmt_0d 2 ((yday t - 1 + 7 - weekday t) / 7)%Z)
  | "W" => Some (fmt_0d 2 ((yday t - 1 + 7 - (weekday t + 6) mod 7) / 7)%Z)
  | "c" => Some (firstn 3 (day_name t) ++ lit " " ++ firstn 3 (month_name t) ++ lit " " ++ pad_left " "%char 2 (nat_str (dd t)) ++ lit " " ++ clock t ++ lit " " ++ nat_str (dy t))
  | "x" => Some (fmt_0d 2 (dmo t) ++ lit "/" ++ fmt_0d 2 (dd t) ++ lit "/" ++ fmt_0d 2 (dy t mod 100)%Z)
  | "X" => Some (clock t)
  | "%" => Some (lit "%")
  | _ => None
  end%char.
(** None: the format has another code *)
Fixpoint strf (fmt : str) (t : datetime) : option str :=
  match fmt with
  | [] => Some []
  | c :: r =>
    if ceqb c "%"%char then
      match r with
      | [] => Some [c]
      | d :: r' => match directive d t, strf r' t with Some a, Some b => Some (a ++ b) | _, _ => None end
      end
    else match strf r t with Some b => Some (c :: b) | None => None end
  end.
(** formats with other codes are left to [other] *)
Definition strftime (other : datetime -> str) (fmt : str) (t : datetime) : str :=
  match strf fmt t with Some s => s | None => other t end.
