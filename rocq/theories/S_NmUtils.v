(** Specification: the choice of the ephemeris and of the navigation file. *)
From Coq Require Import Reals.
From Verif Require Import Base PyStr PyFloat PyDate PyPath S_Text S_Time S_Obs2.
Open Scope nat_scope.

(** whole seconds from midnight *)
Definition day_second (t : tod) : Z := let '(h, m, s, _) := t in (3600 * h + 60 * m + s)%Z.
Definition day_micros (t : tod) : Z := let '(_, _, _, u) := t in (1000000 * day_second t + u)%Z.
(** how far from the observation an ephemeris may be, in seconds: 3 h, 15 min, 256 s; two hours for
    GPS and BeiDou when not simply the first of the day is wanted *)
Definition reach (sys : ascii) : Z :=
  if Ascii.eqb sys "E" then 10800 else if Ascii.eqb sys "R" then 900 else if Ascii.eqb sys "S" then 256 else 7200.
Definition near_enough (sys : ascii) (obs t : tod) : Prop := (Z.abs (day_second obs - day_second t) <= reach sys)%Z.
Definition earliest (P : tod -> Prop) (times : list tod) (t : tod) : Prop :=
  In t times /\ P t /\ forall t', In t' times -> P t' -> (day_micros t <= day_micros t')%Z.

(** which of the times is selected *)
Inductive selected (sys : ascii) (first : bool) (obs : tod) (times : list tod) : option tod -> Prop :=
| sel_exact : In obs times -> selected sys first obs times (Some obs)
| sel_first t : ~ In obs times -> In sys (lit "GC") -> first = true -> earliest (fun _ => True) times t -> selected sys first obs times (Some t)
| sel_near t : ~ In obs times -> ~ (In sys (lit "GC") /\ first = true) -> earliest (near_enough sys obs) times t -> selected sys first obs times (Some t)
| sel_none : ~ In obs times -> ~ (In sys (lit "GC") /\ first = true) -> (forall t, In t times -> ~ near_enough sys obs t) -> selected sys first obs times None.

(** whole seconds since the last change of week (weeks change on midnight of Sundays; 1980-01-06 was one) *)
Definition week_start : datetime := mkDT 1980 1 6 0 0 0 0.
Definition seconds_of_week (t : datetime) : Z := (((instant t - instant week_start) / 1000000) mod 604800)%Z.

(** [q] occurs in the path [f], case ignored *)
Definition occurs (q f : str) : Prop := exists a b, lower f = a ++ lower q ++ b.
(** the first of [files] with the property *)
Definition first_with (P : str -> Prop) (files : list str) (f : str) : Prop :=
  exists a b, files = a ++ f :: b /\ P f /\ forall x, In x a -> ~ P x.
(** the file chosen from a non-empty list, by the property [has q f] *)
Inductive preferred (has : str -> str -> Prop) (files : list str) : list str -> str -> Prop :=
| pf_code q r f : first_with (has q) files f -> preferred has files (q :: r) f
| pf_next q r f : (forall x, In x files -> ~ has q x) -> preferred has files r f -> preferred has files (q :: r) f
| pf_first f r : files = f :: r -> preferred has files [] f.
(** the four-character site code of a file name *)
Definition has_code (q f : str) : Prop := List.length q = 4 /\ lower (firstn 4 (basename f)) = lower q.
