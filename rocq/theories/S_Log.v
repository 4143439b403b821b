(** Specification: the log of a run as an account of what is left out. *)
From Verif Require Import Base PyStr PyFloat PyDate PyPath M_Common M_Header M_Obs2 M_Rec M_Text M_Cfg M_Label M_Names M_Xyz M_Nav M_NmUtils M_Num M_Tec M_Sat M_Main M_Run M_Log S_Main S_Run.
Open Scope nat_scope.

(** the message gives a reason to leave out a record, and all it names (file, time, satellite, system, day) is of the record: satellite
    number [n] of system [sys] at time [t] in file [name] *)
Definition about (m : message) (name : str) (s : step) (t : datetime) (sys : ascii) (n : Z) : Prop :=
  match m with
  | LNavError | LNoMessage => True
  | LNoNav sys' d => sys' = sys /\ d = dt_date t
  | LNoSystem sys' => sys' = sys
  | LNoSatellite sys' n' => sys' = sys /\ n' = n
  | LPosition _ name' t' | LAngles _ name' t' => name' = name /\ t' = t
  | LBelow el name' _ t' sat => name' = name /\ t' = t /\ sat = s_sat s /\ fltb el fzero = true
  | LCodes name' => name' = name
  | _ => False
  end.
(** the level is INFO or above *)
Definition noticeable (m : message) : Prop := 20 <= level_of m.
(** the messages are kept: logLevel is DEBUG or INFO *)
Definition verbose (c : cfg) : Prop := c_level c = lit "DEBUG" \/ c_level c = lit "INFO".
(** the navigation file has messages of the satellite, but none near enough to the time *)
Definition far (w : world) (c : cfg) (t : datetime) (sys : ascii) (n : Z) : Prop :=
  exists f sats msgs, nav_data w c t sys (Some (f, sats)) /\ dict_get Z.eqb n sats = Some msgs /\ unlocated w c t sys n.
(** the records processed in some parts of a run *)
Definition processed (ps : list part) (s : step) : Prop := exists p, In p ps /\ p_step p = Some s.
Definition parts_of (xs : list (str * list part)) : list part := concat (map snd xs).
(** [p] is a part of the run for observation file [name], [before] the parts before it *)
Definition part_of_run (w : world) (c : cfg) (f : fs) (before : list part) (name : str) (p : part) : Prop :=
  exists pre x y post, main_parts w c f = pre ++ (name, x ++ p :: y) :: post /\ before = parts_of pre ++ x.
(** the row of record [s] *)
Definition has_row (s : step) (t : datetime) (ops : list wop) : Prop := exists sd nav q, In (WRow (s_sat s) sd nav t q) ops.
(** [us] are the elements of [l] that satisfy P *)
Inductive chosen {A} (P : A -> Prop) : list A -> list A -> Prop :=
| ch_nil : chosen P [] []
| ch_yes x l us : P x -> chosen P l us -> chosen P (x :: l) (x :: us)
| ch_no x l us : ~ P x -> chosen P l us -> chosen P (x :: l) us.
(** the records processed, in their order *)
Definition records_of (ps : list part) : list step := flat_map (fun p => match p_step p with Some s => [s] | None => [] end) ps.
(** the messages that are errors *)
Definition error_message (m : message) : Prop := level_of m = 40.
(** the messages of the failures that are counted: a file that cannot be opened or read to its end or has another time system, a
    satellite position or angles that cannot be computed *)
Inductive failure : message -> Prop :=
| fl_open e : failure (LOpen e)
| fl_time name ts : failure (LTime name ts)
| fl_broken name : failure (LBroken name)
| fl_position nav name t : failure (LPosition nav name t)
| fl_angles nav name t : failure (LAngles nav name t).
(** the record is of a supported system, but at [t], a time of another day than [day] *)
Definition another_day (day : option date) (s : step) (t : datetime) : Prop := exists sys n, identifies s t sys n /\ In sys systems /\ day <> Some (dt_date t).
Inductive date_message : message -> Prop := dm name d day : date_message (LDate name d day).
