(** Specification of the coordinates file. *)
From Coq Require Import Reals.
From Verif Require Import Base PyStr PyFloat PyDate S_Text S_Time.
Open Scope nat_scope.

(** a decimal number (-1)^neg * m / 10^k; at most 300 digits *)
Record decimal := Dec { d_neg : bool; d_m : Z; d_k : nat }.
Definition metres (s : str) (d : decimal) : Prop :=
  exists ip fp, s = (if d_neg d then ["-"%char] else []) ++ ip ++ "."%char :: fp /\ digits ip /\ digits fp /\ ip ++ fp <> [] /\
    List.length (ip ++ fp) <= 300 /\ d_m d = dec_value (ip ++ fp) /\ d_k d = List.length fp.
Definition point := (decimal * decimal * decimal)%type.
Definition near_dec (f : float) (d : decimal) : Prop := nearest64 f (dec_real (d_neg d) (d_m d) (d_k d)).
Definition near_point (f : float * float * float) (p : point) : Prop :=
  near_dec (fst (fst f)) (fst (fst p)) /\ near_dec (snd (fst f)) (snd (fst p)) /\ near_dec (snd f) (snd p).
Definition gap (s : str) : Prop := white s /\ s <> [].
Definition two (s : str) (n : Z) : Prop := digits s /\ List.length s = 2 /\ dec_value s = n.
(** YYYY-MM-DD HH:MM:SS  x  y  z *)
Definition position_line (line : str) (t : datetime) (p : point) : Prop :=
  exists yyyy mo d h mi se g1 g2 g3 g4 x y z w,
    line = yyyy ++ lit "-" ++ mo ++ lit "-" ++ d ++ g1 ++ h ++ lit ":" ++ mi ++ lit ":" ++ se ++ g2 ++ x ++ g3 ++ y ++ g4 ++ z ++ w /\
    digits yyyy /\ List.length yyyy = 4 /\ dec_value yyyy = dy t /\
    two mo (dmo t) /\ two d (dd t) /\ two h (dh t) /\ two mi (dmi t) /\ two se (ds t) /\ dus t = 0%Z /\ valid_datetime t /\
    gap g1 /\ gap g2 /\ gap g3 /\ gap g4 /\ white w /\
    metres x (fst (fst p)) /\ metres y (snd (fst p)) /\ metres z (snd p).
(** comments and blank lines *)
Definition ignored_line (line : str) : Prop := white line \/ exists w r, line = w ++ "#"%char :: r /\ white w.
Inductive xyz_lines : list str -> list (datetime * point) -> Prop :=
| xl_nil : xyz_lines [] []
| xl_skip l ls ps : ignored_line l -> xyz_lines ls ps -> xyz_lines (l :: ls) ps
| xl_pos l ls ps t p : position_line l t p -> xyz_lines ls ps -> xyz_lines (l :: ls) ((t, p) :: ps).
(** the position of time t: the last one listed *)
Definition last_position (t : datetime) (ps : list (datetime * point)) (p : point) : Prop :=
  exists before after, ps = before ++ (t, p) :: after /\ forall q, ~ In (t, q) after.
