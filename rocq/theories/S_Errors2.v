(** Specification: malformed lines of a RINEX 2 observation file.
    Columns are those of the line without its trailing white space; a number field is malformed
    when Python's int() or float() rejects it. *)
From Coq Require Import Reals.
From Flocq Require Import Core.Core IEEE754.BinarySingleNaN.
From Verif Require Import Base PyStr PyFloat PyDate S_Text S_Time S_Obs2.
Open Scope nat_scope.

Definition cols (i j : nat) (line : str) : str := slice i j (rstrip line).
Definition not_int (s : str) : Prop := forall n, py_int s <> Ok n.
Definition not_float (s : str) : Prop := forall f, py_float s <> Ok f.

(** a seconds field that is infinite, or not below the range of a C int (NaN is not huge) *)
Definition huge_seconds (f : float) : Prop :=
  match f with
  | S754_nan => False
  | S754_infinity _ => True
  | _ => (2 ^ 31 <= Rabs (SF2R radix2 f))%R
  end.
Definition huge_line (line : str) : Prop := exists f, py_float (cols 15 26 line) = Ok f /\ huge_seconds f.

(** An epoch line that cannot be read. *)
Inductive bad_epoch (line : str) : Prop :=
| be_flag : not_int (cols 26 29 line) -> bad_epoch line
| be_event_count fl : py_int (cols 26 29 line) = Ok fl -> (1 < fl)%Z -> not_int (cols 29 32 line) -> bad_epoch line
| be_date fl i : py_int (cols 26 29 line) = Ok fl -> (fl <= 1)%Z ->
    In i [0; 3; 6; 9; 12] -> not_int (cols i (i + 3) line) -> bad_epoch line
| be_seconds fl : py_int (cols 26 29 line) = Ok fl -> (fl <= 1)%Z ->
    not_float (cols 15 26 line) -> bad_epoch line
| be_count fl : py_int (cols 26 29 line) = Ok fl -> (fl <= 1)%Z -> ~ huge_line line ->
    not_int (cols 29 32 line) -> bad_epoch line
| be_range fl y mo d h mi (tsec : str) k7 :
    py_int (cols 26 29 line) = Ok fl -> (fl <= 1)%Z ->
    py_int (cols 0 3 line) = Ok y -> py_int (cols 3 6 line) = Ok mo -> py_int (cols 6 9 line) = Ok d ->
    py_int (cols 9 12 line) = Ok h -> py_int (cols 12 15 line) = Ok mi ->
    cols 15 26 line = tsec -> fix_field 11 7 tsec false k7 -> (k7 < 1210000000)%Z ->
    ~ epoch_in_range y mo d h mi (k7 / 10000000) (k7 mod 10000000 / 10) -> bad_epoch line
| be_sat fl n k : py_int (cols 26 29 line) = Ok fl -> (fl <= 1)%Z -> ~ huge_line line ->
    py_int (cols 29 32 line) = Ok n -> k < 12 -> (Z.of_nat k < n)%Z ->
    not_int (cols (32 + 3 * k + 1) (32 + 3 * k + 3) line) -> bad_epoch line.

(** An observation field (sixteen columns) that is neither blank nor starts with a number. *)
Definition bad_field (line : str) (k : nat) : Prop :=
  let c := cols (16 * k) (16 * k + 16) line in
  c <> [] /\ ~ blanks c /\ not_float (slice 0 14 c).

(** number of fields on the j-th line of a satellite record with n observation types *)
Definition fields_on_line (n j : nat) : nat := min 5 (n - 5 * j).

(** The following lines do not hold the record of one satellite: a line is missing or has a
    malformed field. *)
Definition bad_sat (n : nat) (lines : list str) : Prop :=
  exists j, 5 * j < n /\
    match nth_error lines j with
    | None => True
    | Some l => exists k, k < fields_on_line n j /\ bad_field l k
    end.

(** the malformed end of a file and the blocks it still delivers *)
Inductive bad_end (n : nat) : list str -> list block -> Prop :=
| bad_end_epoch line rest : bad_epoch line -> bad_end n (line :: rest) []
| bad_end_sat ep fl sats name more els sls rest : epoch_lines ep fl (map fst sats ++ name :: more) els ->
    sats_lines n sats sls -> bad_sat n rest -> bad_end n (els ++ sls ++ rest) [BData ep fl sats].

