(** Specification of the body of a RINEX 2 observation file: which text denotes which data.
    Independent of the reader; columns are those of the RINEX 2 format description. *)
From Verif Require Import Base PyStr PyFloat PyDate S_Text S_Time M_Header M_Obs2.
Open Scope nat_scope.

(** One observation as the file states it: blank, or a decimal with three decimals, an LLI and
    a signal strength. *)
Inductive field := FBlank | FVal (neg : bool) (m : Z) (lli ss : Z).

(** F14.3, I1, I1: sixteen columns *)
Inductive field_text : str -> field -> Prop :=
| ft_blank s : List.length s = 16 -> blanks s -> field_text s FBlank
| ft_val s neg m cl cs l k :
    fix_field 14 3 s neg m -> flag_field cl l -> flag_field cs k ->
    field_text (s ++ [cl; cs]) (FVal neg m l k).

(** equal up to trailing white space *)
Definition same_line (a b : str) : Prop :=
  exists c w1 w2, a = c ++ w1 /\ b = c ++ w2 /\ white w1 /\ white w2.

(** the line holding the given fields (trailing blanks may be missing, a line end may follow) *)
Definition obs_line (fs : list field) (line : str) : Prop :=
  exists texts, Forall2 field_text texts fs /\ same_line (concat texts) line.

(** the lines of one satellite: five observations per line *)
Inductive obs_lines : list field -> list str -> Prop :=
| ol_nil : obs_lines [] []
| ol_last fs l : 1 <= List.length fs <= 5 -> obs_line fs l -> obs_lines fs [l]
| ol_more fs gs l ls : List.length fs = 5 -> gs <> [] -> obs_line fs l -> obs_lines gs ls ->
    obs_lines (fs ++ gs) (l :: ls).

(** satellite identifier: system letter (blank = G, lower case allowed) and a number;
    [name] is the canonical three-character name *)
Inductive sat_text : str -> str -> Prop :=
| st c s n sys : int_field 2 s n ->
    (c = " "%char /\ sys = "G"%char \/ c <> " "%char /\ sys = upper_c c) ->
    forall d1 d2, digit d1 -> digit d2 -> n = (dig d1 * 10 + dig d2)%Z ->
    sat_text (c :: s) [sys; d1; d2].

(** satellite list continued over lines of twelve; a continuation line starts in column 32 *)
Inductive cont_lines : list str -> list str -> Prop :=
| cl_nil : cont_lines [] []
| cl_last names texts pre rest : 1 <= List.length names <= 12 -> List.length pre = 32 ->
    Forall2 sat_text texts names -> cont_lines names [pre ++ concat texts ++ rest]
| cl_more names more texts pre rest ls : List.length names = 12 -> more <> [] -> List.length pre = 32 ->
    Forall2 sat_text texts names -> cont_lines more ls ->
    cont_lines (names ++ more) ((pre ++ concat texts ++ rest) :: ls).

(** The epoch line(s): date, flag, number of satellites, satellite list.
    [k7] is the seconds field in units of 1e-7 s; whatever follows the list is ignored. *)
Inductive epoch_lines : datetime -> Z -> list str -> list str -> Prop :=
| el (ty tmo td th tmi tsec tfl tn : str) (y mo d h mi k7 fl : Z) texts rest ep first more ls :
    int_field 3 ty y -> int_field 3 tmo mo -> int_field 3 td d -> int_field 3 th h -> int_field 3 tmi mi ->
    fix_field 11 7 tsec false k7 -> int_field 3 tfl fl -> (fl = 0 \/ fl = 1)%Z ->
    int_field 3 tn (Z.of_nat (List.length (first ++ more))) ->
    (* the date is a real one; minutes and seconds up to 120 are tolerated *)
    (y < 100)%Z ->
    epoch_in_range y mo d h mi (k7 / 10000000) (k7 mod 10000000 / 10) ->
    valid_datetime ep ->
    instant ep = epoch_value y mo d h mi (k7 / 10000000) (k7 mod 10000000 / 10) ->
    Forall2 sat_text texts first ->
    (List.length first <= 12 /\ more = [] \/ List.length first = 12) ->
    cont_lines more ls ->
    epoch_lines ep fl (first ++ more)
      ((ty ++ tmo ++ td ++ th ++ tmi ++ tsec ++ tfl ++ tn ++ concat texts ++ rest) :: ls).

(** Site position as three binary64 numbers, and as the decimals (sign, units of 1e-4 m)
    written in a file. *)
Definition position := (float * float * float)%type.
Definition dec4 := (bool * Z)%type.
Definition dec_position := (dec4 * dec4 * dec4)%type.
Definition near4 (f : float) (d : dec4) : Prop := nearest64 f (dec_real (fst d) (snd d) 4).
Definition near_position (p : position) (d : dec_position) : Prop :=
  let '(x, y, z) := p in let '(dx, dy, dz) := d in near4 x dx /\ near4 y dy /\ near4 z dz.

(** the labels in columns 61-80 that mean something to an observation reader *)
Definition known_labels : list str :=
  [lit "RINEX VERSION / TYPE"; lit "TIME OF FIRST OBS"; lit "APPROX POSITION XYZ"; lit "INTERVAL"].
Definition has_label (lab line : str) : Prop :=
  exists cols w, List.length cols = 60 /\ line = cols ++ lab ++ w /\ white w.

(** A header line inside an event record: a position (3F14.4), or a line of no interest. *)
Inductive event_line : str -> option dec_position -> Prop :=
| ev_pos tx ty tz nx mx ny my nz mz mid w :
    fix_field 14 4 tx nx mx -> fix_field 14 4 ty ny my -> fix_field 14 4 tz nz mz ->
    List.length mid = 18 -> white w ->
    event_line (tx ++ ty ++ tz ++ mid ++ lit "APPROX POSITION XYZ" ++ w) (Some ((nx, mx), (ny, my), (nz, mz)))
| ev_other line : (forall lab, In lab known_labels -> ~ has_label lab line) -> event_line line None.

(** The lines of an event: at most one of them is a position. *)
Inductive event_lines : list str -> option dec_position -> Prop :=
| es_nil : event_lines [] None
| es_other l ls np : event_line l None -> event_lines ls np -> event_lines (l :: ls) np
| es_pos l ls p : event_line l (Some p) -> Forall (fun l => event_line l None) ls -> event_lines (l :: ls) (Some p).

(** A block of the file body: an epoch with its satellites, or an event; [newpos] is the
    position it announces. *)
Inductive block :=
| BData (ep : datetime) (flag : Z) (sats : list (str * list field))
| BEvent (flag : Z) (lines : list str) (newpos : option dec_position).

(** [ntypes] observations are declared *)
Definition sats_lines (ntypes : nat) (sats : list (str * list field)) (lines : list str) : Prop :=
  exists parts, lines = concat parts /\
    Forall2 (fun s p => List.length (snd s) = ntypes /\ obs_lines (snd s) p) sats parts.

Inductive block_lines (ntypes : nat) : block -> list str -> Prop :=
| bl_data ep fl sats els sls :
    epoch_lines ep fl (map fst sats) els -> sats_lines ntypes sats sls ->
    block_lines ntypes (BData ep fl sats) (els ++ sls)
| bl_event (pre tfl tn rest : str) (fl : Z) ls np :
    List.length pre = 26 -> int_field 3 tfl fl -> (1 < fl)%Z -> int_field 3 tn (Z.of_nat (List.length ls)) ->
    (* flags 3 and 4 carry header lines, the others arbitrary text *)
    ((fl = 3 \/ fl = 4)%Z /\ event_lines ls np \/ (fl <> 3 /\ fl <> 4)%Z /\ np = None) ->
    block_lines ntypes (BEvent fl ls np) ((pre ++ tfl ++ tn ++ rest) :: ls).

Inductive body_lines (ntypes : nat) : list block -> list str -> Prop :=
| bd_nil : body_lines ntypes [] []
| bd_cons b bs l ls : block_lines ntypes b l -> body_lines ntypes bs ls ->
    body_lines ntypes (b :: bs) (l ++ ls).

(** What a delivered value must be for a field of the file. *)
Inductive field_value : field -> obsval -> Prop :=
| fv_blank : field_value FBlank (None, 0%Z, 0%Z)
| fv_val neg m l k f : nearest64 f (dec_real neg m 3) -> field_value (FVal neg m l k) (Some f, l, k).

(** What a delivered record must be: each declared type with its value, in order. *)
Definition sat_record (types : list str) (fs : list field) (r : record) : Prop :=
  Forall2 (fun tf tv => fst tf = fst tv /\ field_value (snd tf) (snd tv)) (combine types fs) r.

(** The records of one epoch. *)
Definition epoch_records (types : list str) (ep : datetime) (sats : list (str * list field))
  (rs : list orec) : Prop :=
  Forall2 (fun s r => fst (fst r) = ep /\ snd (fst r) = fst s /\ sat_record types (snd s) (snd r)) sats rs.

(** What reading the blocks delivers: every record together with the site position in force,
    given the epoch [prec] of the block before and the position [pos].
    A block repeating the epoch of the block before it delivers nothing. *)
Inductive delivered (types : list str) : option datetime -> position -> list block -> list (orec * position) -> Prop :=
| dl_nil prec pos : delivered types prec pos [] []
| dl_dup ep fl sats bs pos out : delivered types (Some ep) pos bs out ->
    delivered types (Some ep) pos (BData ep fl sats :: bs) out
| dl_new ep fl sats bs prec pos rs out : prec <> Some ep -> epoch_records types ep sats rs ->
    delivered types (Some ep) pos bs out ->
    delivered types prec pos (BData ep fl sats :: bs) (map (fun r => (r, pos)) rs ++ out)
| dl_event fl ls np bs prec pos pos' out :
    match np with Some d => near_position pos' d | None => pos' = pos end ->
    delivered types prec pos' bs out ->
    delivered types prec pos (BEvent fl ls np :: bs) out.
