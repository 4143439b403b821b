(** Specification of RINEX 3 observation files: which text denotes which data.
    Independent of the reader; columns are those of the RINEX 3 format description. *)
From Verif Require Import Base PyStr PyFloat PyDate S_Text S_Time M_Header M_Obs2 S_Obs2 S_Errors2.
Open Scope nat_scope.

(** ** header: SYS / # / OBS TYPES *)
(** an observation code: type letter, band, attribute; the first and the last are not "1" *)
Definition valid_code (c : str) : Prop :=
  exists a b d, c = [a; b; d] /\ a <> "1"%char /\ d <> "1"%char /\
    is_space a = false /\ is_space b = false /\ is_space d = false.
(** one code in its four columns *)
Definition code_cols (c : str) : str := " "%char :: c.

(** [cols] (columns 1-60) followed by the label and a line end *)
Definition sno_line (cols line : str) : Prop :=
  List.length cols = 60 /\
  exists w, line = cols ++ lit "SYS / # / OBS TYPES" ++ w ++ ["010"%char] /\ blanks w.

(** The lines of one system: letter, two blanks, number of codes (I3), thirteen codes per line,
    continuation lines with six blanks in front. *)
Inductive code_lines : list str -> list str -> Prop :=
| cdl_nil : code_lines [] []
| cdl_cons cs rest pad line lines : 1 <= List.length cs <= 13 -> (rest <> [] -> List.length cs = 13) ->
    Forall valid_code cs -> blanks pad -> sno_line (spaces 6 ++ concat (map code_cols cs) ++ pad) line ->
    code_lines rest lines -> code_lines (cs ++ rest) (line :: lines).
Inductive sys_lines : ascii -> list str -> list str -> Prop :=
| sys_first sys tn cs rest pad line lines : is_space sys = false -> List.length cs <= 13 ->
    (rest <> [] -> List.length cs = 13) ->
    int_field 3 tn (Z.of_nat (List.length (cs ++ rest))) ->
    Forall valid_code cs -> blanks pad ->
    sno_line (sys :: spaces 2 ++ tn ++ concat (map code_cols cs) ++ pad) line ->
    code_lines rest lines -> sys_lines sys (cs ++ rest) (line :: lines).
Definition table_lines (table : list (ascii * list str)) (lines : list str) : Prop :=
  exists parts, lines = concat parts /\ Forall2 (fun e p => sys_lines (fst e) (snd e) p) table parts.

(** [sel] are the lines of [header] with the label [lab], in order *)
Inductive labelled (lab : str) : list str -> list str -> Prop :=
| lb_nil : labelled lab [] []
| lb_yes l ls sel : has_label lab l -> labelled lab ls sel -> labelled lab (l :: ls) (l :: sel)
| lb_no l ls sel : ~ has_label lab l -> labelled lab ls sel -> labelled lab (l :: ls) sel.

(** The code as the program names it: band 1 of BeiDou is band 2 from version 3.02 on. *)
Definition read_code (v : ver) (sys : ascii) (c : str) : str :=
  match v, c with
  | (V302 | V303), [a; b; d] =>
    if Ascii.eqb sys "C" && Ascii.eqb b "1" then [a; "2"%char; d] else c
  | _, _ => c
  end.

(** ** body *)
(** the receiver clock offset: blank, or anything but a number of 2^31 seconds and more *)
Definition clock_ok (tail : str) : Prop := forall f, py_float tail = Ok f -> ~ huge_seconds f.

(** " yyyy mm dd hh mm ss.sssssss", or blank; [k7] is the seconds field in units of 1e-7 s *)
Inductive date28 : str -> option datetime -> Prop :=
| d28 (ty tmo td th tmi tsec : str) (y mo d h mi k7 : Z) ep :
    int_field 5 ty y -> int_field 3 tmo mo -> int_field 3 td d -> int_field 3 th h -> int_field 3 tmi mi ->
    fix_field 11 7 tsec false k7 ->
    epoch_in_range y mo d h mi (k7 / 10000000) (k7 mod 10000000 / 10) ->
    valid_datetime ep ->
    instant ep = epoch_value y mo d h mi (k7 / 10000000) (k7 mod 10000000 / 10) ->
    date28 (ty ++ tmo ++ td ++ th ++ tmi ++ tsec) (Some ep)
| d28_blank date : List.length date = 28 -> blanks date -> date28 date None.

(** "> date  f nnn      clock offset": an epoch line with its date, flag and number; the date of an
    event may be blank *)
Inductive epoch3_line : option datetime -> Z -> Z -> str -> Prop :=
| e3l (date gap tn skip clock : str) cf (n : Z) ep :
    date28 date ep -> List.length gap = 2 -> digit cf -> int_field 3 tn n ->
    List.length skip <= 7 -> (clock <> [] -> List.length skip = 7) -> clock_ok clock ->
    epoch3_line ep (dig cf) n (">"%char :: date ++ gap ++ [cf] ++ tn ++ skip ++ clock).

(** satellite: system letter and two columns of which the first may be blank *)
Inductive sat3_text : str -> str -> Prop :=
| s3t c d0 d1 : c <> " "%char -> c <> ">"%char -> digit d1 -> (digit d0 \/ d0 = " "%char) ->
    sat3_text [c; d0; d1] [c; if Ascii.eqb d0 " " then "0"%char else d0; d1].

(** The line of one satellite: its name, one field of sixteen columns per type of its system; trailing
    blanks may be missing, more text may follow complete fields. *)
Definition sat3_line (name : str) (fs : list field) (line : str) : Prop :=
  exists tsat texts rest, sat3_text tsat name /\ Forall2 field_text texts fs /\
    same_line (tsat ++ concat texts ++ rest) line.

(** A block: an epoch with its satellites, or an event with its lines. *)
Inductive block3 :=
| B3Data (ep : datetime) (flag : Z) (sats : list (str * list field))
| B3Event (flag : Z) (lines : list str) (newpos : option dec_position).

(** types of the satellite's system *)
Definition types_of (table : list (ascii * list str)) (name : str) (types : list str) : Prop :=
  exists c r, name = c :: r /\ In (c, types) table.

(** A line of an event that is of no interest: no known label, and not an epoch line. *)
Definition plain_line (line : str) : Prop :=
  (forall lab, In lab (lit "SYS / # / OBS TYPES" :: known_labels) -> ~ has_label lab line) /\
  exists c r, line = c :: r /\ c <> ">"%char.
(** The lines of an event: at most one of them is a position. *)
Inductive event3_lines : list str -> option dec_position -> Prop :=
| e3s_nil : event3_lines [] None
| e3s_other l ls np : plain_line l -> event3_lines ls np -> event3_lines (l :: ls) np
| e3s_pos l ls p : event_line l (Some p) -> Forall plain_line ls -> event3_lines (l :: ls) (Some p).

Inductive block3_lines (table : list (ascii * list str)) : block3 -> list str -> Prop :=
| b3_data ep fl sats line lines : (fl = 0 \/ fl = 1)%Z ->
    epoch3_line (Some ep) fl (Z.of_nat (List.length sats)) line ->
    Forall2 (fun s l => (exists types, types_of table (fst s) types /\ List.length (snd s) = List.length types) /\
                        sat3_line (fst s) (snd s) l) sats lines ->
    block3_lines table (B3Data ep fl sats) (line :: lines)
| b3_event fl line lines np ep : (1 < fl)%Z -> epoch3_line ep fl (Z.of_nat (List.length lines)) line ->
    event3_lines lines np ->
    block3_lines table (B3Event fl lines np) (line :: lines).
Inductive body3_lines (table : list (ascii * list str)) : list block3 -> list str -> Prop :=
| bd3_nil : body3_lines table [] []
| bd3_cons b bs l ls : block3_lines table b l -> body3_lines table bs ls -> body3_lines table (b :: bs) (l ++ ls).

(** What a delivered value must be: blank fields are zero. *)
Inductive field_value3 : field -> obsval -> Prop :=
| fv3_blank : field_value3 FBlank (Some fzero, 0%Z, 0%Z)
| fv3_val neg m l k f : nearest64 f (dec_real neg m 3) -> field_value3 (FVal neg m l k) (Some f, l, k).
Definition sat_record3 (types : list str) (fs : list field) (r : record) : Prop :=
  Forall2 (fun tf tv => fst tf = fst tv /\ field_value3 (snd tf) (snd tv)) (combine types fs) r.

(** The records the file states: every epoch and every satellite, in order (no epoch is dropped). *)
Definition epoch_records3 (table : list (ascii * list str)) (ep : datetime) (sats : list (str * list field))
  (rs : list (option datetime * str * record)) : Prop :=
  Forall2 (fun s r => fst (fst r) = Some ep /\ snd (fst r) = fst s /\
             exists types, types_of table (fst s) types /\ sat_record3 types (snd s) (snd r)) sats rs.
Inductive delivered3 (table : list (ascii * list str)) : list block3 -> list (option datetime * str * record) -> Prop :=
| dl3_nil : delivered3 table [] []
| dl3_data ep fl sats bs rs out : epoch_records3 table ep sats rs -> delivered3 table bs out ->
    delivered3 table (B3Data ep fl sats :: bs) (rs ++ out)
| dl3_event fl ls np bs out : delivered3 table bs out -> delivered3 table (B3Event fl ls np :: bs) out.

(** the table as the program names the codes *)
Definition read_table (v : ver) (table : list (ascii * list str)) : list (ascii * list str) :=
  map (fun e => (fst e, map (read_code v (fst e)) (snd e))) table.

(** The file is a header, the END OF HEADER line, and the body. *)
Definition file3_parts (header body file : list str) : Prop :=
  exists eoh, file = header ++ eoh :: body /\
    Forall (fun l => ~ has_label (lit "END OF HEADER") l) header /\ has_label (lit "END OF HEADER") eoh.

(** the epochs of the data blocks *)
Fixpoint data_epochs3 (bs : list block3) : list datetime :=
  match bs with
  | [] => []
  | B3Data ep _ _ :: r => ep :: data_epochs3 r
  | B3Event _ _ _ :: r => data_epochs3 r
  end.
(** no event announces a position *)
Definition no_positions3 (bs : list block3) : Prop := forall fl ls np, In (B3Event fl ls np) bs -> np = None.
(** (epoch, satellite) pairs, in file order *)
Fixpoint expected3 (bs : list block3) : list (option datetime * str) :=
  match bs with
  | [] => []
  | B3Data ep _ sats :: r => map (fun s => (Some ep, fst s)) sats ++ expected3 r
  | B3Event _ _ _ :: r => expected3 r
  end.

(** ** malformed lines *)
(** a line that is not an epoch line *)
Definition no_epoch_mark (line : str) : Prop := exists c r, line = c :: r /\ c <> ">"%char.
(** an epoch line whose flag or number of satellites cannot be read *)
Inductive bad_epoch3 : str -> Prop :=
| be3_flag date rest ep : date28 date ep -> (forall c, nth_error rest 2 = Some c -> not_int [c]) ->
    bad_epoch3 (">"%char :: date ++ rest)
| be3_count date rest ep c fl : date28 date ep -> nth_error rest 2 = Some c -> py_int [c] = Ok fl ->
    not_int (slice 3 6 rest) -> bad_epoch3 (">"%char :: date ++ rest).
(** a satellite line of a system that the header does not declare *)
Definition bad_sat3 (table : list (ascii * list str)) (line : str) : Prop :=
  exists c r, line = c :: r /\ c <> ">"%char /\ ~ In (if Ascii.eqb c " " then "0"%char else c) (map fst table).
(** the malformed end of a file, and the blocks it still delivers *)
Inductive bad_end3 (table : list (ascii * list str)) : list str -> list block3 -> Prop :=
| bad3_epoch line rest : bad_epoch3 line -> bad_end3 table (line :: rest) []
| bad3_sat ep fl n sats line lines bad rest : (fl = 0 \/ fl = 1)%Z -> epoch3_line (Some ep) fl n line ->
    (Z.of_nat (List.length sats) < n)%Z ->
    Forall2 (fun s l => (exists types, types_of table (fst s) types /\ List.length (snd s) = List.length types) /\
                        sat3_line (fst s) (snd s) l) sats lines ->
    bad_sat3 table bad -> bad_end3 table (line :: lines ++ bad :: rest) [B3Data ep fl sats].

(** ** errors *)
(** an epoch line whose seconds or clock offset exceed what datetime accepts, or whose epoch lies after
    the year 9999 *)
Inductive overflow3 (line : str) : Prop :=
| ov3_sec f : py_float (slice 18 29 line) = Ok f -> huge_seconds f -> overflow3 line
| ov3_clock f : py_float (from 42 line) = Ok f -> huge_seconds f -> overflow3 line
| ov3_late y mo d h mi s us : py_int (slice 1 6 line) = Ok y -> py_int (slice 6 9 line) = Ok mo ->
    py_int (slice 9 12 line) = Ok d -> py_int (slice 12 15 line) = Ok h -> py_int (slice 15 18 line) = Ok mi ->
    epoch_in_range y mo d h mi s us -> (end_of_time <= epoch_value y mo d h mi s us)%Z -> overflow3 line.
