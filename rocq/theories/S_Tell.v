(** Specification: the rows of a result file as an account of the observation file, record by record. *)
From Coq Require Import Reals.
From Verif Require Import Base PyStr PyFloat PyDate S_Text S_Time S_Obs2 S_Open2 S_Obs3 S_Label S_Rec S_Tec M_Common M_Header M_Obs2 M_Obs3 M_Label M_Num M_Tec M_Rec M_Text M_Cfg M_Names M_Nav M_Main S_Main S_End.
Open Scope nat_scope.

(** a satellite at a time, with the values stated for it, each with its code *)
Definition fact : Type := (datetime * str * list (str * field))%type.
(** the facts of the blocks, in their order; in version 2 a block that repeats the epoch of the block before is left out *)
Inductive states2 (types : list str) : option datetime -> list block -> list fact -> Prop :=
| st2_nil prec : states2 types prec [] []
| st2_again ep fl sats bs out : states2 types (Some ep) bs out -> states2 types (Some ep) (BData ep fl sats :: bs) out
| st2_data ep fl sats bs prec out : prec <> Some ep -> states2 types (Some ep) bs out ->
    states2 types prec (BData ep fl sats :: bs) (map (fun s => (ep, fst s, combine types (snd s))) sats ++ out)
| st2_event fl ls np bs prec out : states2 types prec bs out -> states2 types prec (BEvent fl ls np :: bs) out.
Inductive states3 (table : list (ascii * list str)) : list block3 -> list fact -> Prop :=
| st3_nil : states3 table [] []
| st3_data ep fl sats bs fs out : Forall2 (fun s f => exists types, types_of table (fst s) types /\ f = (ep, fst s, combine types (snd s))) sats fs ->
    states3 table bs out -> states3 table (B3Data ep fl sats :: bs) (fs ++ out)
| st3_event fl ls np bs out : states3 table bs out -> states3 table (B3Event fl ls np :: bs) out.
(** the observation file is well-formed and states these facts, in this order *)
Inductive file_states (w : world) (name : str) : list fact -> Prop :=
| fs2 file v header body types blocks facts : w_content w name = Ok file -> obs_class (hd [] file) = Ok v -> ver_lt3 v = true ->
    file_parts header body file -> header_types header types -> NoDup types ->
    body_lines (List.length types) blocks body -> first_epoch_once blocks -> states2 types None blocks facts -> file_states w name facts
| fs3 file v header body sel table blocks facts : w_content w name = Ok file -> obs_class (hd [] file) = Ok v -> ver_lt3 v = false ->
    file3_parts header body file -> labelled (lit "SYS / # / OBS TYPES") header sel -> table_lines table sel -> NoDup (map fst table) ->
    distinct_types (read_table v table) -> body3_lines (read_table v table) blocks body -> states3 (read_table v table) blocks facts -> file_states w name facts.

(** a satellite of a supported system at a time of the day in the file's name *)
Definition of_day (day : option date) (t : datetime) (sat : str) : Prop :=
  exists sys digits n, sat = sys :: digits /\ py_int digits = Ok n /\ In sys systems /\ day = Some (dt_date t).
(** the columns of the row say what is stated *)
Definition row_states (w : world) (c : cfg) (t : datetime) (sat : str) (vals : list (str * field)) (row : str) : Prop :=
  exists cells, row_of cells row /\ Forall2 (column_says w c t sat vals) (rf_fields (c_format c)) cells.
(** ** Sampling: which facts are used, [last] being the time of the last fact that began a sample; as the records of C41 *)
Inductive sampled (day : option date) (iv : Z) : option datetime -> list fact -> list fact -> Prop :=
| sa_nil last : sampled day iv last [] []
| sa_other last t k vals r r' : ~ of_day day t k -> sampled day iv last r r' -> sampled day iv last ((t, k, vals) :: r) r'
| sa_first t k vals r r' : of_day day t k -> sampled day iv (Some t) r r' -> sampled day iv None ((t, k, vals) :: r) ((t, k, vals) :: r')
| sa_same t k vals r r' : of_day day t k -> sampled day iv (Some t) r r' -> sampled day iv (Some t) ((t, k, vals) :: r) ((t, k, vals) :: r')
| sa_next t k vals t0 r r' : of_day day t k -> t <> t0 -> (instant t0 + iv <= instant t)%Z ->
    sampled day iv (Some t) r r' -> sampled day iv (Some t0) ((t, k, vals) :: r) ((t, k, vals) :: r')
| sa_drop t k vals t0 r r' : of_day day t k -> t <> t0 -> (instant t < instant t0 + iv)%Z ->
    sampled day iv (Some t0) r r' -> sampled day iv (Some t0) ((t, k, vals) :: r) r'.
Definition used_facts (c : cfg) (b : obs) (facts kept : list fact) : Prop :=
  (keeps_all c b /\ kept = facts) \/ (exists iv, thins c b iv /\ sampled (b_date b) iv None facts kept).

(** there is a reason not to write a row *)
Definition hidden (w : world) (c : cfg) (xyzs : list (datetime * xyz)) (b : obs) (t : datetime) (sat : str) : Prop :=
  exists kept before s after sys n, used c b kept /\ kept = before ++ s :: after /\ s_sat s = sat /\ identifies s t sys n /\ skipped w c xyzs (b_date b) before s t sys n.
(** [rows] are the rows of satellite [sat] for the facts, one by one and in their order: one row for each fact of the satellite and the
    day, that says what the fact says, or none for one of the reasons *)
Inductive told (w : world) (c : cfg) (xyzs : list (datetime * xyz)) (b : obs) (sat : str) : list fact -> list str -> Prop :=
| to_nil : told w c xyzs b sat [] []
| to_other t k vals facts rows : k <> sat \/ ~ of_day (b_date b) t k -> told w c xyzs b sat facts rows -> told w c xyzs b sat ((t, k, vals) :: facts) rows
| to_row t vals facts row rows : of_day (b_date b) t sat -> row_states w c t sat vals row ->
    told w c xyzs b sat facts rows -> told w c xyzs b sat ((t, sat, vals) :: facts) (row :: rows)
| to_hidden t vals facts rows : of_day (b_date b) t sat -> hidden w c xyzs b t sat ->
    told w c xyzs b sat facts rows -> told w c xyzs b sat ((t, sat, vals) :: facts) rows.
