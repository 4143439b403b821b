(** Specification vocabulary for the output rows: which quantity each field name shows, in which
    layout, and what a cell of text denotes. *)
From Coq Require Import Reals.
From Flocq Require Import Core.Core IEEE754.BinarySingleNaN.
From Verif Require Import Base PyStr PyFloat PyDate S_Text M_Header M_Rec.
Open Scope nat_scope.

(** where the value of a column comes from *)
Inductive source := FromTsn | FromHour | FromDatetime | FromRecord (q : quantity).

(** the observables that have a column (docs/usage.rst) *)
Definition obs_columns : list string :=
  ["p1"; "p2"; "l1"; "l2"; "l5"; "s1"; "s2"; "s5"; "c1"; "c2"; "c5"]%string.

(** What a field shows, by its name. *)
Inductive shows : str -> source -> Prop :=
| sh_tsn : shows (lit "tsn") FromTsn
| sh_hour : shows (lit "hour") FromHour
| sh_datetime : shows (lit "datetime") FromDatetime
| sh_el : shows (lit "el") (FromRecord QEl)
| sh_az : shows (lit "az") (FromRecord QAz)
| sh_validity : shows (lit "validity") (FromRecord QValidity)
| sh_obs o : In o obs_columns -> shows (lit o) (FromRecord (QObs o))
| sh_lli o : In o obs_columns -> shows (lit o ++ lit ".lli") (FromRecord (QLli o))
| sh_tec o : shows (lit "tec." ++ lit o) (FromRecord (QTec o))
| sh_sat a : shows (lit "sat." ++ lit a) (FromRecord (QSat a))
| sh_site a : shows (lit "site." ++ lit a) (FromRecord (QSite a)).

(** [c] is the text of the integer [z], right-justified in [w] columns (longer if need be) *)
Definition int_cell (w : nat) (c : str) (z : Z) : Prop :=
  exists b neg ds, c = b ++ (if neg : bool then ["-"%char] else []) ++ ds /\ blanks b /\ digits ds /\ ds <> [] /\
    z = (if neg then - dec_value ds else dec_value ds)%Z /\ w <= List.length c /\ (b = [] \/ List.length c = w).

(** [c] is a decimal with [k] decimals, right-justified in at least [w] columns, and it is the
    number [x] to within half a unit of its last decimal *)
Definition real_cell (w k : nat) (c : str) (x : R) : Prop :=
  exists b neg ip fp, c = b ++ (if neg : bool then ["-"%char] else []) ++ ip ++ ["."%char] ++ fp /\ blanks b /\
    digits ip /\ ip <> [] /\ digits fp /\ List.length fp = k /\ w <= List.length c /\
    (Rabs (dec_real neg (dec_value (ip ++ fp)) k - x) <= / 2 / 10 ^ k)%R.

(** width and number of decimals (None: an integer) of the column of a quantity *)
Definition layout (q : quantity) : nat * option nat :=
  match q with
  | QEl => (10, Some 5) | QAz => (11, Some 5)
  | QObs _ => (16, Some 3)
  | QLli _ => (1, None) | QValidity => (7, None)
  | QTec o => (if (String.eqb o "p1p2" || String.eqb o "c1p2" || String.prefix "c" o)%bool then 10 else 21, Some 3)
  | QSat _ => (23, Some 12)
  | QSite a => (if String.eqb a "l" then 17 else if String.eqb a "b" then 16 else if String.eqb a "h" then 18 else 23, Some 12)
  end.

(** the number a value stands for: an absent value stands for 0 *)
Definition real_value (v : option pyval) (x : R) : Prop :=
  match v with
  | None => x = 0%R
  | Some (VInt z) => x = IZR z
  | Some (VFloat f) => x = SF2R radix2 f
  | Some (VStr _) => False
  end.

(** the values of a record have the type their column needs: flags and the validity word are small
    integers, everything else is a finite number *)
Definition finite64 (f : float) : Prop := valid_binary 53 1024 f = true /\ is_finite_SF f = true.
Definition typed (q : quantity) (v : option pyval) : Prop :=
  match v with
  | None => True
  | Some (VInt z) => (Z.abs z <= 2 ^ 53)%Z
  | Some (VFloat f) => snd (layout q) <> None /\ finite64 f
  | Some (VStr _) => False
  end.

(** microseconds since midnight, hours since midnight *)
Definition us_of_day (t : datetime) : Z := (((dh t * 60 + dmi t) * 60 + ds t) * 1000000 + dus t)%Z.
Definition hours (t : datetime) : R := (IZR (us_of_day t) / 3600000000)%R.

(** the interval is q milliseconds: an int number of seconds, or the float nearest to q/1000 *)
Definition interval_ms (iv : pynum) (q : Z) : Prop :=
  match iv with PInt n => q = (1000 * n)%Z | PFloat f => nearest64 f (dec_real false q 3) end.

(** what the cell of field [f] must be, for a record with epoch [t], serial number [n] and values [v] *)
Inductive cell_of (dt_text : datetime -> str) (t : datetime) (n : Z) (v : quantity -> option pyval) : str -> str -> Prop :=
| co_tsn f c : shows f FromTsn -> int_cell 11 c n -> cell_of dt_text t n v f c
| co_hour f c x : shows f FromHour -> real_cell 14 11 c x -> (Rabs (x - hours t) <= / 10 ^ 13)%R -> cell_of dt_text t n v f c
| co_dt f : shows f FromDatetime -> cell_of dt_text t n v f (dt_text t)
| co_int f c q z : shows f (FromRecord q) -> snd (layout q) = None -> real_value (v q) (IZR z) ->
    int_cell (fst (layout q)) c z -> cell_of dt_text t n v f c
| co_real f c q k x : shows f (FromRecord q) -> snd (layout q) = Some k -> real_value (v q) x ->
    real_cell (fst (layout q)) k c x -> cell_of dt_text t n v f c.

(** cells separated by one blank, then a newline *)
Inductive row_of : list str -> str -> Prop :=
| ro_one c : row_of [c] (c ++ [ascii_of_nat 10])
| ro_more c cs r : row_of cs r -> row_of (c :: cs) (c ++ [" "%char] ++ r).

(** serial number n of a record at [us] microseconds of the day, interval q ms: within one half *)
Definition serial_ok (n us q : Z) : Prop := (2 * Z.abs (n * (q * 1000) - us) <= q * 1000)%Z.

(** a Fortran edit descriptor describing columns of width w: Aw, Iw, Fw.k *)
Inductive descriptor : str -> nat -> option nat -> Prop :=
| de_int w : descriptor ("I"%char :: nat_str (Z.of_nat w)) w None
| de_fix w k : descriptor ("F"%char :: nat_str (Z.of_nat w) ++ "."%char :: nat_str (Z.of_nat k)) w (Some k).

(** All field names. *)
Definition tec_names : list string :=
  ["p1p2"; "c1p2"; "c1c2"; "c1c5"; "c2c5"; "c2c6"; "c2c7"; "c6c7"; "l1l2"; "l1l5"; "l2l5"; "l2l6"; "l2l7"; "l6l7";
   "l1c1"; "l2c2"; "l8c8"]%string.
Definition field_names : list str :=
  map lit ["tsn"; "hour"; "datetime"; "el"; "az"; "validity"]%string ++
  map lit obs_columns ++ map (fun o => lit o ++ lit ".lli") obs_columns ++ map (fun o => lit "tec." ++ lit o) tec_names ++
  map (fun a => lit "sat." ++ lit a) ["x"; "y"; "z"]%string ++ map (fun a => lit "site." ++ lit a) ["x"; "y"; "z"; "l"; "b"; "h"]%string.

(** The descriptor of a field: the width and decimals of its column. *)
Inductive describes (dtlen : nat) : str -> str -> Prop :=
| des_dt f : shows f FromDatetime -> describes dtlen f ("A"%char :: nat_str (Z.of_nat dtlen))
| des_tsn f d : shows f FromTsn -> descriptor d 11 None -> describes dtlen f d
| des_hour f d : shows f FromHour -> descriptor d 14 (Some 11) -> describes dtlen f d
| des_rec f d q : shows f (FromRecord q) -> descriptor d (fst (layout q)) (snd (layout q)) -> describes dtlen f d.
(** descriptors separated by ",1X," (one blank) *)
Inductive descriptor_list : list str -> str -> Prop :=
| dl_one d : descriptor_list [d] d
| dl_more d ds s : descriptor_list ds s -> descriptor_list (d :: ds) (d ++ lit ",1X," ++ s).
