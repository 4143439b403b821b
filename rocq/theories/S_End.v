(** Specification of the way from the text of an observation file to the text of a result file. *)
From Coq Require Import Reals.
From Verif Require Import Base PyStr PyFloat PyDate S_Text S_Time S_Obs2 S_Open2 S_Obs3 S_Label S_Rec S_Tec M_Common M_Header M_Obs2 M_Obs3 M_Label M_Num M_Tec M_Rec M_Text M_Cfg M_Names M_Nav M_Main S_Main.
Open Scope nat_scope.

(** ** what an observation file states *)
Definition distinct_types (table : list (ascii * list str)) : Prop := forall sys types, In (sys, types) table -> NoDup types.
(** The observation file is well-formed, and the second argument holds of the epochs, satellites and values (each with its code)
    that its blocks state. *)
Inductive well_formed (w : world) (name : str) : (datetime -> str -> list (str * field) -> Prop) -> Prop :=
| wf2 file v header body types blocks : w_content w name = Ok file -> obs_class (hd [] file) = Ok v -> ver_lt3 v = true ->
    file_parts header body file -> header_types header types -> NoDup types ->
    body_lines (List.length types) blocks body -> first_epoch_once blocks ->
    well_formed w name (fun ep sat vals => exists fl sats fs, In (BData ep fl sats) blocks /\ In (sat, fs) sats /\ vals = combine types fs)
| wf3 file v header body sel table blocks : w_content w name = Ok file -> obs_class (hd [] file) = Ok v -> ver_lt3 v = false ->
    file3_parts header body file -> labelled (lit "SYS / # / OBS TYPES") header sel -> table_lines table sel -> NoDup (map fst table) ->
    distinct_types (read_table v table) -> body3_lines (read_table v table) blocks body ->
    well_formed w name (fun ep sat vals => exists fl sats fs types, In (B3Data ep fl sats) blocks /\ In (sat, fs) sats /\
      types_of (read_table v table) sat types /\ vals = combine types fs).

(** the value of a class of codes: that of its alphabetically first code *)
Definition observable (vals : list (str * field)) (cl : oclass) (x : field) : Prop :=
  exists k, In (k, x) vals /\ In k cl /\ forall k' y, In (k', y) vals -> In k' cl -> str_le k k'.
(** the value stated is the decimal [d], with the loss-of-lock indicator [lli] *)
Definition decimal (x : field) (d : R) (lli : Z) : Prop := exists neg m ss, x = FVal neg m lli ss /\ d = dec_real neg m 3.
(** no code of the class, a blank or a zero *)
Definition absent (vals : list (str * field)) (cl : oclass) : Prop :=
  (forall k x, In (k, x) vals -> ~ In k cl) \/ observable vals cl FBlank \/ exists x lli, observable vals cl x /\ decimal x 0 lli.

(** ** what a cell says *)
(** the cell is a decimal with three decimals, of value [x] *)
Definition shows_number (cell : str) (x : R) : Prop :=
  exists b neg ip fp, cell = b ++ (if neg : bool then ["-"%char] else []) ++ ip ++ ["."%char] ++ fp /\ blanks b /\ digits ip /\ ip <> [] /\
    digits fp /\ List.length fp = 3 /\ x = dec_real neg (dec_value (ip ++ fp)) 3.
Definition shows_about (cell : str) (x eps : R) : Prop := exists y, shows_number cell y /\ (Rabs (y - x) <= eps)%R.

(** the carrier frequency in Hz of the satellite on a band; that of GLONASS is of the channel [k] in the navigation file *)
Definition frequency (w : world) (c : cfg) (t : datetime) (sat : str) (band : ascii) (hz : R) : Prop :=
  exists sys digits n base step k, sat = sys :: digits /\ py_int digits = Ok n /\ In (sys, band, (base, step)) carriers /\ (Z.abs k <= 100)%Z /\
    (sys = "R"%char -> channel w c t n (float_of_Z k)) /\ hz = IZR (base + k * step).
(** pow() of the C library is accurate for squares of carrier frequencies *)
Definition squares (w : world) : Prop :=
  forall f, is_real f -> (1000000000 <= real f <= 2000000000)%R -> square_accurate (w_libm w) f.

(** ** the columns, from the values stated for the satellite *)
Section Columns.
Context (w : world) (c : cfg) (t : datetime) (sat : str) (vals : list (str * field)).
Open Scope R_scope.
(** two pseudoranges (1 m to 100000 km) that are a range plus the ionospheric delay for a slant TEC [s] *)
Definition says_code (name cell : str) : Prop :=
  forall a x b y ka kb ca cb o1 o2 d1 d2 l1 l2 f1 f2 r s, name = [a; x; b; y] -> kind_of a = Some ka -> kind_of b = Some kb -> ka <> KPhase -> kb <> KPhase ->
    band_class ka x = Some ca -> band_class kb y = Some cb -> observable vals ca o1 -> decimal o1 d1 l1 -> observable vals cb o2 -> decimal o2 d2 l2 ->
    frequency w c t sat x f1 -> frequency w c t sat y f2 -> 1 <= d1 <= 100000000 -> 1 <= d2 <= 100000000 ->
    d1 = r + delay s f1 -> d2 = r + delay s f2 -> Rabs s <= 1000000 -> shows_about cell s (505 / 1000000).
(** two phases (in cycles) that are a range minus the delay plus constants [b1], [b2] *)
Definition says_phase (name cell : str) : Prop :=
  forall x y ca cb o1 o2 d1 d2 l1 l2 f1 f2 r s b1 b2, name = ["l"; x; "l"; y]%char -> band_class KPhase x = Some ca -> band_class KPhase y = Some cb ->
    observable vals ca o1 -> decimal o1 d1 l1 -> observable vals cb o2 -> decimal o2 d2 l2 -> frequency w c t sat x f1 -> frequency w c t sat y f2 ->
    0 < Rabs d1 <= 300000000 -> 0 < Rabs d2 <= 300000000 -> lambda f1 * d1 = r - delay s f1 + b1 -> lambda f2 * d2 = r - delay s f2 + b2 ->
    shows_about cell (s + (b1 - b2) * (f1 * f1 * (f2 * f2)) / (40.308 * 10000000000000000 * (f1 * f1 - f2 * f2))) (75 / 100000).
(** a phase and a pseudorange of one band *)
Definition says_mixed (name cell : str) : Prop :=
  forall x ca cb o1 o2 d1 d2 l1 l2 f r s b, name = ["l"; x; "c"; x]%char -> band_class KPhase x = Some ca -> band_class KCode x = Some cb ->
    observable vals ca o1 -> decimal o1 d1 l1 -> observable vals cb o2 -> decimal o2 d2 l2 -> frequency w c t sat x f ->
    0 < Rabs d1 <= 300000000 -> 1 <= d2 <= 100000000 -> lambda f * d1 = r - delay s f + b -> d2 = r + delay s f ->
    shows_about cell (s - b * (f * f) / (2 * 40.308 * 10000000000000000)) (51 / 100000).
(** a TEC with an operand that is not there is zero *)
Definition says_absent (name cell : str) : Prop :=
  forall a x b y ka kb ca cb, name = [a; x; b; y] -> kind_of a = Some ka -> kind_of b = Some kb -> band_class ka x = Some ca -> band_class kb y = Some cb ->
    absent vals ca \/ absent vals cb -> shows_number cell 0.
(** the observables that have a column *)
Definition observables : list (string * oclass) :=
  [("p1", cP1); ("p2", cP2); ("l1", cL1); ("l2", cL2); ("s1", cS1); ("s2", cS2); ("s5", cS5); ("c1", cC1); ("c2", cC2); ("l5", cL5); ("c5", cC5)]%string.
Definition column_says (field cell : str) : Prop :=
  (field = lit "datetime" -> cell = oc_strftime (out_of w c) t) /\
  (forall o cl x d lli, field = lit o -> In (o, cl) observables -> observable vals cl x -> decimal x d lli -> Rabs d <= 1000000000 -> shows_number cell d) /\
  (forall o cl, field = lit o -> In (o, cl) observables -> absent vals cl -> shows_number cell 0) /\
  (forall o cl x d lli, field = (lit o ++ lit ".lli")%list -> In (o, cl) observables -> observable vals cl x -> decimal x d lli -> int_cell 1 cell lli) /\
  (forall name, field = (lit "tec." ++ name)%list -> (name = lit "l8c8" -> In (lit "tec.l1c1") (rf_fields (c_format c)) \/ In (lit "tec.l2c2") (rf_fields (c_format c))) ->
     says_code name cell /\ says_phase name cell /\ says_mixed name cell /\ says_absent name cell).
End Columns.
(** the row belongs to a satellite of a block of the observation file, and its columns say what that block states *)
Definition row_says (w : world) (c : cfg) (stated : datetime -> str -> list (str * field) -> Prop) (sat row : str) : Prop :=
  exists t vals cells, stated t sat vals /\ row_of cells row /\ Forall2 (column_says w c t sat vals) (rf_fields (c_format c)) cells.
