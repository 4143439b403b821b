(** Model of tecs/rec.py, of Cfg.compose_rec_format (tecs/gtb/config.py) and of the formatting of
    one output row (tecs/dio/text.py:160-201). *)
From Verif Require Import Base PyStr PyFloat PyDate M_Common M_Header M_Obs2 M_Label.
Open Scope nat_scope.

(** Python values of an output row. *)
Inductive pyval := VInt (z : Z) | VFloat (f : float) | VStr (s : str).

(** Replacement fields of a format string: '{:wd}', '{:w.kf}' (with or without the blank flag),
    '{}'.  The format strings of rec.py are kept in this parsed form. *)
Inductive fspec := FInt (w : nat) | FFix (blank : bool) (w k : nat) | FText.

Definition is_neg (x : float) : bool :=
  match x with S754_zero s | S754_finite s _ _ | S754_infinity s => s | S754_nan => false end.

(** format(v, spec): ValueError for a spec that does not fit the type *)
Definition format_val (sp : fspec) (v : pyval) : res str :=
  match sp, v with
  | FInt w, VInt z => Ok (pad_left " "%char w (z_str z))
  | FFix b w k, VInt z =>
    let x := float_of_Z z in Ok (pad_left " "%char w ((if b && negb (is_neg x) then [" "%char] else []) ++ fmt_f k x))
  | FFix b w k, VFloat x =>
    Ok (pad_left " "%char w ((if b && negb (is_neg x) then [" "%char] else []) ++ fmt_f k x))
  | FText, VStr s => Ok s
  | FText, VInt z => Ok (z_str z)
  | _, _ => Err ValueError
  end.

(** rec.py:37-308 formatDef: name -> (argument index, format, Fortran descriptor) *)
Definition field_def := (nat * fspec * option str)%type.
Definition format_def : list (str * field_def) :=
  [
   (lit "tsn", (0, (FInt 11), (Some (lit "I11"))));
   (lit "hour", (1, (FFix false 14 11), (Some (lit "F14.11"))));
   (lit "datetime", (2, FText, None));
   (lit "el", (3, (FFix true 10 5), (Some (lit "F10.5"))));
   (lit "az", (4, (FFix true 11 5), (Some (lit "F11.5"))));
   (lit "p1", (5, (FFix true 16 3), (Some (lit "F16.3"))));
   (lit "p1.lli", (6, (FInt 1), (Some (lit "I1"))));
   (lit "p2", (7, (FFix true 16 3), (Some (lit "F16.3"))));
   (lit "p2.lli", (8, (FInt 1), (Some (lit "I1"))));
   (lit "tec.p1p2", (9, (FFix true 10 3), (Some (lit "F10.3"))));
   (lit "l1", (10, (FFix true 16 3), (Some (lit "F16.3"))));
   (lit "l1.lli", (11, (FInt 1), (Some (lit "I1"))));
   (lit "l2", (12, (FFix true 16 3), (Some (lit "F16.3"))));
   (lit "l2.lli", (13, (FInt 1), (Some (lit "I1"))));
   (lit "tec.l1l2", (14, (FFix true 21 3), (Some (lit "F21.3"))));
   (lit "validity", (15, (FInt 7), (Some (lit "I7"))));
   (lit "s1", (16, (FFix true 16 3), (Some (lit "F16.3"))));
   (lit "s1.lli", (17, (FInt 1), (Some (lit "I1"))));
   (lit "s2", (18, (FFix true 16 3), (Some (lit "F16.3"))));
   (lit "s2.lli", (19, (FInt 1), (Some (lit "I1"))));
   (lit "s5", (20, (FFix true 16 3), (Some (lit "F16.3"))));
   (lit "s5.lli", (21, (FInt 1), (Some (lit "I1"))));
   (lit "c1", (22, (FFix true 16 3), (Some (lit "F16.3"))));
   (lit "c1.lli", (23, (FInt 1), (Some (lit "I1"))));
   (lit "c2", (24, (FFix true 16 3), (Some (lit "F16.3"))));
   (lit "c2.lli", (25, (FInt 1), (Some (lit "I1"))));
   (lit "tec.c1p2", (26, (FFix true 10 3), (Some (lit "F10.3"))));
   (lit "tec.l1c1", (27, (FFix true 21 3), (Some (lit "F21.3"))));
   (lit "l5", (28, (FFix true 16 3), (Some (lit "F16.3"))));
   (lit "l5.lli", (29, (FInt 1), (Some (lit "I1"))));
   (lit "tec.l1l5", (30, (FFix true 21 3), (Some (lit "F21.3"))));
   (lit "c5", (31, (FFix true 16 3), (Some (lit "F16.3"))));
   (lit "c5.lli", (32, (FInt 1), (Some (lit "I1"))));
   (lit "tec.c1c5", (33, (FFix true 10 3), (Some (lit "F10.3"))));
   (lit "tec.l2l5", (34, (FFix true 21 3), (Some (lit "F21.3"))));
   (lit "tec.c1c2", (35, (FFix true 10 3), (Some (lit "F10.3"))));
   (lit "tec.c2c5", (36, (FFix true 10 3), (Some (lit "F10.3"))));
   (lit "sat.x", (37, (FFix true 23 12), (Some (lit "F23.12"))));
   (lit "sat.y", (38, (FFix true 23 12), (Some (lit "F23.12"))));
   (lit "sat.z", (39, (FFix true 23 12), (Some (lit "F23.12"))));
   (lit "site.x", (40, (FFix true 23 12), (Some (lit "F23.12"))));
   (lit "site.y", (41, (FFix true 23 12), (Some (lit "F23.12"))));
   (lit "site.z", (42, (FFix true 23 12), (Some (lit "F23.12"))));
   (lit "site.l", (43, (FFix true 17 12), (Some (lit "F23.12"))));
   (lit "site.b", (44, (FFix true 16 12), (Some (lit "F23.12"))));
   (lit "site.h", (45, (FFix true 18 12), (Some (lit "F23.12"))));
   (lit "tec.l2l6", (46, (FFix true 21 3), (Some (lit "F21.3"))));
   (lit "tec.l2l7", (47, (FFix true 21 3), (Some (lit "F21.3"))));
   (lit "tec.l6l7", (48, (FFix true 21 3), (Some (lit "F21.3"))));
   (lit "tec.c2c6", (49, (FFix true 10 3), (Some (lit "F10.3"))));
   (lit "tec.c2c7", (50, (FFix true 10 3), (Some (lit "F10.3"))));
   (lit "tec.c6c7", (51, (FFix true 10 3), (Some (lit "F10.3"))));
   (lit "tec.l2c2", (52, (FFix true 21 3), (Some (lit "F21.3"))));
   (lit "tec.l8c8", (53, (FFix true 21 3), (Some (lit "F21.3"))))].

(** gtb/config.py:170-172: the Fortran descriptor of 'datetime' is set from the length of the
    formatted current time [dtlen]. *)
Definition fortran_of (dtlen : nat) (d : field_def) : str :=
  match snd d with Some s => s | None => "A"%char :: nat_str (Z.of_nat dtlen) end.

(** A composed format: the replacement fields in order (separated by one blank, ended by a
    newline) and the Fortran format. *)
Record rec_format := mkFormat { rf_fields : list str; rf_specs : list (nat * fspec); rf_fortran : str }.

Definition lookup_field (f : str) : res field_def := of_option CfgError (dict_get seqb f format_def).

(** gtb/config.py:229-269 compose_rec_format.  An empty list makes tmp.pop(0) raise IndexError. *)
Definition compose_rec_format (dtlen : nat) (fields : list str) : res rec_format :=
  let names := if existsb (seqb (lit "all")) fields then sort_str (map fst format_def) else fields in
  match names with
  | [] => Err IndexError
  | first :: rest =>
    do d0 <- lookup_field first;
    do ds <- mapM lookup_field rest;
    let all := d0 :: ds in
    Ok (mkFormat names (map fst all)
          ("("%char :: fortran_of dtlen d0 ++ concat (map (fun d => lit ",1X," ++ fortran_of dtlen d) ds) ++ [")"%char]))
  end.

(** rec_format.format( *vals ): IndexError when an index is out of range *)
Fixpoint format_cells (specs : list (nat * fspec)) (vals : list pyval) : res (list str) :=
  match specs with
  | [] => Ok []
  | (i, sp) :: r =>
    do v <- of_option IndexError (nth_error vals i);
    do c <- format_val sp v;
    do cs <- format_cells r vals;
    Ok (c :: cs)
  end.
Fixpoint join_blank (cells : list str) : str :=
  match cells with [] => [] | [c] => c | c :: r => c ++ " "%char :: join_blank r end.
Definition nl : ascii := ascii_of_nat 10.
Definition format_row (rf : rec_format) (vals : list pyval) : res str :=
  do cs <- format_cells (rf_specs rf) vals; Ok (join_blank cs ++ [nl]).

(** What the columns can show. *)
Inductive quantity :=
| QEl | QAz | QValidity
| QObs (o : string)          (* an observable: p1, l1, ... *)
| QLli (o : string)          (* its loss-of-lock indicator *)
| QTec (o : string)          (* a TEC combination *)
| QSat (axis : string)       (* satellite position *)
| QSite (axis : string)      (* receiver position, Cartesian and geodetic *).

(** __main__.py:625-682: the order of the values of a record (after the epoch). *)
Definition chunk_order : list quantity :=
  [QEl; QAz;
   QObs "p1"; QLli "p1"; QObs "p2"; QLli "p2"; QTec "p1p2";
   QObs "l1"; QLli "l1"; QObs "l2"; QLli "l2"; QTec "l1l2";
   QValidity;
   QObs "s1"; QLli "s1"; QObs "s2"; QLli "s2"; QObs "s5"; QLli "s5";
   QObs "c1"; QLli "c1"; QObs "c2"; QLli "c2";
   QTec "c1p2"; QTec "l1c1";
   QObs "l5"; QLli "l5"; QTec "l1l5";
   QObs "c5"; QLli "c5"; QTec "c1c5";
   QTec "l2l5"; QTec "c1c2"; QTec "c2c5";
   QSat "x"; QSat "y"; QSat "z"; QSite "x"; QSite "y"; QSite "z"; QSite "l"; QSite "b"; QSite "h";
   QTec "l2l6"; QTec "l2l7"; QTec "l6l7"; QTec "c2c6"; QTec "c2c7"; QTec "c6c7"; QTec "l2c2"; QTec "l8c8"].
Definition data_chunk (q : quantity -> option pyval) : list (option pyval) := map q chunk_order.

(** text.py:163-167: None becomes 0 *)
Definition none_to_0 (v : option pyval) : pyval := match v with Some x => x | None => VInt 0 end.

(** 1e-06 *)
Definition f1em6 : float := b64_of_dec false 1 (-6).

(** x / interval for a float x; the interval is an int (RINEX 2.0) or a float *)
Definition div_interval (x : float) (iv : pynum) : res float :=
  match iv with PFloat f => fdiv x f | PInt n => fdiv x (float_of_Z n) end.

(** math.floor / math.ceil of a finite float *)
Definition floor_fin (s : bool) (m : positive) (e : Z) : Z :=
  let a := if s then Zneg m else Zpos m in
  (if 0 <=? e then a * 2 ^ e else a / 2 ^ (- e))%Z.
Definition ceil_fin (s : bool) (m : positive) (e : Z) : Z := (- floor_fin (negb s) m e)%Z.
Definition float_floor (x : float) : res Z :=
  match x with S754_finite s m e => Ok (floor_fin s m e) | _ => float_to_int x end.
Definition float_ceil (x : float) : res Z :=
  match x with S754_finite s m e => Ok (ceil_fin s m e) | _ => float_to_int x end.

(** 0.5 *)
Definition f05 : float := b64_of_dec false 5 (-1).

(** text.py:173-187: the time serial number *)
Definition tsn_of (t : datetime) (iv : pynum) : res Z :=
  let secs := fadd (float_of_Z (dh t * 3600 + dmi t * 60 + ds t)%Z) (fmul (float_of_Z (dus t)) f1em6) in
  do x <- div_interval secs iv;
  do i <- float_to_int x;
  let frac := fsub x (float_of_Z i) in
  if ftruth frac then (if fltb f05 frac then float_ceil x else float_floor x) else float_to_int x.

Definition f60 : float := float_of_Z 60.
(** text.py:189-192: the hour *)
Definition hour_of (t : datetime) : res float :=
  do a <- fdiv (fadd (fmul (float_of_Z (dus t)) f1em6) (float_of_Z (ds t))) f60;
  do b <- fdiv (fadd a (float_of_Z (dmi t))) f60;
  Ok (fadd b (float_of_Z (dh t))).

(** text.py:160-201: the text written for a record; [dt_text] is strftime with the configured
    format (not modelled).  A ValueError leaves rec = None, and write(None) raises TypeError. *)
Definition row_text (rf : rec_format) (dt_text : datetime -> str) (iv : pynum) (t : datetime) (q : quantity -> option pyval) : res str :=
  catch
    (do tsn <- tsn_of t iv;
     do hour <- hour_of t;
     format_row rf (VInt tsn :: VFloat hour :: VStr (dt_text t) :: map none_to_0 (data_chunk q)))
    [ValueError] (Err TypeError).
