(** Specification of a run over observation files: which records are used, what is written for them. *)
From Verif Require Import Base PyStr PyFloat PyDate PyPath S_Time S_Open2 M_Common M_Header M_Obs2 M_Rec M_Text M_Cfg M_Label M_Names M_Xyz M_Nav M_NmUtils M_Num M_Tec M_Sat M_Main.
Open Scope nat_scope.

(** ** Records *)
(** the record is of satellite number [n] of system [sys], at time [t] *)
Definition identifies (s : step) (t : datetime) (sys : ascii) (n : Z) : Prop :=
  s_epoch s = Some t /\ exists digits, s_sat s = sys :: digits /\ py_int digits = Ok n.
(** the record has no date, or its satellite no number *)
Definition unreadable (s : step) : Prop := ~ exists t sys n, identifies s t sys n.
Definition systems : list ascii := ["G"; "R"; "S"; "C"; "E"]%char.
(** a record to be used: of a supported system, of the day in the file's name *)
Definition usable (day : option date) (s : step) : Prop :=
  exists t sys n, identifies s t sys n /\ In sys systems /\ day = Some (dt_date t).

(** ** Sampling: which records of a file are used, [last] being the time of the last record that began a sample *)
Inductive thinned (day : option date) (iv : Z) : option datetime -> list step -> list step -> Prop :=
| th_nil last : thinned day iv last [] []
| th_stop last s r : unreadable s -> thinned day iv last (s :: r) [s]                      (* the program stops here *)
| th_other last s r r' : (exists t sys n, identifies s t sys n) -> ~ usable day s ->
    thinned day iv last r r' -> thinned day iv last (s :: r) r'
| th_first s r r' t : usable day s -> s_epoch s = Some t ->
    thinned day iv (Some t) r r' -> thinned day iv None (s :: r) (s :: r')
| th_same s r r' t : usable day s -> s_epoch s = Some t ->
    thinned day iv (Some t) r r' -> thinned day iv (Some t) (s :: r) (s :: r')
| th_next s r r' t t0 : usable day s -> s_epoch s = Some t -> t <> t0 -> (instant t0 + iv <= instant t)%Z ->
    thinned day iv (Some t) r r' -> thinned day iv (Some t0) (s :: r) (s :: r')
| th_drop s r r' t t0 : usable day s -> s_epoch s = Some t -> t <> t0 -> (instant t < instant t0 + iv)%Z ->
    thinned day iv (Some t0) r r' -> thinned day iv (Some t0) (s :: r) r'.
(** all dates are dates of the calendar *)
Definition dated (s : step) : Prop := forall t, s_epoch s = Some t -> valid_datetime t.

(** ** Navigation data of a satellite at a time, found without any memory of earlier records *)
(** the preferred names configured for the system's navigation files *)
Definition preferred (c : cfg) (sys : ascii) : list str :=
  if Ascii.eqb sys "G" then c_gps c else if Ascii.eqb sys "R" then c_glo c else if Ascii.eqb sys "S" then c_geo c else [].
(** the file for the day of [t], with its messages of system [sys] *)
Inductive nav_data (w : world) (c : cfg) (t : datetime) (sys : ascii) : option (str * sys_message) -> Prop :=
| nav_found f m sats : load_navigation_message (w_ls w) (w_nav w) (c_navdir c) t sys (preferred c sys) = Ok (f, m) ->
    dict_get ceqb sys m = Some sats -> nav_data w c t sys (Some (f, sats))
| nav_missing e : load_navigation_message (w_ls w) (w_nav w) (c_navdir c) t sys (preferred c sys) = Err e ->
    e = RinexError \/ e = NMError -> nav_data w c t sys None.
(** the time argument and the numbers of the ephemeris *)
Inductive ephemeris (w : world) (c : cfg) (t : datetime) (sys : ascii) (n : Z) : option (float * list float) -> Prop :=
| eph_no_file : nav_data w c t sys None -> ephemeris w c t sys n None
| eph_chosen f sats e : nav_data w c t sys (Some (f, sats)) ->
    select_navigation_message t sys n [(sys, Some sats)] true = Ok e -> ephemeris w c t sys n e.
(** Kepler's motion for GPS, BeiDou and Galileo, the integrated motion for GLONASS and geostationary satellites *)
Definition motion (w : world) (sys : ascii) (eph : list float) (dt : float) : res xyz :=
  if Ascii.eqb sys "R" || Ascii.eqb sys "S" then glo_xyz (Fops (w_libm w)) eph dt
  else gps_xyz (Fops (w_libm w)) (w_fuel w) eph dt.
Definition arith (e : exn) : Prop := e = ZeroDivisionError \/ e = OverflowError.
(** the position: known, without ephemeris, or not computable *)
Definition located (w : world) (c : cfg) (t : datetime) (sys : ascii) (n : Z) (p : xyz) : Prop :=
  exists dt eph, ephemeris w c t sys n (Some (dt, eph)) /\ motion w sys eph dt = Ok p.
Definition unlocated (w : world) (c : cfg) (t : datetime) (sys : ascii) (n : Z) : Prop := ephemeris w c t sys n None.
Definition incomputable (w : world) (c : cfg) (t : datetime) (sys : ascii) (n : Z) : Prop :=
  exists dt eph e, ephemeris w c t sys n (Some (dt, eph)) /\ motion w sys eph dt = Err e /\ arith e.
(** the number of the GLONASS frequency channel: the eighth number of the ephemeris *)
Definition channel (w : world) (c : cfg) (t : datetime) (n : Z) (k : float) : Prop :=
  exists dt eph, ephemeris w c t "R" n (Some (dt, eph)) /\ nth_error eph 7 = Some k.

(** ** The site *)
(** The positions of the coordinates file of observation file [name]; none without such a file, or when the directories with
    observations hold no coordinates file at all. *)
Inductive coordinates (w : world) (c : cfg) (name : str) : list (datetime * xyz) -> Prop :=
| co_nowhere : find_files (w_ls w) (c_obsdir c) RE_XYZ = [] -> coordinates w c name []
| co_none : find_xyz_file (w_there w) name = None -> coordinates w c name []
| co_read file d : find_files (w_ls w) (c_obsdir c) RE_XYZ <> [] -> find_xyz_file (w_there w) name = Some file -> (do ls <- w_crd w file; load_xyz_file ls) = Ok d -> coordinates w c name d.
(** equal coordinates (0 and -0 are equal numbers) *)
Definition same_place (p q : xyz) : Prop :=
  let same a b := a = b \/ feqb a b = true in
  let '(x, y, z) := p in let '(u, v, t) := q in same x u /\ same y v /\ same z t.
Definition entry (xyzs : list (datetime * xyz)) (t : datetime) (p : xyz) : Prop := dict_get dt_eqb t xyzs = Some p.
(** the entry of the coordinates file for this time, else the position announced by the observation file *)
Definition site_of (xyzs : list (datetime * xyz)) (s : step) (t : datetime) (p : xyz) : Prop :=
  entry xyzs t p \/ ((forall q, ~ entry xyzs t q) /\ same_place p (s_xyz s)).
Definition geodetic (w : world) (p q : xyz) : Prop :=
  let '(x, y, z) := p in xyz2lbh_deg (Fops (w_libm w)) (w_fuel w) x y z = Ok q.

(** ** What a row shows *)
Definition column (q : quantity -> option pyval) (name : quantity) (v : float) : Prop := q name = Some (VFloat v).
Definition shows_site (q : quantity -> option pyval) (site lbh : xyz) : Prop :=
  let '(x, y, z) := site in let '(l, b, h) := lbh in
  column q (QSite "x") x /\ column q (QSite "y") y /\ column q (QSite "z") z /\
  column q (QSite "l") l /\ column q (QSite "b") b /\ column q (QSite "h") h.
Definition shows_sat (q : quantity -> option pyval) (pos : xyz) (el az : float) : Prop :=
  let '(x, y, z) := pos in
  column q (QSat "x") x /\ column q (QSat "y") y /\ column q (QSat "z") z /\ column q QEl el /\ column q QAz az.
(** the navigation file named in the output *)
Definition names_nav (w : world) (c : cfg) (t : datetime) (sys : ascii) (nav : option str) : Prop :=
  exists d, nav_data w c t sys d /\ nav = option_map fst d.
(** the satellite as named in the output *)
Definition names_sat (w : world) (c : cfg) (t : datetime) (sys : ascii) (n : Z) (sat sd : str) : Prop :=
  if Ascii.eqb sys "R" then exists k, channel w c t n k /\ sd = sat ++ lit " (k = " ++ show_val (VFloat k) ++ lit ")"
  else if Ascii.eqb sys "S" then sd = sat ++ lit " (PRN " ++ z_str (n + 100) ++ lit ")"
  else sd = sat.

Definition origin : xyz := (fzero, fzero, fzero).
(** Position, elevation and azimuth shown for a record: of the satellite in its position computed afresh, not below the
    horizon; or zeros, when the absence of navigation data is to be ignored. *)
Definition sees (w : world) (c : cfg) (t : datetime) (sys : ascii) (n : Z) (site pos : xyz) (el az : float) : Prop :=
  (located w c t sys n pos /\ compute_el_az (Fops (w_libm w)) (w_fuel w) site pos = Ok (el, az) /\ fltb el fzero = false) \/
  (c_ignore c = true /\ sys <> "R"%char /\ (unlocated w c t sys n \/ incomputable w c t sys n) /\
   pos = origin /\ el = fzero /\ az = fzero).
(** The observables and TEC values of the row: a function of the record and of the system's frequencies alone; those of
    GLONASS are of the satellite's channel *)
Definition shows_data (w : world) (c : cfg) (s : step) (t : datetime) (sys : ascii) (n : Z) (q : quantity -> option pyval) : Prop :=
  exists freqs tecs,
    (sys <> "R"%char \/ exists k, channel w c t n k /\ freqs = (glo_f1 (Fops (w_libm w)) k, glo_f2 (Fops (w_libm w)) k)) /\
    tec_columns (Fops (w_libm w)) (rf_fields (c_format c)) (fun cl => fst (fst (ds_get (parse_rec (s_rec s)) cl)))
      (system_freqs (Fops (w_libm w)) sys freqs) = Ok tecs /\
    (forall name, q (QTec name) = match dict_get seqb (lit name) tecs with Some (Some v) => Some (VFloat v) | _ => None end) /\
    (exists types v, s_types s sys = Ok types /\ record_validity types (s_rec s) = Ok v /\ q QValidity = Some (VInt v)) /\
    (forall name cl, In (name, cl) [("p1", cP1); ("p2", cP2); ("l1", cL1); ("l2", cL2); ("s1", cS1); ("s2", cS2); ("s5", cS5);
                                    ("c1", cC1); ("c2", cC2); ("l5", cL5); ("c5", cC5)]%string ->
       q (QObs name) = option_map VFloat (fst (fst (ds_get (parse_rec (s_rec s)) cl))) /\
       q (QLli name) = option_map VInt (snd (fst (ds_get (parse_rec (s_rec s)) cl)))).
(** the row written for a record of a file with coordinates [xyzs] *)
Definition row_for (w : world) (c : cfg) (xyzs : list (datetime * xyz)) (s : step) (op : wop) : Prop :=
  exists t sys n site lbh pos el az sd nav q,
    identifies s t sys n /\ op = WRow (s_sat s) sd nav t q /\
    site_of xyzs s t site /\ geodetic w site lbh /\ shows_site q site lbh /\
    sees w c t sys n site pos el az /\ shows_sat q pos el az /\
    names_nav w c t sys nav /\ names_sat w c t sys n (s_sat s) sd /\ shows_data w c s t sys n q.

(** why no row is written for a usable record [s], [before] being the records used before it *)
Inductive skipped (w : world) (c : cfg) (xyzs : list (datetime * xyz)) (day : option date) (before : list step) (s : step)
    (t : datetime) (sys : ascii) (n : Z) : Prop :=
| sk_first :                             (* no navigation file, and this is the first record of the system *)
    nav_data w c t sys None -> (forall s', In s' before -> usable day s' -> hd_error (s_sat s') <> Some sys) ->
    skipped w c xyzs day before s t sys n
| sk_absent : unlocated w c t sys n -> c_ignore c = false \/ sys = "R"%char -> skipped w c xyzs day before s t sys n
| sk_arith : incomputable w c t sys n -> skipped w c xyzs day before s t sys n
| sk_below site pos el az : located w c t sys n pos -> site_of xyzs s t site ->
    compute_el_az (Fops (w_libm w)) (w_fuel w) site pos = Ok (el, az) -> fltb el fzero = true -> skipped w c xyzs day before s t sys n
| sk_angle site pos e : located w c t sys n pos -> site_of xyzs s t site ->
    compute_el_az (Fops (w_libm w)) (w_fuel w) site pos = Err e -> arith e -> skipped w c xyzs day before s t sys n
| sk_label types : s_types s sys = Ok types -> record_validity types (s_rec s) = Err LabelError -> skipped w c xyzs day before s t sys n.
(** The interval between the observations of a file, [d] microseconds (less than 2^52, 142 years): a whole number of seconds, or
    the double nearest to d / 10^6. *)
Definition interval_is (b : obs) (d : Z) : Prop :=
  (Z.abs d < 2 ^ 52)%Z /\
  ((exists n, h_interval (b_hdr b) = Some (PInt n) /\ d = (n * 1000000)%Z) \/
   (exists x, h_interval (b_hdr b) = Some (PFloat x) /\ seconds d x)).
(** a sampling interval of [iv] microseconds is in force, or none is *)
Definition thins (c : cfg) (b : obs) (iv : Z) : Prop :=
  c_sampling c = Some iv /\ iv <> 0%Z /\ (Z.abs iv < 2 ^ 52)%Z /\ exists d, interval_is b d /\ (d < iv)%Z.
Definition keeps_all (c : cfg) (b : obs) : Prop :=
  c_sampling c = None \/ c_sampling c = Some 0%Z \/
  exists iv d, c_sampling c = Some iv /\ (Z.abs iv < 2 ^ 52)%Z /\ interval_is b d /\ (iv <= d)%Z.
(** the sampling interval asked for, in microseconds; 0 when there is none *)
Definition asked (c : cfg) : Z := match c_sampling c with Some iv => iv | None => 0%Z end.
(** the records of a file that are used *)
Definition used (c : cfg) (b : obs) (kept : list step) : Prop :=
  (keeps_all c b /\ kept = b_steps b) \/ (exists iv, thins c b iv /\ thinned (b_date b) iv None (b_steps b) kept).

(** ** Runs *)
(** the calls of the writer of observation file [name] in the run *)
Definition written (w : world) (c : cfg) (f : fs) (name : str) (ops : list wop) : Prop :=
  In (name, ops) (snd (fst (main w c f))).
(** the exception that stops the program *)
Definition stopped_by (w : world) (c : cfg) (f : fs) : option exn := snd (main w c f).
(** two rows of a list, the first above the second *)
Definition above (a b : wop) (ops : list wop) : Prop := exists x y z, ops = x ++ a :: y ++ b :: z.

(** ** The rows of a file, all of them in order *)
Definition is_row (op : wop) : bool := match op with WRow _ _ _ _ _ => true | WPos _ _ _ => false end.
Definition rows_only (ops : list wop) : list wop := filter is_row ops.
(** [rows] are the rows of the records [steps], in their order: one row for each, or none for one of the reasons above *)
Inductive accounts (w : world) (c : cfg) (xyzs : list (datetime * xyz)) (day : option date) : list step -> list step -> list wop -> Prop :=
| ac_nil before : accounts w c xyzs day before [] []
| ac_other before s r rows : ~ usable day s -> accounts w c xyzs day (before ++ [s]) r rows -> accounts w c xyzs day before (s :: r) rows
| ac_row before s r op rows : usable day s -> row_for w c xyzs s op ->
    accounts w c xyzs day (before ++ [s]) r rows -> accounts w c xyzs day before (s :: r) (op :: rows)
| ac_skip before s r t sys n rows : usable day s -> identifies s t sys n -> skipped w c xyzs day before s t sys n ->
    accounts w c xyzs day (before ++ [s]) r rows -> accounts w c xyzs day before (s :: r) rows.

(** ** Order of time *)
(** the usable records follow each other in time, none of them before the time of the first observation given in the header *)
Definition in_order (b : obs) : Prop :=
  (forall t0 ts s t, h_tofo (b_hdr b) = Some (t0, ts) -> In s (b_steps b) -> usable (b_date b) s -> s_epoch s = Some t -> (instant t0 <= instant t)%Z) /\
  (forall pre s post s' t t', b_steps b = pre ++ s :: post -> In s' post -> usable (b_date b) s -> usable (b_date b) s' ->
     s_epoch s = Some t -> s_epoch s' = Some t' -> (instant t <= instant t')%Z).

(** ** Which observation files are processed *)
(** files of one of the supported systems or of several, with times in GPS time *)
Definition suitable (b : obs) : Prop :=
  (exists version type system, h_ver (b_hdr b) = Some (version, type, system) /\ (In system systems \/ system = "M"%char)) /\
  (exists t0, h_tofo (b_hdr b) = Some (t0, lit "GPS")).
