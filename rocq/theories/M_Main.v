(** Model of tecs/__main__.py: the run over all observation files. *)
From Verif Require Import Base PyStr PyFloat PyDate PyStrftime PyPath PyRegex M_Common M_Header M_Obs2 M_Obs3 M_Label M_Rec M_Text M_Cfg M_Names M_Xyz M_Nav M_NmUtils M_Num M_Tec M_Sat.
Open Scope nat_scope.

(** What the run finds outside: the C library, a bound on the turns of numeric loops, the directories, the lines of an
    observation, navigation or coordinate file as the program reads it, or the exception of expand_obs, expand_nav or open (M_Expand
    says what they are in terms of bytes and external programs), os.path.exists, and texts that are not modelled (see M_Text). *)
Record world := mkWorld {
  w_libm : libm; w_fuel : nat; w_ls : str -> list str; w_content : str -> res (list str); w_nav : str -> res (list str); w_crd : str -> res (list str); w_there : str -> bool;
  w_strftime : datetime -> str; w_now : str }.
Definition is_arithmetic {A} (r : res A) : bool := match r with Err e => existsb (exn_eqb e) arithmetic | Ok _ => false end.
(** the settings the writer uses *)
Definition out_of (w : world) (c : cfg) : out_cfg :=
  mkOut (c_outdir c) (c_format c) (c_dtformat c) (strftime (w_strftime w) (c_dtformat c))
    (fun p => let '(x, y, z) := p in is_arithmetic (xyz2lbh (Fops (w_libm w)) (w_fuel w) x y z)) (w_now w) (c_sampling c).

(** What a record iterator delivers, for RINEX 2 and 3 alike: the yielded tuple (epoch, sat, rec), obs.xyz.value at that
    moment, and the declared types of a system (__main__.py:596-599). *)
Record step := mkStep { s_epoch : option datetime; s_sat : str; s_rec : record; s_xyz : xyz; s_types : ascii -> res (list str) }.
(** An opened observation file; [b_end] is how the iterator ends. *)
Record obs := mkObs { b_name : str; b_date : option date; b_hdr : hdr; b_steps : list step; b_end : gend }.
Definition step2 (types : list str) (y : orec * obj2) : step :=
  let '(ep, sat, rec, o) := y in mkStep (Some ep) sat rec (h_xyz (o_hdr o)) (fun _ => Ok types).
Definition step3 (y : orec3 * obj3) : step :=
  let '(ep, sat, rec, o) := y in
  mkStep ep sat rec (h_xyz (o3_hdr o)) (fun system => of_option KeyError (dict_get seqb [system] (o3_tab o))).
(** rinex/__init__.py:34-73 obs_file, with the records its object will deliver *)
Definition open_obs (w : world) (name : str) : res obs :=
  do _ <- expand_plan name;
  do lines <- w_content w name;
  do v <- obs_class (hd [] lines);
  if ver_lt3 v then
    do r <- open2 v lines;
    let '(ys, e, _) := records2 v r in
    Ok (mkObs name (get_rinex_date name) (o_hdr (r_obj r)) (map (step2 (r_types r)) ys) e)
  else
    do r <- open3 (w_fuel w) v lines;
    let '(ys, e, _) := records3 v r in
    Ok (mkObs name (get_rinex_date name) (o3_hdr (r3_obj r)) (map step3 ys) e).

(** The dictionaries kept over the whole run.  sat_xyz and glo_freq are nested dictionaries; the keys of all levels are
    joined here (__main__.py:186-207). *)
Definition sat_key := (ascii * Z * date * tod)%type.
Definition glo_key := (Z * date * tod)%type.
Definition sat_key_eqb (a b : sat_key) : bool :=
  let '(s, n, d, t) := a in let '(s', n', d', t') := b in ceqb s s' && (n =? n')%Z && date_eqb d d' && tod_eqb t t'.
Definition glo_key_eqb (a b : glo_key) : bool :=
  let '(n, d, t) := a in let '(n', d', t') := b in (n =? n')%Z && date_eqb d d' && tod_eqb t t'.
Record caches := mkCaches {
  k_nav : list (date * list (ascii * option str));          (* nav_file *)
  k_xyz : list (sat_key * option xyz);                      (* sat_xyz *)
  k_glo : list (glo_key * (float * float * float)) }.       (* glo_freq *)
Definition no_caches : caches := mkCaches [] [] [].
(** The variables kept over the records of one file: nav_message, (x, y, z), (l, b, h). *)
Record local := mkLocal { l_nav : list (ascii * option sys_message); l_xyz : xyz; l_lbh : xyz }.

(** __main__.py:151-155 *)
Definition supported : list ascii := lit "GRSCE".
Definition supports (system : ascii) : bool := existsb (ceqb system) supported.
(** gtb/config.py:106-112, 176-190 *)
Definition priority_of (c : cfg) (system : ascii) : list str :=
  match system with "G"%char => c_gps c | "R"%char => c_glo c | "S"%char => c_geo c | _ => [] end.
(** __main__.py:189-195 get_sat_xyz *)
Definition get_sat_xyz (w : world) (system : ascii) (eph : list float) (dt : float) : res xyz :=
  match system with
  | "R"%char | "S"%char => glo_xyz (Fops (w_libm w)) eph dt
  | _ => gps_xyz (Fops (w_libm w)) (w_fuel w) eph dt
  end.
Definition lbh_of (w : world) (p : xyz) : res xyz := let '(x, y, z) := p in xyz2lbh_deg (Fops (w_libm w)) (w_fuel w) x y z.

(** (x, y, z) == (x', y', z') for tuples of floats; a NaN is taken to be equal to itself (Python compares the objects first) *)
Definition same_num (a b : float) : bool := feqb a b || (match a, b with S754_nan, S754_nan => true | _, _ => false end).
Definition same_xyz (p q : xyz) : bool := let '(x, y, z) := p in let '(u, v, t) := q in same_num x u && same_num y v && same_num z t.

(** __main__.py:317-325: the sampling; None: continue, Some: the new last_epoch *)
Definition sample (si : option Z) (last : option datetime) (epoch : datetime) : option (option datetime) :=
  match si with
  | None => Some last
  | Some iv =>
    let last := match last with None => epoch | Some t => t end in
    if dt_eqb last epoch then Some (Some last)
    else if (dt_sub epoch last <? iv)%Z then None
    else Some (Some epoch)
  end.

(** __main__.py:327-353: the navigation message; false: continue *)
Definition nav_step (w : world) (c : cfg) (k : caches) (l : local) (epoch : datetime) (system : ascii) : res (caches * local * bool) :=
  let d := dt_date epoch in
  let nav := match dict_get date_eqb d (k_nav k) with Some _ => k_nav k | None => dict_set date_eqb d [] (k_nav k) end in
  if dict_mem ceqb system (l_nav l) then Ok (mkCaches nav (k_xyz k) (k_glo k), l, true)
  else
    let files := match dict_get date_eqb d nav with Some x => x | None => [] end in
    let set n m ok := Ok (mkCaches (dict_set date_eqb d (dict_set ceqb system n files) nav) (k_xyz k) (k_glo k),
                          mkLocal (dict_set ceqb system m (l_nav l)) (l_xyz l) (l_lbh l), ok) in
    match load_navigation_message (w_ls w) (w_nav w) (c_navdir c) epoch system (priority_of c system) with
    | Ok (fname, m) => set (Some fname) (dict_get ceqb system m) true
    | Err RinexError | Err NMError => set None None false
    | Err e => Err e
    end.

(** __main__.py:355-402: the satellite's position and the GLONASS frequencies; false: continue *)
Definition sat_step (w : world) (k : caches) (l : local) (epoch : datetime) (system : ascii) (number : Z) : res (caches * bool) :=
  let key := (system, number, dt_date epoch, dt_time epoch) in
  if dict_mem sat_key_eqb key (k_xyz k) then Ok (k, true)
  else
    do sel <- select_navigation_message epoch system number (l_nav l) true;
    let set p := dict_set sat_key_eqb key p (k_xyz k) in
    match sel with
    | None => Ok (mkCaches (k_nav k) (set None) (k_glo k), true)
    | Some (dt, eph) =>
      match get_sat_xyz w system eph dt with
      | Ok p =>
        if ceqb system "R" then
          do n <- eph_at eph 7;
          do _ <- eph_at eph 3;
          let gkey := (number, dt_date epoch, dt_time epoch) in
          let glo := if dict_mem glo_key_eqb gkey (k_glo k) then k_glo k
                     else dict_set glo_key_eqb gkey (glo_f1 (Fops (w_libm w)) n, glo_f2 (Fops (w_libm w)) n, n) (k_glo k) in
          Ok (mkCaches (k_nav k) (set (Some p)) glo, true)
        else Ok (mkCaches (k_nav k) (set (Some p)) (k_glo k), true)
      | Err e => if existsb (exn_eqb e) arithmetic then Ok (mkCaches (k_nav k) (set None) (k_glo k), false) else Err e
      end
    end.

(** __main__.py:404-419: the site's position *)
Definition site_step (w : world) (xyzs : list (datetime * xyz)) (l : local) (s : step) (epoch : datetime) : res local :=
  match dict_get dt_eqb epoch xyzs with
  | Some p => do q <- lbh_of w p; Ok (mkLocal (l_nav l) p q)
  | None => if same_xyz (l_xyz l) (s_xyz s) then Ok l
            else do q <- lbh_of w (s_xyz s); Ok (mkLocal (l_nav l) (s_xyz s) q)
  end.

(** __main__.py:425-455: satellite position, elevation and azimuth; None: continue *)
Definition view (w : world) (c : cfg) (site : xyz) (sat_pos : option xyz) (system : ascii) : res (option (xyz * float * float)) :=
  match sat_pos with
  | None => if negb (c_ignore c) then Ok None
            else if ceqb system "R" then Ok None
            else Ok (Some ((fzero, fzero, fzero), fzero, fzero))
  | Some p =>
    match compute_el_az (Fops (w_libm w)) (w_fuel w) site p with
    | Ok (el, az) => if fltb el fzero then Ok None else Ok (Some (p, el, az))
    | Err e => if existsb (exn_eqb e) arithmetic then Ok None else Err e
    end
  end.

(** __main__.py:457-500: sat_def; [k] is the third entry of glo_freq *)
Definition sat_def_of (w : world) (system : ascii) (sat : str) (number : Z) (k : float) : str :=
  match system with
  | "R"%char => sat ++ lit " (k = " ++ show_val (VFloat k) ++ lit ")"
  | "S"%char => sat ++ lit " (PRN " ++ z_str (number + 100) ++ lit ")"
  | _ => sat
  end.

(** __main__.py:625-682: the names of the observables in data_chunk *)
Definition class_named (o : string) : oclass :=
  let table := [("p1", cP1); ("p2", cP2); ("l1", cL1); ("l2", cL2); ("s1", cS1); ("s2", cS2); ("s5", cS5);
                ("c1", cC1); ("c2", cC2); ("l5", cL5); ("c5", cC5)]%string in
  match dict_get String.eqb o table with Some c => c | None => [] end.
Definition axis_of (p : xyz) (a b d : string) (axis : string) : option pyval :=
  let '(x, y, z) := p in
  if String.eqb axis a then Some (VFloat x) else if String.eqb axis b then Some (VFloat y) else if String.eqb axis d then Some (VFloat z) else None.
(** __main__.py:625-682 data_chunk *)
Definition chunk_of (ds : list (oclass * datum)) (tecs : list (str * option float)) (validity : Z) (el az : float) (sat_pos site lbh : xyz)
    (q : quantity) : option pyval :=
  match q with
  | QEl => Some (VFloat el)
  | QAz => Some (VFloat az)
  | QValidity => Some (VInt validity)
  | QObs o => option_map VFloat (fst (fst (ds_get ds (class_named o))))
  | QLli o => option_map VInt (snd (fst (ds_get ds (class_named o))))
  | QTec n => match dict_get seqb (lit n) tecs with Some v => option_map VFloat v | None => None end
  | QSat a => axis_of sat_pos "x" "y" "z" a
  | QSite a => match axis_of site "x" "y" "z" a with Some v => Some v | None => axis_of lbh "l" "b" "h" a end
  end.

(** __main__.py:502-696: the row of a record; None: continue *)
Definition row_step (w : world) (c : cfg) (nav : option str) (glo : option (float * float * float)) (l : local) (s : step) (epoch : datetime)
    (system : ascii) (number : Z) (v : xyz * float * float) : res (option wop) :=
  let '(p, el, az) := v in
  do (f1, f2, n) <- (if ceqb system "R" then of_option KeyError glo else Ok (fzero, fzero, fzero));
  let ds := parse_rec (s_rec s) in
  do tecs <- tec_columns (Fops (w_libm w)) (rf_fields (c_format c)) (fun cl => fst (fst (ds_get ds cl)))
               (system_freqs (Fops (w_libm w)) system (f1, f2));
  do types <- s_types s system;
  match record_validity types (s_rec s) with
  | Ok validity => Ok (Some (WRow (s_sat s) (sat_def_of w system (s_sat s) number n) nav epoch
                               (chunk_of ds tecs validity el az p (l_xyz l) (l_lbh l))))
  | Err LabelError => Ok None
  | Err e => Err e
  end.

(** __main__.py:286-696: one record after the checks of date and sampling; [latest] is writer.xyz_latest.
    Result: the dictionaries, the variables, the calls of the writer. *)
Definition record_body (w : world) (c : cfg) (xyzs : list (datetime * xyz)) (latest_pos : res xyz) (k : caches) (l : local) (s : step)
    (epoch : datetime) (system : ascii) (number : Z) : res (caches * local * list wop) :=
  do (k, l, go) <- nav_step w c k l epoch system;
  if negb go then Ok (k, l, []) else
  do (k, go) <- sat_step w k l epoch system number;
  if negb go then Ok (k, l, []) else
  do l <- site_step w xyzs l s epoch;
  do last <- latest_pos;
  let pos := if same_xyz (l_xyz l) last then [] else [WPos epoch (l_xyz l) (l_lbh l)] in
  do cur <- of_option KeyError (dict_get sat_key_eqb (system, number, dt_date epoch, dt_time epoch) (k_xyz k));
  do v <- view w c (l_xyz l) cur system;
  match v with
  | None => Ok (k, l, pos)
  | Some v =>
    do files <- of_option KeyError (dict_get date_eqb (dt_date epoch) (k_nav k));
    do nav <- of_option KeyError (dict_get ceqb system files);
    do r <- row_step w c nav (dict_get glo_key_eqb (number, dt_date epoch, dt_time epoch) (k_glo k)) l s epoch system number v;
    Ok (k, l, pos ++ match r with Some op => [op] | None => [] end)
  end.

(** the values of __main__.py:300-301: epoch, system and number of a record *)
Definition record_ident (s : step) : res (datetime * ascii * Z) :=
  match s_sat s with
  | [] => Err IndexError
  | system :: rest =>
    do number <- py_int rest;
    do epoch <- of_option AttributeError (s_epoch s);
    Ok (epoch, system, number)
  end.
(** __main__.py:303-325: whether the record is looked at; None: continue *)
Definition accept (b_day : option date) (si : option Z) (last : option datetime) (epoch : datetime) (system : ascii) : option (option datetime) :=
  if negb (supports system) then None
  else match b_day with
       | None => None
       | Some d => if negb (date_eqb (dt_date epoch) d) then None else sample si last epoch
       end.

(** __main__.py:283-696: the records of one file.  Result: the dictionaries, the files written, the writer, its calls (kept to
    state what is written), and the exception that stops the program, if any. *)
Fixpoint record_loop (w : world) (c : cfg) (b : obs) (xyzs : list (datetime * xyz)) (si : option Z) (last : option datetime)
    (k : caches) (l : local) (st : fs * writer) (steps : list step) : caches * (fs * writer) * list wop * option exn :=
  match steps with
  | [] => (k, st, [], match b_end b with GStop | GRaise RinexError => None | GRaise e => Some e end)
  | s :: r =>
    match record_ident s with
    | Err e => (k, st, [], Some e)
    | Ok (epoch, system, number) =>
      match accept (b_date b) si last epoch system with
      | None => record_loop w c b xyzs si last k l st r
      | Some last' =>
        match record_body w c xyzs (latest (w_xyz (snd st))) k l s epoch system number with
        | Err e => (k, st, [], Some e)
        | Ok (k', l', ops) =>
          match do_ops (out_of w c) st ops with
          | Err e => (k', st, [], Some e)
          | Ok st' =>
            let '(k'', st'', os, e) := record_loop w c b xyzs si last' k' l' st' r in
            (k'', st'', ops ++ os, e)
          end
        end
      end
    end
  end.

(** futils.py:72-92 RE_XYZ: the pattern of an observation file and four more characters *)
Definition RE_XYZ : re :=
  let ext := RCat (RChr any) (text (lit "xyz")) in
  RAlt (RCat fnmin_obs ext) (RAlt (RCat daily_obs ext) (RCat modern_obs ext)).
(** __main__.py:257-263 *)
Definition xyz_data (w : world) (c : cfg) (name : str) : res (list (datetime * xyz)) :=
  match find_files (w_ls w) (c_obsdir c) RE_XYZ with
  | [] => Ok []
  | _ => match find_xyz_file (w_there w) name with
         | None => Ok []
         | Some f => (do ls <- w_crd w f; load_xyz_file ls)
         end
  end.
(** __main__.py:271-275: sampling_interval.  An int interval (RINEX 2.0) is compared as a float. *)
Definition sampling_of (c : cfg) (b : obs) : res (option Z) :=
  match c_sampling c with
  | None => Ok None
  | Some iv =>
    if (iv =? 0)%Z then Ok None
    else match h_interval (b_hdr b) with
         | None => Err TypeError
         | Some n => let x := match n with PInt z => float_of_Z z | PFloat f => f end in
                     Ok (if fltb x (total_seconds iv) then Some iv else None)
         end
  end.
(** the writer's interval (text.py:66); TypeError when it is missing: None > 0.0 *)
Definition interval_of (b : obs) : res pynum := of_option TypeError (h_interval (b_hdr b)).

(** __main__.py:228-276: what is done before the records.  None: the file is skipped. *)
Definition file_start (w : world) (c : cfg) (b : obs) : res (option (list (datetime * xyz) * option Z * local * pynum * wop)) :=
  do (rv, ft, ss) <- of_option TypeError (h_ver (b_hdr b));
  if negb (supports ss || ceqb ss "M") then Ok None else
  do (t0, ts) <- of_option TypeError (h_tofo (b_hdr b));
  if negb (seqb ts (lit "GPS")) then Ok None else
  let p := h_xyz (b_hdr b) in
  do q <- lbh_of w p;
  do xyzs <- xyz_data w c (b_name b);
  do iv <- interval_of b;
  do si <- sampling_of c b;
  Ok (Some (xyzs, si, mkLocal [] p q, iv, WPos t0 p q)).

(** __main__.py:214-698: one observation file *)
Definition file_step (w : world) (c : cfg) (k : caches) (f : fs) (name : str) : caches * fs * list wop * option exn :=
  match open_obs w name with
  | Err RinexError | Err UncompressError => (k, f, [], None)
  | Err e => (k, f, [], Some e)
  | Ok b =>
    match file_start w c b with
    | Err e => (k, f, [], Some e)
    | Ok None => (k, f, [], None)
    | Ok (Some (xyzs, si, l, iv, pos)) =>
      match do_op (out_of w c) (f, new_writer name iv) pos with
      | Err e => (k, f, [], Some e)
      | Ok st => let '(k', st', os, e) := record_loop w c b xyzs si None k l st (b_steps b) in (k', fst st', pos :: os, e)
      end
    end
  end.
(** the loop over the files: the files written, the calls of each observation file's writer, and the exception that stops the
    program, if any *)
Fixpoint files_loop (w : world) (c : cfg) (k : caches) (f : fs) (names : list str) : fs * list (str * list wop) * option exn :=
  match names with
  | [] => (f, [], None)
  | name :: r =>
    let '(k', f', os, e) := file_step w c k f name in
    match e with
    | Some _ => (f', [(name, os)], e)
    | None => let '(f'', log, e') := files_loop w c k' f' r in (f'', (name, os) :: log, e')
    end
  end.
(** __main__.py:158-705 main, without messages and the count of errors; --save-coordinates: see M_Run *)
Definition main (w : world) (c : cfg) (f : fs) : fs * list (str * list wop) * option exn :=
  match sort_str (find_files (w_ls w) (c_obsdir c) RE_OBS) with
  | [] => (f, [], Some SystemExit)
  | names => files_loop w c no_caches f names
  end.
