(** Model of what a run writes to its log: the messages of tecs/__main__.py (main), of select_navigation_message and of
    xyz2lbh_deg.  The DEBUG messages before the loop over the files and the messages of readers and writer are left out. *)
From Verif Require Import Base PyStr PyFloat PyDate PyPath PyRegex M_Common M_Header M_Obs2 M_Obs3 M_Label M_Rec M_Text M_Cfg M_Names M_Xyz M_Nav M_NmUtils M_Num M_Tec M_Sat M_Main M_Run.
Open Scope nat_scope.

(** A message, with what its text names.  The texts of exceptions are not modelled. *)
Inductive message :=
| LOpen (e : exn)                                                   (* __main__.py:222-227: the text of the exception *)
| LSystem (system : ascii)                                          (* __main__.py:229-233 *)
| LTime (name ts : str)                                             (* __main__.py:239-245 *)
| LBroken (name : str)                                              (* __main__.py:289-294 *)
| LDate (name : str) (d : date) (day : option date)                 (* __main__.py:309-314 *)
| LNavError                                                         (* __main__.py:336-338: the text of a RinexError *)
| LNoNav (system : ascii) (d : date)                                (* __main__.py:339-342, nmutils.py:163-164, 177-178 *)
| LNoSystem (system : ascii)                                        (* nmutils.py:216-219 *)
| LNoMessage                                                        (* nmutils.py:221-224 *)
| LNoSatellite (system : ascii) (number : Z)                        (* nmutils.py:226-230 *)
| LPosition (nav : option str) (name : str) (epoch : datetime)      (* __main__.py:369-378 *)
| LHealth (nav : option str) (epoch : datetime) (sat : str)         (* __main__.py:394-399 *)
| LMoved (name : str) (p : xyz)                                     (* __main__.py:407-409, 416-418 *)
| LGeodetic                                                         (* sat/common.py:163-170 *)
| LAngles (nav : option str) (name : str) (epoch : datetime)        (* __main__.py:438-445 *)
| LBelow (el : float) (name : str) (nav : option str) (epoch : datetime) (sat : str)  (* __main__.py:447-453 *)
| LCodes (name : str).                                              (* __main__.py:618-622 *)
(** the level each is logged at (logging: DEBUG 10, INFO 20, WARNING 30, ERROR 40, CRITICAL 50) *)
Definition level_of (m : message) : nat :=
  match m with
  | LMoved _ _ => 10
  | LDate _ _ _ | LNoSystem _ | LNoMessage | LNoSatellite _ _ | LHealth _ _ _ | LBelow _ _ _ _ _ => 20
  | LSystem _ | LNoNav _ _ | LCodes _ => 30
  | LOpen _ | LTime _ _ | LBroken _ | LNavError | LPosition _ _ _ | LGeodetic | LAngles _ _ _ => 40
  end.
(** __main__.py:132-135: the level of the file handler *)
Definition threshold (c : cfg) : nat :=
  match dict_get seqb (c_level c) [(lit "DEBUG", 10); (lit "INFO", 20); (lit "WARNING", 30); (lit "ERROR", 40); (lit "CRITICAL", 50)] with Some n => n | None => 0 end.
(** logging.Handler: what the handler of the log file lets through *)
Definition kept_messages (c : cfg) (ms : list message) : list message := filter (fun m => threshold c <=? level_of m) ms.

(** nmutils.py:214-230: what select_navigation_message says *)
Definition select_says (system : ascii) (number : Z) (message : list (ascii * option sys_message)) : list M_Log.message :=
  match dict_get ceqb system message with
  | None => [LNoSystem system]
  | Some None | Some (Some []) => [LNoMessage]
  | Some (Some sats) => if dict_mem Z.eqb number sats then [] else [LNoSatellite system number]
  end.
(** __main__.py:330-342 *)
Definition nav_says (w : world) (c : cfg) (l : local) (epoch : datetime) (system : ascii) : list message :=
  if dict_mem ceqb system (l_nav l) then []
  else match load_navigation_message (w_ls w) (w_nav w) (c_navdir c) epoch system (priority_of c system) with
       | Err RinexError => [LNavError]
       | Err NMError => [LNoNav system (dt_date epoch)]
       | _ => []
       end.
(** nav_file[obs_date][system] *)
Definition nav_name (k : caches) (epoch : datetime) (system : ascii) : option str :=
  match dict_get date_eqb (dt_date epoch) (k_nav k) with
  | Some files => match dict_get ceqb system files with Some f => f | None => None end
  | None => None
  end.
(** __main__.py:358-399; [name] is the observation file, [sat] the satellite's name *)
Definition sat_says (w : world) (k : caches) (l : local) (name sat : str) (epoch : datetime) (system : ascii) (number : Z) : list message :=
  if dict_mem sat_key_eqb (system, number, dt_date epoch, dt_time epoch) (k_xyz k) then []
  else select_says system number (l_nav l) ++
    match select_navigation_message epoch system number (l_nav l) true with
    | Ok (Some (dt, eph)) =>
      match get_sat_xyz w system eph dt with
      | Ok _ => if ceqb system "R" then match eph_at eph 3 with Ok x => if feqb x fzero then [] else [LHealth (nav_name k epoch system) epoch sat] | Err _ => [] end
                else []
      | Err e => if existsb (exn_eqb e) arithmetic then [LPosition (nav_name k epoch system) name epoch] else []
      end
    | _ => []
    end.
(** sat/common.py:158-170: xyz2lbh_deg *)
Definition lbh_says (w : world) (p : xyz) : list message :=
  let '(x, y, z) := p in if is_arithmetic (xyz2lbh (Fops (w_libm w)) (w_fuel w) x y z) then [LGeodetic] else [].
(** __main__.py:401-419 *)
Definition site_says (w : world) (name : str) (xyzs : list (datetime * xyz)) (l : local) (s : step) (epoch : datetime) : list message :=
  match dict_get dt_eqb epoch xyzs with
  | Some p => lbh_says w p ++ [LMoved name p]
  | None => if same_xyz (l_xyz l) (s_xyz s) then [] else lbh_says w (s_xyz s) ++ [LMoved name (s_xyz s)]
  end.
(** __main__.py:425-453 *)
Definition view_says (w : world) (name sat : str) (nav : option str) (site : xyz) (sat_pos : option xyz) (epoch : datetime) : list message :=
  match sat_pos with
  | None => []
  | Some p =>
    match compute_el_az (Fops (w_libm w)) (w_fuel w) site p with
    | Ok (el, az) => if fltb el fzero then [LBelow el name nav epoch sat] else []
    | Err e => if existsb (exn_eqb e) arithmetic then [LAngles nav name epoch] else []
    end
  end.
(** __main__.py:616-622 *)
Definition row_says (name : str) (s : step) (system : ascii) : list message :=
  match s_types s system with
  | Ok types => match record_validity types (s_rec s) with Err LabelError => [LCodes name] | _ => [] end
  | Err _ => []
  end.
(** __main__.py:286-696: what is said while one record is processed; the decisions are those of record_body *)
Definition body_says (w : world) (c : cfg) (name : str) (xyzs : list (datetime * xyz)) (k : caches) (l : local) (s : step)
    (epoch : datetime) (system : ascii) (number : Z) : list message :=
  nav_says w c l epoch system ++
  match nav_step w c k l epoch system with
  | Ok (k, l, true) =>
    sat_says w k l name (s_sat s) epoch system number ++
    match sat_step w k l epoch system number with
    | Ok (k, true) =>
      site_says w name xyzs l s epoch ++
      match site_step w xyzs l s epoch, dict_get sat_key_eqb (system, number, dt_date epoch, dt_time epoch) (k_xyz k) with
      | Ok l, Some cur =>
        view_says w name (s_sat s) (nav_name k epoch system) (l_xyz l) cur epoch ++
        match view w c (l_xyz l) cur system with
        | Ok (Some _) => row_says name s system
        | _ => []
        end
      | _, _ => []
      end
    | _ => []
    end
  | _ => []
  end.

(** A part of a run: a record that is processed, or none for what is said between the records; the messages; the calls of the writer *)
Record part := mkPart { p_step : option step; p_says : list message; p_ops : list wop }.
(** __main__.py:306-314: the message for a record of another day *)
Definition accept_says (b : obs) (epoch : datetime) (system : ascii) : list message :=
  if negb (supports system) then []
  else if match b_date b with Some d => date_eqb (dt_date epoch) d | None => false end then []
  else [LDate (b_name b) (dt_date epoch) (b_date b)].
(** __main__.py:283-696: the loop over the records, as record_loop.  A record that ends the program has no part. *)
Fixpoint loop_parts (w : world) (c : cfg) (b : obs) (xyzs : list (datetime * xyz)) (si : option Z) (last : option datetime)
    (k : caches) (l : local) (st : fs * writer) (steps : list step) : list part :=
  match steps with
  | [] => match b_end b with GRaise RinexError => [mkPart None [LBroken (b_name b)] []] | _ => [] end
  | s :: r =>
    match record_ident s with
    | Err e => []
    | Ok (epoch, system, number) =>
      match accept (b_date b) si last epoch system with
      | None => mkPart None (accept_says b epoch system) [] :: loop_parts w c b xyzs si last k l st r
      | Some last' =>
        match record_body w c xyzs (latest (w_xyz (snd st))) k l s epoch system number with
        | Err e => []
        | Ok (k', l', ops) =>
          match do_ops (out_of w c) st ops with
          | Err e => []
          | Ok st' => mkPart (Some s) (body_says w c (b_name b) xyzs k l s epoch system number) ops :: loop_parts w c b xyzs si last' k' l' st' r
          end
        end
      end
    end
  end.
(** __main__.py:229-246: what is said of a file that is skipped *)
Definition skip_says (b : obs) : list message :=
  match h_ver (b_hdr b), h_tofo (b_hdr b) with
  | Some (_, _, ss), tofo =>
    if negb (supports ss || ceqb ss "M") then [LSystem ss]
    else match tofo with Some (_, ts) => if negb (seqb ts (lit "GPS")) then [LTime (b_name b) ts] else [] | None => [] end
  | _, _ => []
  end.
(** __main__.py:214-698: one observation file *)
Definition file_parts_of (w : world) (c : cfg) (k : caches) (f : fs) (name : str) : list part :=
  match open_obs w name with
  | Err RinexError => [mkPart None [LOpen RinexError] []]
  | Err UncompressError => [mkPart None [LOpen UncompressError] []]
  | Err _ => []
  | Ok b =>
    match file_start w c b with
    | Err e => []
    | Ok None => [mkPart None (skip_says b) []]
    | Ok (Some (xyzs, si, l, iv, pos)) =>
      match do_op (out_of w c) (f, new_writer name iv) pos with
      | Err e => []
      | Ok st => mkPart None (lbh_says w (h_xyz (b_hdr b))) [pos] :: loop_parts w c b xyzs si None k l st (b_steps b)
      end
    end
  end.
(** the loop over the files, as files_loop *)
Fixpoint files_parts (w : world) (c : cfg) (k : caches) (f : fs) (names : list str) : list (str * list part) :=
  match names with
  | [] => []
  | name :: r =>
    let '(k', f', _, e) := file_step w c k f name in
    (name, file_parts_of w c k f name) :: match e with Some _ => [] | None => files_parts w c k' f' r end
  end.
Definition main_parts (w : world) (c : cfg) (f : fs) : list (str * list part) :=
  files_parts w c no_caches f (sort_str (find_files (w_ls w) (c_obsdir c) RE_OBS)).
(** the messages of a run in their order, and those in its log file *)
Definition main_says (w : world) (c : cfg) (f : fs) : list message := concat (map (fun x => concat (map p_says (snd x))) (main_parts w c f)).
Definition main_log_file (w : world) (c : cfg) (f : fs) : list message := kept_messages c (main_says w c f).
