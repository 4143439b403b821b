(** Model of the rest of tecs/__main__.py: the count of errors, --save-coordinates, missing directories, and the start of the program. *)
From Verif Require Import Base PyStr PyFloat PyDate PyPath PyRegex M_Common M_Header M_Obs2 M_Obs3 M_Label M_Rec M_Text M_Cfg M_Names M_Xyz M_Nav M_NmUtils M_Num M_Tec M_Sat M_Main.
Open Scope nat_scope.

(** ** logger_error_count *)
(** __main__.py:360-377, 436-445: the errors counted while one record is processed.  sat_step says false exactly in the
    handler of ArithmeticError. *)
Definition record_errors (w : world) (c : cfg) (xyzs : list (datetime * xyz)) (k : caches) (l : local) (s : step)
    (epoch : datetime) (system : ascii) (number : Z) : nat :=
  match nav_step w c k l epoch system with
  | Ok (k, l, true) =>
    match sat_step w k l epoch system number with
    | Ok (_, false) => 1
    | Ok (k, true) =>
      match site_step w xyzs l s epoch, dict_get sat_key_eqb (system, number, dt_date epoch, dt_time epoch) (k_xyz k) with
      | Ok l, Some (Some p) => if is_arithmetic (compute_el_az (Fops (w_libm w)) (w_fuel w) (l_xyz l) p) then 1 else 0
      | _, _ => 0
      end
    | Err _ => 0
    end
  | _ => 0
  end.
(** __main__.py:283-696: the errors counted in the loop over the records; its other effects are those of record_loop.  The
    number matters only when no exception ends the program. *)
Fixpoint loop_errors (w : world) (c : cfg) (b : obs) (xyzs : list (datetime * xyz)) (si : option Z) (last : option datetime)
    (k : caches) (l : local) (st : fs * writer) (steps : list step) : nat :=
  match steps with
  | [] => match b_end b with GRaise RinexError => 1 | _ => 0 end
  | s :: r =>
    match record_ident s with
    | Err e => 0
    | Ok (epoch, system, number) =>
      match accept (b_date b) si last epoch system with
      | None => loop_errors w c b xyzs si last k l st r
      | Some last' =>
        match record_body w c xyzs (latest (w_xyz (snd st))) k l s epoch system number with
        | Err e => 0
        | Ok (k', l', ops) =>
          match do_ops (out_of w c) st ops with
          | Err e => 0
          | Ok st' => record_errors w c xyzs k l s epoch system number + loop_errors w c b xyzs si last' k' l' st' r
          end
        end
      end
    end
  end.
(** __main__.py:239-245: the time system is not GPS *)
Definition time_errors (b : obs) : nat :=
  match h_ver (b_hdr b), h_tofo (b_hdr b) with
  | Some (_, _, ss), Some (_, ts) => if (supports ss || ceqb ss "M") && negb (seqb ts (lit "GPS")) then 1 else 0
  | _, _ => 0
  end.
(** __main__.py:214-698: the errors counted for one observation file *)
Definition file_errors (w : world) (c : cfg) (k : caches) (f : fs) (name : str) : nat :=
  match open_obs w name with
  | Err RinexError | Err UncompressError => 1
  | Err e => 0
  | Ok b =>
    match file_start w c b with
    | Err e => 0
    | Ok None => time_errors b
    | Ok (Some (xyzs, si, l, iv, pos)) =>
      match do_op (out_of w c) (f, new_writer name iv) pos with
      | Err e => 0
      | Ok st => loop_errors w c b xyzs si None k l st (b_steps b)
      end
    end
  end.
Fixpoint files_errors (w : world) (c : cfg) (k : caches) (f : fs) (names : list str) : nat :=
  match names with
  | [] => 0
  | name :: r => let '(k', f', _, _) := file_step w c k f name in file_errors w c k f name + files_errors w c k' f' r
  end.
(** the value returned by main when it returns *)
Definition main_errors (w : world) (c : cfg) (f : fs) : nat :=
  files_errors w c no_caches f (sort_str (find_files (w_ls w) (c_obsdir c) RE_OBS)).

(** ** --save-coordinates *)
(** common.py:158-177, format: a coordinate shown; xyz2lbh_deg gives the ints 0 after an ArithmeticError *)
Definition show_lbh (w : world) (p : xyz) (v : float) : str :=
  let '(x, y, z) := p in show_val (if is_arithmetic (xyz2lbh (Fops (w_libm w)) (w_fuel w) x y z) then VInt 0 else VFloat v).
(** __main__.py:227-256: the line of a file; None: the file is skipped *)
Definition crds_line (w : world) (name : str) (b : obs) : res (option str) :=
  do (rv, ft, ss) <- of_option TypeError (h_ver (b_hdr b));
  if negb (supports ss || ceqb ss "M") then Ok None else
  do (t0, ts) <- of_option TypeError (h_tofo (b_hdr b));
  if negb (seqb ts (lit "GPS")) then Ok None else
  let p := h_xyz (b_hdr b) in
  do (l, b', h) <- lbh_of w p;
  Ok (Some (marker_of name ++ lit "; " ++ show_lbh w p l ++ lit "; " ++ show_lbh w p b' ++ [nl])).
Definition crds_file : str := lit "coordinates.txt".
(** __main__.py:214-256: the loop over the files *)
Fixpoint save_loop (w : world) (f : fs) (names : list str) : fs * option exn :=
  match names with
  | [] => (f, None)
  | name :: r =>
    match open_obs w name with
    | Err RinexError | Err UncompressError => save_loop w f r
    | Err e => (f, Some e)
    | Ok b =>
      match crds_line w name b with
      | Err e => (f, Some e)
      | Ok None => save_loop w f r
      | Ok (Some line) => save_loop w (fs_append crds_file line f) r
      end
    end
  end.
Fixpoint save_errors (w : world) (names : list str) : nat :=
  match names with
  | [] => 0
  | name :: r =>
    match open_obs w name with
    | Err RinexError | Err UncompressError => 1
    | Err e => 0
    | Ok b => time_errors b
    end + save_errors w r
  end.
(** __main__.py:158-706 main with ARGS.save_coordinates *)
Definition save_main (w : world) (c : cfg) (f : fs) : fs * option exn :=
  match sort_str (find_files (w_ls w) (c_obsdir c) RE_OBS) with
  | [] => (f, Some SystemExit)
  | names => save_loop w (fs_truncate crds_file f) names
  end.

(** ** Missing directories *)
(** __main__.py:283-353 when a directory of navDir does not exist: os.listdir raises OSError for the first record of a system *)
Fixpoint nonav_loop (b : obs) (si : option Z) (steps : list step) : option exn :=
  match steps with
  | [] => match b_end b with GStop | GRaise RinexError => None | GRaise e => Some e end
  | s :: r =>
    match record_ident s with
    | Err e => Some e
    | Ok (epoch, system, number) =>
      match accept (b_date b) si None epoch system with
      | None => nonav_loop b si r
      | Some _ => Some OSError
      end
    end
  end.
Fixpoint nonav_files (w : world) (c : cfg) (names : list str) : option exn :=
  match names with
  | [] => None
  | name :: r =>
    match open_obs w name with
    | Err RinexError | Err UncompressError => nonav_files w c r
    | Err e => Some e
    | Ok b =>
      match file_start w c b with
      | Err e => Some e
      | Ok None => nonav_files w c r
      | Ok (Some (_, si, _, _, _)) =>
        match nonav_loop b si (b_steps b) with
        | Some e => Some e
        | None => nonav_files w c r
        end
      end
    end
  end.
Fixpoint nonav_errors (w : world) (c : cfg) (names : list str) : nat :=
  match names with
  | [] => 0
  | name :: r =>
    match open_obs w name with
    | Err RinexError | Err UncompressError => 1
    | Err e => 0
    | Ok b =>
      match file_start w c b with
      | Ok None => time_errors b
      | Ok (Some _) => match b_end b with GRaise RinexError => 1 | _ => 0 end
      | Err _ => 0
      end
    end + nonav_errors w c r
  end.

(** What a run leaves: the files, the calls of the writers, the number main returns, and the exception that stops the program *)
Record outcome := mkOutcome { o_files : fs; o_log : list (str * list wop); o_errors : nat; o_exn : option exn }.
(** main with the option --save-coordinates; [isdir] tells the directories that exist *)
Definition full_main (save : bool) (isdir : str -> bool) (w : world) (c : cfg) (f : fs) : outcome :=
  let names := sort_str (find_files (w_ls w) (c_obsdir c) RE_OBS) in
  if negb (forallb isdir (c_obsdir c)) then mkOutcome f [] 0 (Some OSError)
  else if save then let '(f', e) := save_main w c f in mkOutcome f' [] (save_errors w names) e
  else if negb (forallb isdir (c_navdir c)) then
    match names with
    | [] => mkOutcome f [] 0 (Some SystemExit)
    | _ => mkOutcome f [] (nonav_errors w c names) (nonav_files w c names)
    end
  else let '(f', log, e) := main w c f in mkOutcome f' log (main_errors w c f) e.
(** __main__.py:709-722 run: whether the line about errors is printed *)
Definition announces_errors (o : outcome) : bool := match o_exn o with None => negb (o_errors o =? 0) | Some _ => false end.

(** ** The start *)
(** The command line (__main__.py:66-93); --yes and --quiet have no effect on the files. *)
Record args := mkArgs { a_version : bool; a_rcfile : option str; a_save : bool }.
(** Outside: the working directory, the text of a file (None: cannot be opened), the directories, and what configuration and run
    find, all by full path. *)
Record system := mkSystem { y_cwd : str; y_read : str -> option str; y_dir : str -> bool; y_env : cfg_env; y_world : cfg -> world }.
(** a world seen from a directory *)
Definition seen_from (d : str) (w : world) : world :=
  mkWorld (w_libm w) (w_fuel w) (fun p => w_ls w (path_join d p)) (fun p => w_content w (path_join d p)) (fun p => w_nav w (path_join d p)) (fun p => w_crd w (path_join d p)) (fun p => w_there w (path_join d p))
    (w_strftime w) (w_now w).
(** config.py:130-169 with the attribute cfg_file, which is a setting like the others (gtb/config.py:48-49) *)
Definition read_named (path text : str) : res settings :=
  read_lines (dict_set seqb (lit "cfg_file") (CStr path) defaults) (split_on (ascii_of_nat 10) text).
(** __main__.py:120-126, 134: chdir, makedirs of outDir, opening of the log file.  None: OSError; else the working directory.
    makedirs fails for the empty name; the log file needs its directory. *)
Definition enter (y : system) (cfg_file : str) (c : cfg) (lf : str) : option str :=
  match dirname cfg_file with
  | [] => None
  | d =>
    let cwd := path_join (y_cwd y) d in
    if negb (y_dir y cwd) then None
    else match c_outdir c with
         | [] => None
         | _ => if existsb (ceqb slash) lf && negb (y_dir y (path_join cwd (dirname (c_logfile c)))) then None else Some cwd
         end
  end.
(** The whole program: the directory the run takes place in, if it comes to that, and what it leaves there.  The paths of the
    files [f] are those the run uses, that is relative to this directory.  The log file is not among them. *)
Definition program (y : system) (a : args) (f : fs) : option str * outcome :=
  let stop e := (None, mkOutcome f [] 0 (Some e)) in
  if a_version a then stop SystemExit
  else
    let path := match a_rcfile a with Some p => p | None => lit "./tecs.cfg" end in
    match y_read y (path_join (y_cwd y) path) with
    | None => stop CfgError
    | Some text =>
      match (do st <- read_named path text; do c <- convert (y_env y) st;
             do v <- setting st (lit "cfg_file"); do cf <- as_str v;
             do v <- setting st (lit "logFile"); do lf <- as_str v; Ok (c, cf, lf)) with
      | Err e => stop e
      | Ok (c, cf, lf) =>
        match enter y cf c lf with
        | None => stop OSError
        | Some cwd => (Some cwd, full_main (a_save a) (fun d => y_dir y (path_join cwd d)) (seen_from cwd (y_world y c)) c f)
        end
      end
    end.
