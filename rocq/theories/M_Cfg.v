(** Model of tecs/config.py (Configuration) and tecs/gtb/config.py (Cfg.read_cfg). *)
From Verif Require Import Base PyStr PyFloat PyDate PyStrftime PyPath M_Common M_Rec.
Open Scope nat_scope.

(** A setting: text read from the file or a default of another type. *)
Inductive cfgval := CStr (s : str) | CInt (z : Z) | CFloat (f : float) | CBool (b : bool) | CList (l : list str).

(** gtb/config.py:48-69 DEFAULTS (DRF is composed of the names in label.py) *)
Definition defaults : list (str * cfgval) :=
  [(lit "cfg_file", CStr (lit "./tecs.cfg"));
   (lit "obsDir", CStr (lit "./obs"));
   (lit "navDir", CStr (lit "./nav"));
   (lit "outDir", CStr (lit "./out"));
   (lit "navPriorityGPS", CList []);
   (lit "navPriorityGLO", CList []);
   (lit "navPriorityGEO", CList []);
   (lit "samplingInterval", CInt 0);
   (lit "navIgnoreAbsence", CBool false);
   (lit "elNanValue", CFloat (float_of_Z (-9999)));
   (lit "azNanValue", CFloat (float_of_Z (-9999)));
   (lit "outFileMode", CStr (lit "text"));
   (lit "recFields", CStr (lit "datetime, el, az, tec.l1l2, validity"));
   (lit "datetimeFormat", CStr (lit "%Y-%j %H:%M:%S"));
   (lit "logLevel", CStr (lit "DEBUG"));
   (lit "logFile", CStr (lit "tecs.log"))].

Definition settings := list (str * cfgval).

(** re.sub('#.*', '', line) for a line without line ends *)
Fixpoint drop_comment (s : str) : str :=
  match s with
  | [] => []
  | c :: r => if ceqb c "#"%char then [] else c :: drop_comment r
  end.
(** re.sub('\s+', '', s) *)
Definition drop_space (s : str) : str := filter (fun c => negb (is_space c)) s.

(** config.py:143-167: one line.  re.split('=', line, 2) gives at most 3 parts and the unpacking
    into (name, val) raises ValueError unless there are exactly 2, that is exactly one '='. *)
Definition read_line (st : settings) (line : str) : res settings :=
  let line := drop_comment (rstrip line) in
  match line with
  | [] => Ok st
  | _ =>
    match split_on "="%char line with
    | [name; val] =>
      let name := drop_space name in
      let val := strip val in
      match val with
      | [] => Ok st
      | _ => match dict_get seqb name st with
             | Some _ => Ok (dict_set seqb name (CStr val) st)
             | None => Ok st
             end
      end
    | _ => Err ValueError
    end
  end.

Fixpoint read_lines (st : settings) (l : list str) : res settings :=
  match l with
  | [] => Ok st
  | a :: r => do st' <- read_line st a; read_lines st' r
  end.

(** config.py:130-169 Configuration.read_cfg on the text of the file (line ends already translated
    to newline by open(..., 'r')).  Splitting at the line ends gives the lines the iteration gives,
    except their ends, which rstrip removes, and a last empty line, which has no effect.
    The failure to open the file is not modelled. *)
Definition read_settings (text : str) : res settings := read_lines defaults (split_on (ascii_of_nat 10) text).

(** config.py:74-82 _get_bool: re 'True' with re.I matched at the start; TypeError on a non-string *)
Definition get_bool (v : cfgval) : res bool :=
  match v with CStr s => Ok (is_prefix (lit "true") (lower s)) | _ => Err TypeError end.

(** [ev] stands for eval('r' + s) of a text that is not a simple quoted string, [e_now] for datetime.now(), [e_other] for
    strftime with codes outside PyStrftime. *)
Record cfg_env := mkEnv { ev : str -> res str; e_now : datetime; e_other : str -> datetime -> str }.
(** config.py:170-172: the length of datetime.now().strftime(datetimeFormat) *)
Definition now_len (e : cfg_env) (dtf : str) : nat := List.length (strftime (e_other e dtf) dtf (e_now e)).

Definition is_quote (c : ascii) : bool := ceqb c """"%char || ceqb c "'"%char.
Definition last_c (s : str) : option ascii := match rev s with c :: _ => Some c | [] => None end.
(** A literal q...q whose body has neither the quote q nor a backslash: evaluates to its body *)
Definition simple_quoted (s : str) : option str :=
  match s with
  | q :: r =>
    match last_c r with
    | Some q' =>
      let body := removelast r in
      if is_quote q && ceqb q q' && forallb (fun c => negb (ceqb c q) && negb (ceqb c "\"%char)) body then Some body else None
    | None => None
    end
  | [] => None
  end.
(** config.py:84-93 _get_str.  The pattern (quote, anything, quote) matches at the start when the first
    character is a quote and a later one is a quote. *)
Definition get_str (e : cfg_env) (s : str) : res str :=
  match s with
  | q :: r =>
    if is_quote q && existsb is_quote r then
      match simple_quoted s with Some b => Ok b | None => ev e s end
    else Ok s
  | [] => Ok s
  end.
(** config.py:95-100 _get_path *)
Definition get_path (e : cfg_env) (s : str) : res str := get_str e (replace_c "\"%char "/"%char s).

(** methods of str on a setting that is not one *)
Definition as_str (v : cfgval) : res str := match v with CStr s => Ok s | _ => Err AttributeError end.
Definition setting (st : settings) (name : str) : res cfgval := of_option KeyError (dict_get seqb name st).

(** gtb/config.py:207-227 get_log_level *)
Definition levels : list str := [lit "DEBUG"; lit "INFO"; lit "WARNING"; lit "ERROR"; lit "CRITICAL"].
Definition get_log_level (s : str) : res str :=
  let u := upper s in if existsb (seqb u) levels then Ok u else Err CfgError.

(** futils.py:322-336 get_dir_list *)
Definition get_dir_list (s : str) : list str := map lstrip (map rstrip (split_on ","%char s)).

(** gtb/config.py:175-190: a list of priorities; () unless the setting is truthy *)
Definition get_priority (v : cfgval) : res (list str) :=
  match v with
  | CList [] => Ok []
  | CStr [] => Ok []
  | CStr s => Ok (split_on ","%char (drop_space s))
  | _ => Err TypeError
  end.

(** float(samplingInterval) *)
Definition to_float (v : cfgval) : res float :=
  match v with
  | CStr s => py_float s
  | CInt z => Ok (float_of_Z z)
  | CFloat f => Ok f
  | CBool b => Ok (float_of_Z (if b then 1 else 0))
  | CList _ => Err TypeError
  end.
(** gtb/config.py:196-205: the interval in microseconds, None for 0.
    timedelta raises OverflowError beyond 999999999 days. *)
Definition get_sampling (v : cfgval) : res (option Z) :=
  do si <- to_float v;
  do (s, us) <- sec2sec_ms si;
  if ftruth si then
    let t := (s * 1000000 + us)%Z in
    if (Z.abs (t / (86400 * 1000000)) <=? 999999999)%Z then Ok (Some t) else Err OverflowError
  else Ok None.

Record cfg := mkCfg {
  c_level : str; c_format : rec_format; c_obsdir : list str; c_navdir : list str; c_outdir : str;
  c_dtformat : str; c_gps : list str; c_glo : list str; c_geo : list str;
  c_ignore : bool; c_logfile : str; c_sampling : option Z }.

(** gtb/config.py:132-205 read_cfg after the file has been read, in the order of the code *)
Definition convert (e : cfg_env) (st : settings) : res cfg :=
  do v <- setting st (lit "logLevel"); do s <- as_str v; do level <- get_log_level s;
  do v <- setting st (lit "recFields"); do s <- as_str v; do s <- get_str e s;
  let fields := split_on ","%char (drop_space (lower s)) in
  do v <- setting st (lit "obsDir"); do s <- as_str v; let obsdir := get_dir_list s in
  do v <- setting st (lit "navDir"); do s <- as_str v; let navdir := get_dir_list s in
  do v <- setting st (lit "outDir"); do s <- as_str v; do outdir <- get_path e s;
  do v <- setting st (lit "datetimeFormat"); do s <- as_str v; do dtf <- get_str e s;
  do v <- setting st (lit "outFileMode"); do s <- as_str v;
  if negb (seqb (lower s) (lit "text")) then Err CfgError else
  do fmt <- compose_rec_format (now_len e dtf) fields;
  do v <- setting st (lit "navPriorityGPS"); do gps <- get_priority v;
  do v <- setting st (lit "navPriorityGLO"); do glo <- get_priority v;
  do v <- setting st (lit "navPriorityGEO"); do geo <- get_priority v;
  do v <- setting st (lit "navIgnoreAbsence"); do ign <- get_bool v;
  do v <- setting st (lit "logFile"); do lf <- as_str v;
  do v <- setting st (lit "samplingInterval"); do si <- get_sampling v;
  Ok (mkCfg level fmt obsdir navdir outdir dtf gps glo geo ign (path_join outdir lf) si).

(** gtb/config.py:132-205 Cfg.read_cfg *)
Definition read_cfg (e : cfg_env) (text : str) : res cfg := do st <- read_settings text; convert e st.
