(** Specification of the configuration file, independent of the reader: a file is a list of lines,
    each blank, a comment, or an assignment "name = value" perhaps followed by a comment. *)
From Verif Require Import Base PyStr PyPath S_Text M_Rec S_Rec M_Cfg.
Open Scope nat_scope.

Inductive cline :=
| Blank (w : str)
| Comment (t : str)
| Assign (w1 name w2 w3 value w4 : str) (comment : option str).

(** the text of a line *)
Definition line_text (l : cline) : str :=
  match l with
  | Blank w => w
  | Comment t => "#"%char :: t
  | Assign w1 n w2 w3 v w4 c =>
    w1 ++ n ++ w2 ++ ["="%char] ++ w3 ++ v ++ w4 ++ match c with None => [] | Some t => "#"%char :: t end
  end.

Definition newline : ascii := ascii_of_nat 10.
Definition absent (c : ascii) (s : str) : Prop := ~ In c s.
(** no white space at either end *)
Definition trimmed (s : str) : Prop :=
  (forall c r, s = c :: r -> is_space c = false) /\ (forall r c, s = r ++ [c] -> is_space c = false).
Definition line_ok (l : cline) : Prop :=
  absent newline (line_text l) /\
  match l with
  | Blank w => white w
  | Comment t => True
  | Assign w1 n w2 w3 v w4 c =>
    white w1 /\ white w2 /\ white w3 /\ white w4 /\
    Forall (fun c => is_space c = false) n /\ absent "="%char n /\ absent "#"%char n /\
    trimmed v /\ absent "="%char v /\ absent "#"%char v
  end.

(** the lines with a line end between them *)
Fixpoint file_text (ls : list cline) : str :=
  match ls with
  | [] => []
  | [l] => line_text l
  | l :: r => line_text l ++ [newline] ++ file_text r
  end.

(** the last non-empty value assigned to a name *)
Fixpoint assigned (name : str) (ls : list cline) : option str :=
  match ls with
  | [] => None
  | l :: r =>
    match assigned name r with
    | Some v => Some v
    | None =>
      match l with
      | Assign _ n _ _ v _ _ => if seqb n name then match v with [] => None | _ => Some v end else None
      | _ => None
      end
    end
  end.

(** The variables and their defaults, as text (empty list of priorities: empty text). *)
Definition default_text : list (str * str) :=
  [(lit "obsDir", lit "./obs"); (lit "navDir", lit "./nav"); (lit "outDir", lit "./out");
   (lit "navPriorityGPS", []); (lit "navPriorityGLO", []); (lit "navPriorityGEO", []);
   (lit "samplingInterval", lit "0"); (lit "navIgnoreAbsence", lit "False");
   (lit "outFileMode", lit "text"); (lit "recFields", lit "datetime, el, az, tec.l1l2, validity");
   (lit "datetimeFormat", lit "%Y-%j %H:%M:%S"); (lit "logLevel", lit "DEBUG"); (lit "logFile", lit "tecs.log")].
(** the text of a variable: assigned or default *)
Definition value_of (ls : list cline) (name : str) : str :=
  match assigned name ls with
  | Some v => v
  | None => match dict_get seqb name default_text with Some v => v | None => [] end
  end.

(** [s] is v, or v between two equal quotes; v has no quote and no backslash *)
Definition quotable (s v : str) : Prop :=
  absent "'"%char v /\ absent """"%char v /\ absent "\"%char v /\
  (s = v \/ s = ["'"%char] ++ v ++ ["'"%char] \/ s = [""""%char] ++ v ++ [""""%char]).

(** items separated by commas *)
Definition items (s : str) : list str := split_on ","%char s.
Definition without_space (s : str) : str := filter (fun c => negb (is_space c)) s.
(** every name in the list is a documented column (or all) *)
Definition known_fields (l : list str) : Prop :=
  In (lit "all") l \/ Forall (fun f => In f field_names) l.
Definition log_levels : list str := map lit ["DEBUG"; "INFO"; "WARNING"; "ERROR"; "CRITICAL"]%string.

(** The values are acceptable. *)
Record good_values (ls : list cline) (fields outdir dtformat : str) (seconds : Z) : Prop := {
  gv_level : In (upper (value_of ls (lit "logLevel"))) log_levels;
  gv_fields : quotable (value_of ls (lit "recFields")) fields;
  gv_known : known_fields (items (without_space (lower fields)));
  gv_outdir : quotable (value_of ls (lit "outDir")) outdir;
  gv_dt : quotable (value_of ls (lit "datetimeFormat")) dtformat;
  gv_mode : lower (value_of ls (lit "outFileMode")) = lit "text";
  gv_samp : digits (value_of ls (lit "samplingInterval")) /\
            dec_value (value_of ls (lit "samplingInterval")) = seconds /\ (seconds < 1000000)%Z }.

Definition priority (s : str) : list str := match s with [] => [] | _ => items (without_space s) end.

(** The configuration agrees with the values. *)
Record cfg_of (e : cfg_env) (ls : list cline) (fields outdir dtformat : str) (seconds : Z) (c : cfg) : Prop := {
  co_level : c_level c = upper (value_of ls (lit "logLevel"));
  co_fields : compose_rec_format (now_len e dtformat) (items (without_space (lower fields))) = Ok (c_format c);
  co_obs : c_obsdir c = map strip (items (value_of ls (lit "obsDir")));
  co_nav : c_navdir c = map strip (items (value_of ls (lit "navDir")));
  co_out : c_outdir c = outdir;
  co_dt : c_dtformat c = dtformat;
  co_gps : c_gps c = priority (value_of ls (lit "navPriorityGPS"));
  co_glo : c_glo c = priority (value_of ls (lit "navPriorityGLO"));
  co_geo : c_geo c = priority (value_of ls (lit "navPriorityGEO"));
  co_ign : c_ignore c = is_prefix (lit "true") (lower (value_of ls (lit "navIgnoreAbsence")));
  co_log : c_logfile c = path_join outdir (value_of ls (lit "logFile"));
  co_samp : c_sampling c = if (seconds =? 0)%Z then None else Some (seconds * 1000000)%Z }.
