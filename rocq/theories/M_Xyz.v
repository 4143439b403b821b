(** Model of the coordinates file in tecs/rinex/futils.py. *)
From Verif Require Import Base PyStr PyFloat PyDate PyPath PyRegex M_Names.
Open Scope nat_scope.

(** os.path.dirname (Python runtime): the text before the last '/', without trailing slashes unless
    it has nothing else *)
Fixpoint head_acc (cur head p : str) : str :=
  match p with
  | [] => head
  | c :: r => if ceqb c slash then head_acc (cur ++ [c]) (cur ++ [c]) r else head_acc (cur ++ [c]) head r
  end.
Fixpoint drop_slashes (s : str) : str :=
  match s with [] => [] | c :: r => match drop_slashes r with [] => if ceqb c slash then [] else [c] | t => c :: t end end.
Definition dirname (p : str) : str :=
  let head := head_acc [] [] p in
  match drop_slashes head with [] => head | t => t end.

(** futils.py:54 *)
Definition CRD_EXT : str := lit ".xyz".
(** futils.py:339-375 find_xyz_file; [there] is os.path.exists *)
Definition find_xyz_file (there : str -> bool) (fname : str) : option str :=
  match re_search RE_OBS_WO_EXT (basename fname) with
  | None => None
  | Some m =>
    let xyz_file := path_join (dirname fname) (group 1 m) ++ CRD_EXT in
    if there xyz_file then Some xyz_file else None
  end.

(** datetime.strptime(s, '%Y-%m-%d%H:%M:%S') (Python runtime): the pattern of each directive, the
    whole text consumed, then datetime() *)
Definition rng (lo hi : ascii) : re := RChr (fun c => ((code lo <=? code c) && (code c <=? code hi))%N).
Definition alts (l : list re) : re := fold_right RAlt (RChr (fun _ => false)) l.
Definition pat_m : re := alts [RCat (chr "1"%char) (rng "0"%char "2"%char); RCat (chr "0"%char) (rng "1"%char "9"%char); rng "1"%char "9"%char].
Definition pat_d : re :=
  alts [RCat (chr "3"%char) (rng "0"%char "1"%char); RCat (rng "1"%char "2"%char) d_; RCat (chr "0"%char) (rng "1"%char "9"%char);
        rng "1"%char "9"%char; RCat (chr " "%char) (rng "1"%char "9"%char)].
Definition pat_H : re := alts [RCat (chr "2"%char) (rng "0"%char "3"%char); RCat (rng "0"%char "1"%char) d_; d_].
Definition pat_M : re := alts [RCat (rng "0"%char "5"%char) d_; d_].
Definition pat_S : re := alts [RCat (chr "6"%char) (rng "0"%char "1"%char); RCat (rng "0"%char "5"%char) d_; d_].
Definition pat_epoch : re :=
  cats [RGroup 1 (rep 4 d_); chr "-"%char; RGroup 2 pat_m; chr "-"%char; RGroup 3 pat_d; RGroup 4 pat_H; chr ":"%char; RGroup 5 pat_M;
        chr ":"%char; RGroup 6 pat_S].
Definition strptime_epoch (s : str) : res datetime :=
  match re_match pat_epoch s with
  | Some m =>
    let '(_, rest, _) := m in
    match rest with
    | [] => do y <- py_int (group 1 m); do mo <- py_int (group 2 m); do d <- py_int (group 3 m);
            do h <- py_int (group 4 m); do mi <- py_int (group 5 m); do sec <- py_int (group 6 m);
            mk_datetime y mo d h mi sec 0
    | _ => Err ValueError
    end
  | None => Err ValueError
  end.

(** re.split(r'\s+', s) *)
Fixpoint split_run (gap : bool) (cur s : str) : list str :=
  match s with
  | [] => [rev cur]
  | c :: r => if is_space c then (if gap then split_run true [] r else rev cur :: split_run true [] r)
              else split_run false (c :: cur) r
  end.
Definition re_split (s : str) : list str := split_run false [] s.
(** futils.py:402 *)
Definition is_comment (rec : str) : bool := match lstrip rec with c :: _ => ceqb c "#"%char | [] => false end.

Definition position := (float * float * float)%type.
(** futils.py:378-425 load_xyz_file *)
Definition load_xyz_line (rec0 : str) (d : list (datetime * position)) : res (list (datetime * position)) :=
  let rec := rstrip rec0 in
  if is_comment rec then Ok d
  else match rec with
  | [] => Ok d
  | _ =>
    match re_split rec with
    | [cdate; ctime; x; y; z] =>
      do epoch <- strptime_epoch (cdate ++ ctime);
      do xyz <- catch (do x <- py_float x; do y <- py_float y; do z <- py_float z; Ok (x, y, z)) [ValueError] (Err SystemExit);
      Ok (dict_set dt_eqb epoch xyz d)
    | _ => Err ValueError
    end
  end.
Fixpoint load_xyz (recs : list str) (d : list (datetime * position)) : res (list (datetime * position)) :=
  match recs with
  | [] => Ok d
  | rec :: r => do d' <- load_xyz_line rec d; load_xyz r d'
  end.
Definition load_xyz_file (recs : list str) : res (list (datetime * position)) := load_xyz recs [].
