(** A reference program without the dictionaries kept over the run: for every record the navigation file is looked for and
    read again, and the satellite's position is computed again.  It remembers, within one file, only which systems had a
    record before and the site's position.  The parts that do not touch the dictionaries (site, view, row) are those of M_Main. *)
From Verif Require Import Base PyStr PyFloat PyDate PyPath M_Common M_Header M_Obs2 M_Rec M_Text M_Cfg M_Label M_Names M_Xyz M_Nav M_NmUtils M_Num M_Tec M_Sat M_Main S_Main.
Open Scope nat_scope.

(** the navigation file and the messages of the system; nothing when there is none or it cannot be read *)
Definition fresh_nav (w : world) (c : cfg) (t : datetime) (sys : ascii) : res (option str * option sys_message) :=
  match load_navigation_message (w_ls w) (w_nav w) (c_navdir c) t sys (preferred c sys) with
  | Ok (f, m) => Ok (Some f, dict_get ceqb sys m)
  | Err RinexError | Err NMError => Ok (None, None)
  | Err e => Err e
  end.
(** what is known of the satellite: nothing, or its position and for GLONASS the two frequencies and the channel; None when
    the position cannot be computed *)
Definition fresh_sat (w : world) (t : datetime) (sys : ascii) (n : Z) (m : option sys_message)
  : res (option (option xyz * option (float * float * float))) :=
  do sel <- select_navigation_message t sys n [(sys, m)] true;
  match sel with
  | None => Ok (Some (None, None))
  | Some (dt, eph) =>
    match motion w sys eph dt with
    | Ok p =>
      if Ascii.eqb sys "R" then
        do k <- of_option IndexError (nth_error eph 7);
        do _ <- of_option IndexError (nth_error eph 3);
        Ok (Some (Some p, Some (glo_f1 (Fops (w_libm w)) k, glo_f2 (Fops (w_libm w)) k, k)))
      else Ok (Some (Some p, None))
    | Err ZeroDivisionError | Err OverflowError => Ok None
    | Err e => Err e
    end
  end.
(** without GLONASS frequencies no frequency is looked up *)
Definition known (glo : option (float * float * float)) : float * float * float := match glo with Some g => g | None => (fzero, fzero, fzero) end.
(** the calls of the writer for a record, given the navigation file's name and what is known of the satellite *)
Definition fresh_row (w : world) (c : cfg) (xyzs : list (datetime * xyz)) (latest_pos : res xyz) (site : xyz * xyz)
    (s : step) (t : datetime) (sys : ascii) (n : Z) (nav : option str) (cur : option xyz) (glo : option (float * float * float))
  : res (xyz * xyz * list wop) :=
  do l <- site_step w xyzs (mkLocal [] (fst site) (snd site)) s t;
  do last <- latest_pos;
  let pos := if same_xyz (l_xyz l) last then [] else [WPos t (l_xyz l) (l_lbh l)] in
  do v <- view w c (l_xyz l) cur sys;
  match v with
  | None => Ok ((l_xyz l, l_lbh l), pos)
  | Some v =>
    do r <- row_step w c nav (Some (known glo)) l s t sys n v;
    Ok ((l_xyz l, l_lbh l), pos ++ match r with Some op => [op] | None => [] end)
  end.
(** one record: the systems seen, the site and its geodetic coordinates, the calls of the writer *)
Definition fresh_body (w : world) (c : cfg) (xyzs : list (datetime * xyz)) (latest_pos : res xyz) (seen : list ascii) (site : xyz * xyz)
    (s : step) (t : datetime) (sys : ascii) (n : Z) : res (list ascii * (xyz * xyz) * list wop) :=
  do (nav, m) <- fresh_nav w c t sys;
  let first := negb (existsb (Ascii.eqb sys) seen) in
  let seen := if first then sys :: seen else seen in
  match nav, first with
  | None, true => Ok (seen, site, [])
  | _, _ =>
    do got <- fresh_sat w t sys n m;
    match got with
    | None => Ok (seen, site, [])
    | Some (cur, glo) =>
      do (site, ops) <- fresh_row w c xyzs latest_pos site s t sys n nav cur glo;
      Ok (seen, site, ops)
    end
  end.

Fixpoint fresh_loop (w : world) (c : cfg) (b : obs) (xyzs : list (datetime * xyz)) (si : option Z) (last : option datetime)
    (seen : list ascii) (site : xyz * xyz) (st : fs * writer) (steps : list step) : (fs * writer) * list wop * option exn :=
  match steps with
  | [] => (st, [], match b_end b with GStop | GRaise RinexError => None | GRaise e => Some e end)
  | s :: r =>
    match record_ident s with
    | Err e => (st, [], Some e)
    | Ok (t, sys, n) =>
      match accept (b_date b) si last t sys with
      | None => fresh_loop w c b xyzs si last seen site st r
      | Some last' =>
        match fresh_body w c xyzs (latest (w_xyz (snd st))) seen site s t sys n with
        | Err e => (st, [], Some e)
        | Ok (seen', site', ops) =>
          match do_ops (out_of w c) st ops with
          | Err e => (st, [], Some e)
          | Ok st' =>
            let '(st'', os, e) := fresh_loop w c b xyzs si last' seen' site' st' r in
            (st'', ops ++ os, e)
          end
        end
      end
    end
  end.
Definition fresh_file (w : world) (c : cfg) (f : fs) (name : str) : fs * list wop * option exn :=
  match open_obs w name with
  | Err RinexError | Err UncompressError => (f, [], None)
  | Err e => (f, [], Some e)
  | Ok b =>
    match file_start w c b with
    | Err e => (f, [], Some e)
    | Ok None => (f, [], None)
    | Ok (Some (xyzs, si, l, iv, pos)) =>
      match do_op (out_of w c) (f, new_writer name iv) pos with
      | Err e => (f, [], Some e)
      | Ok st => let '(st', os, e) := fresh_loop w c b xyzs si None [] (l_xyz l, l_lbh l) st (b_steps b) in (fst st', pos :: os, e)
      end
    end
  end.
Fixpoint fresh_files (w : world) (c : cfg) (f : fs) (names : list str) : fs * list (str * list wop) * option exn :=
  match names with
  | [] => (f, [], None)
  | name :: r =>
    let '(f', os, e) := fresh_file w c f name in
    match e with
    | Some _ => (f', [(name, os)], e)
    | None => let '(f'', log, e') := fresh_files w c f' r in (f'', (name, os) :: log, e')
    end
  end.
Definition fresh_main (w : world) (c : cfg) (f : fs) : fs * list (str * list wop) * option exn :=
  match sort_str (find_files (w_ls w) (c_obsdir c) RE_OBS) with
  | [] => (f, [], Some SystemExit)
  | names => fresh_files w c f names
  end.
(** no record of any file has an ephemeris whose position cannot be computed *)
Definition always_computable (w : world) (c : cfg) : Prop :=
  forall name b s t sys n, open_obs w name = Ok b -> In s (b_steps b) -> identifies s t sys n -> In sys systems ->
    ~ incomputable w c t sys n.
