(** Model of tecs/rinex/nmutils.py: choosing the navigation file and the ephemeris. *)
From Verif Require Import Base PyStr PyFloat PyDate PyPath M_Names M_Nav.
Open Scope nat_scope.

(** nmutils.py:49-70 get_week_sec.  days and seconds of the timedelta; microseconds are not used. *)
Definition f7 : float := float_of_Z 7.
Definition get_week_sec (epoch epoch_start : datetime) : res float :=
  let d := dt_sub epoch epoch_start in
  let days := (d / us_per_day)%Z in
  let seconds := (d mod us_per_day / us_per_sec)%Z in
  do gps_week <- fdiv (float_of_Z days) f7;
  do i <- float_to_int gps_week;
  Ok (fadd (fmul (fsub gps_week (float_of_Z i)) (float_of_Z 604800)) (float_of_Z seconds)).

(** nmutils.py:235-248: the start of the weeks; sat/gps.py:33 *)
Definition epoch_start (system : ascii) : option datetime :=
  match system with
  | "G"%char => Some (mkDT 1980 1 6 0 0 0 0)
  | "C"%char => Some (mkDT 2006 1 1 0 0 0 0)
  | "E"%char => Some (mkDT 1999 8 22 0 0 13 0)
  | _ => None
  end.

(** re.compile(p, re.I).search(f) for a pattern of letters and digits: [p] occurs in [f], ignoring case *)
Definition search_ci (p f : str) : bool := contains (lower p) (lower f).
(** nmutils.py:123-133 get_prior_file *)
Fixpoint prior_query (files priority : list str) : option str :=
  match priority with
  | [] => hd_error files
  | q :: r => match find (search_ci q) files with Some f => Some f | None => prior_query files r end
  end.
Definition get_prior_file (files priority : list str) : option str :=
  match files with [] => None | _ => prior_query files priority end.

(** nmutils.py:136-184 load_navigation_message: the name of the file and its message.  [ls] is
    os.listdir, [content] the lines of a file as expand_nav delivers them, or its exception. *)
Definition load_navigation_message (ls : str -> list str) (content : str -> res (list str)) (paths : list str) (epoch : datetime)
    (system : ascii) (priority : list str) : res (str * message) :=
  let own := find_nav_files ls paths epoch system in
  let nav_files := match own with [] => find_nav_files ls paths epoch "M"%char | _ => own end in
  do found_nav <- of_option NMError
    (match priority with [] => hd_error nav_files | _ => get_prior_file nav_files priority end);
  do lines <- content found_nav;
  do m <- nav_file found_nav lines;
  match dict_get ceqb system m with
  | Some _ => Ok (found_nav, m)
  | None => Err NMError
  end.

(** seconds from the start of the day, to the whole second *)
Definition whole_sec (t : tod) : Z := let '(h, m, s, _) := t in (h * 3600 + m * 60 + s)%Z.
(** the order of datetime.time *)
Definition tod_num (t : tod) : Z := let '(h, m, s, u) := t in (((h * 60 + m) * 60 + s) * 1000000 + u)%Z.
Fixpoint insert_tod (t : tod) (l : list tod) : list tod :=
  match l with
  | [] => [t]
  | x :: r => if (tod_num x <? tod_num t)%Z then x :: insert_tod t r else t :: l
  end.
(** sorted() *)
Definition sort_tod (l : list tod) : list tod := fold_right insert_tod [] l.

(** nmutils.py:271-291 [dt], in seconds *)
Definition sel_window (system : ascii) : option Z :=
  match system with
  | "G"%char | "C"%char => Some 7200%Z
  | "E"%char => Some 10800%Z
  | "R"%char => Some 900%Z
  | "S"%char => Some 256%Z
  | _ => None
  end.
(** nmutils.py:293-311: the loop over message_times *)
Fixpoint sel_loop (week_second : option float) (w obs : Z) (times : list tod) (msgs : sat_message) : option (float * list float) :=
  match times with
  | [] => None
  | mt :: r =>
    let diff := Z.abs (obs - whole_sec mt) in
    let ier := if (whole_sec mt <? obs)%Z then 1%Z else (-1)%Z in
    if (diff <=? w)%Z then
      match dict_get tod_eqb mt msgs with
      | Some e => Some (match week_second with Some ws => ws | None => fmul (float_of_Z diff) (float_of_Z ier) end, e)
      | None => None
      end
    else sel_loop week_second w obs r msgs
  end.
(** nmutils.py:193-311 select_navigation_message; message[system] may be None *)
Definition select_navigation_message (epoch : datetime) (system : ascii) (number : Z) (message : list (ascii * option sys_message))
    (first_msg : bool) : res (option (float * list float)) :=
  match dict_get ceqb system message with
  | None | Some None => Ok None
  | Some (Some sats) =>
    match dict_get Z.eqb number sats with
    | None => Ok None                       (* covers message[system] = {} *)
    | Some msgs =>
      do week_second <- match epoch_start system with
                        | Some st => do w <- get_week_sec epoch st; Ok (Some w)
                        | None => Ok None
                        end;
      let time := dt_time epoch in
      let times := sort_tod (map fst msgs) in
      match dict_get tod_eqb time msgs with
      | Some e => Ok (Some (match week_second with Some ws => ws | None => fzero end, e))
      | None =>
        match sel_window system with
        | None => Err PlainException
        | Some w =>
          if (ceqb system "G" || ceqb system "C") && first_msg then
            do mt <- of_option IndexError (nth_error times 0);
            do e <- of_option KeyError (dict_get tod_eqb mt msgs);
            Ok (Some (match week_second with Some ws => ws | None => fzero end, e))
          else Ok (sel_loop week_second w (whole_sec time) times msgs)
        end
      end
    end
  end.
