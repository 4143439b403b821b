(** Model of tecs/rinex/futils.py (file names, dates, decompression), of the choice of the reader in
    tecs/rinex/__init__.py and of the search for navigation files in tecs/rinex/nmutils.py. *)
From Verif Require Import Base PyStr PyFloat PyDate PyPath PyRegex M_Header.
Open Scope nat_scope.

(** futils.py:45: ^\s*(\d+\.?\d* ).*RINEX VERSION / TYPE$, letter case ignored *)
Definition re_ver_num : re := cats [d_; RStar is_digit; opt (chr "."%char); RStar is_digit].
Definition RE_VER : re :=
  cats [RBol; RStar is_space; RGroup 1 re_ver_num; RStar any; text (lit "RINEX VERSION / TYPE"); REol].

(** futils.py:47 *)
Definition RE_MODERN_RINEX : re :=
  cats [RBol; RGroup 1 (rep 4 w_); rep 5 w_; chr "_"%char; one_of (lit "RSU"); chr "_"%char;
        RGroup 2 (rep 4 d_); RGroup 3 (rep 3 d_); rep 4 d_].
(** futils.py:48-49; \w{1,3} tries three characters first *)
Definition w13 : re := RCat w_ (opt (RCat w_ (opt w_))).
Definition RE_CLASSIC_RINEX : re :=
  cats [RBol; RGroup 1 (rep 4 w_); RGroup 2 (rep 3 d_); w13; chr "."%char; RGroup 3 (rep 2 d_);
        RGroup 4 (one_of (lit "odnmglphbc"))].

(** futils.py:54-56 *)
Definition RE_Z : re := cats [RGroup 1 (RStar any); chr "."%char; RGroup 2 (RAlt (text (lit "z")) (text (lit "gz"))); REol].
Definition RE_CRX : re :=
  cats [RGroup 1 (RStar any); chr "."%char; RGroup 2 (RAlt (cats [d_; d_; chr "d"%char]) (text (lit "crx")))].
Definition RE_RNX : re :=
  cats [RGroup 1 (RStar any); chr "."%char; RGroup 2 (RAlt (cats [d_; d_; chr "o"%char]) (text (lit "rnx")))].

(** futils.py:70-93 _compose_res *)
Definition arch_ext : re := cats [RAlt (text (lit ".z")) (RAlt (text (lit ".gz")) REps); REol].
Definition fnmin_obs : re :=
  cats [RBol; rep 4 w_; rep 3 d_; one_of (lit "abcdefghijklmnopqrstuvwx");
        RAlt (text (lit "00")) (RAlt (text (lit "15")) (RAlt (text (lit "30")) (text (lit "45"))));
        chr "."%char; rep 2 d_; one_of (lit "od")].
Definition daily_obs : re := cats [RBol; rep 4 w_; rep 3 d_; w_; chr "."%char; rep 2 d_; one_of (lit "od")].
Definition modern_obs : re :=
  cats [rep 9 w_; chr "_"%char; one_of (lit "RSU"); chr "_"%char; rep 11 d_; chr "_"%char; rep 3 w_; chr "_"%char; rep 3 w_;
        chr "_"%char; w_; chr "o"%char; chr "."%char; RAlt (text (lit "crx")) (text (lit "rnx"))].
Definition RE_OBS : re := RAlt (RCat fnmin_obs arch_ext) (RAlt (RCat daily_obs arch_ext) (RCat modern_obs arch_ext)).
Definition RE_OBS_WO_EXT : re := RGroup 1 (RAlt fnmin_obs (RAlt daily_obs modern_obs)).

(** futils.py:113-120 write_ascii_lines: each line of bytes decoded with errors='ignore' and written.
    [lines] are the lines of the stream (iteration splits after each newline). *)
Definition is_ascii (c : ascii) : bool := (code c <? 128)%N.
Definition decode_ignore (s : str) : str := filter is_ascii s.
Definition write_ascii_lines (lines : list str) : str := concat (map decode_ignore lines).
(** iteration over a binary stream *)
Fixpoint byte_lines_acc (cur s : str) : list str :=
  match s with
  | [] => match cur with [] => [] | _ => [rev cur] end
  | c :: r => if ceqb c newline_c then rev (c :: cur) :: byte_lines_acc [] r else byte_lines_acc (c :: cur) r
  end.
Definition byte_lines (s : str) : list str := byte_lines_acc [] s.
(** reading a file opened in text mode: \r\n and \r become \n *)
Definition cr_c : ascii := ascii_of_nat 13.
Fixpoint universal (s : str) : str :=
  match s with
  | [] => []
  | c :: r =>
    if ceqb c cr_c then
      match r with
      | c2 :: r2 => if ceqb c2 newline_c then newline_c :: universal r2 else newline_c :: universal r
      | [] => [newline_c]
      end
    else c :: universal r
  end.

(** What expand_obs does with the file.  gzip and crx2rnx are external programs. *)
Inductive plan := Plain | Gunzip | Crx | GunzipCrx | Nothing.
(** futils.py:163-253 expand_obs: the choice *)
Definition expand_plan (filename : str) : res plan :=
  if negb (re_test RE_OBS (basename filename)) then Err UncompressError
  else if re_test RE_Z filename then
    Ok (if re_test RE_RNX filename then Gunzip else if re_test RE_CRX filename then GunzipCrx else Nothing)
  else if re_test RE_CRX filename then Ok Crx
  else if re_test RE_RNX filename then Ok Plain
  else Err UncompressError.
(** The text delivered, given what the external programs write to their standard output. *)
Definition expand_text (gunzip crx gunzip_crx content : str) (p : plan) : str :=
  match p with
  | Plain => universal (decode_ignore content)
  | Gunzip => universal (write_ascii_lines (byte_lines gunzip))
  | Crx => universal (write_ascii_lines (byte_lines crx))
  | GunzipCrx => universal (write_ascii_lines (byte_lines gunzip_crx))
  | Nothing => []
  end.

(** datetime.strptime(year + '-' + yday, '%y-%j' or '%Y-%j').date() for a year of digits and a day
    of three digits.  Python runtime: %j accepts 001..366, %y maps 69..99 to 19yy and 00..68 to 20yy,
    day 366 of a common year is 1 January of the next one; None for ValueError. *)
Definition strptime_day (y j : Z) : option date :=
  if ((1 <=? j) && (j <=? 366) && (1 <=? y))%Z then
    let o := (ymd2ord y 1 1 + (j - 1))%Z in
    if (o <=? max_ordinal)%Z then Some (ord2ymd o) else None
  else None.
Definition year_y (yy : Z) : Z := (if yy <=? 68 then 2000 + yy else 1900 + yy)%Z.

(** futils.py:256-300 get_rinex_date *)
Definition get_rinex_date (filename : str) : option date :=
  let base := basename filename in
  match re_match RE_CLASSIC_RINEX base with
  | Some m => strptime_day (year_y (digits_val (group 3 m))) (digits_val (group 2 m))
  | None =>
    match re_match RE_MODERN_RINEX base with
    | Some m => strptime_day (digits_val (group 2 m)) (digits_val (group 3 m))
    | None => None
    end
  end.

(** futils.py:303-319 find_files; [ls] is os.listdir *)
Definition find_files (ls : str -> list str) (dirs : list str) (f_test : re) : list str :=
  flat_map (fun d => map (path_join d) (filter (re_test f_test) (ls d))) dirs.

(** strftime('%y') *)
Definition strf_y (t : datetime) : str := fmt_0d 2 (dy t mod 100).
(** nmutils.py:63-109 compose_navigation_re *)
Definition nav_id (system : ascii) : option ascii :=
  match system with
  | "G"%char => Some "n"%char | "R"%char => Some "g"%char | "S"%char => Some "h"%char
  | "E"%char => Some "l"%char | "M"%char => Some "p"%char | _ => None
  end.
Definition classic_nav (epoch : datetime) (letter : ascii) : re :=
  cats [RBol; RGroup 1 (rep 4 w_); text (strf_j epoch); w_; chr "."%char; text (strf_y epoch); chr letter].
Definition modern_nav (epoch : datetime) (system : ascii) : re :=
  cats [RBol; RGroup 1 (rep 4 w_); rep 5 w_; chr "_"%char; w_; chr "_"%char; text (strf_Y epoch); text (strf_j epoch); rep 4 d_;
        chr "_"%char; rep 3 w_; opt (RGroup 2 (RCat (chr "_"%char) (rep 3 w_))); chr "_"%char; chr system; chr "N"%char;
        chr "."%char; text (lit "rnx")].
Definition compose_navigation_re (system : ascii) (epoch : datetime) : re :=
  match nav_id system with
  | Some l => RAlt (classic_nav epoch l) (modern_nav epoch system)
  | None => modern_nav epoch system
  end.
(** nmutils.py:183-186 *)
Definition find_nav_files (ls : str -> list str) (paths : list str) (epoch : datetime) (system : ascii) : list str :=
  find_files ls paths (compose_navigation_re system epoch).

(** rinex/__init__.py:58-73: the table of observation readers *)
Definition obs_table : list (float * ver) :=
  [(b64_of_dec false 200 (-2), V20); (b64_of_dec false 210 (-2), V21); (b64_of_dec false 211 (-2), V211);
   (b64_of_dec false 300 (-2), V300); (b64_of_dec false 301 (-2), V301); (b64_of_dec false 302 (-2), V302);
   (b64_of_dec false 303 (-2), V303)].
(** rinex/__init__.py:34-73 obs_file: the class chosen from the first line *)
Definition obs_class (line : str) : res ver :=
  match re_match RE_VER (rstrip line) with
  | None => Err RinexError
  | Some m => do v <- py_float (group 1 m); of_option RinexError (dict_get feqb v obs_table)
  end.
(** rinex/__init__.py:100-110, Nav2 for 2.01 and Nav303 for 3.04 *)
Definition nav_table : list (float * ver) :=
  [(b64_of_dec false 200 (-2), V20); (b64_of_dec false 201 (-2), V20); (b64_of_dec false 210 (-2), V21);
   (b64_of_dec false 211 (-2), V211); (b64_of_dec false 300 (-2), V300); (b64_of_dec false 301 (-2), V301);
   (b64_of_dec false 302 (-2), V302); (b64_of_dec false 303 (-2), V303); (b64_of_dec false 304 (-2), V303)].
(** rinex/__init__.py:76-116 nav_file *)
Definition nav_class (line : str) : res ver :=
  do v <- catch (py_float (slice 0 9 line)) [ValueError] (Err RinexError);
  of_option RinexError (dict_get feqb v nav_table).
