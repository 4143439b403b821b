(** C62-C68: whole runs.  [full_main save isdir w c f] is what a run leaves: the files, the calls of the writers, the number of
    errors counted and the exception that stops it; [program y a f] is the program from its start. *)
From Coq Require Import Sorting.Sorted Sorting.Permutation.
From Verif Require Import Base PyStr PyFloat PyDate PyPath PyRegex M_Common M_Header M_Obs2 M_Rec M_Text M_Cfg M_Label M_Names M_Xyz M_Nav M_NmUtils M_Num M_Tec M_Sat M_Main M_Run.
From Verif Require Import S_Time S_Obs2 S_Open2 S_Out S_Names S_Xyz S_Label S_Rec S_Cfg T_Cfg S_Main S_Fresh S_Run E_Obs2 E_Main P_Run5 P_Run6 P_Run7 P_Run8 E_Run.
Open Scope nat_scope.

(** C62.  A run that ends announces errors only if something went wrong, and always if something did; missing: a navigation file
    that cannot be read (refuted below). *)
Theorem C62_errors_partial : forall isdir w c f, dirs_exist isdir c -> let o := full_main false isdir w c f in
  o_exn o = None -> (announces_errors o = true -> may_fail w c) /\ (must_fail w c -> announces_errors o = true).
Proof. exact announced_errors. Qed.
Print Assumptions C62_errors_partial.
Theorem C62_refuted : exists w c name b s t sys n, found w c name /\ open_obs w name = Ok b /\ suitable b /\ In s (b_steps b) /\ usable (b_date b) s /\ identifies s t sys n /\
  used c b (b_steps b) /\
  load_navigation_message (w_ls w) (w_nav w) (c_navdir c) t sys (preferred c sys) = Err RinexError /\
  announces_errors (full_main false every w c []) = false.
Proof. exact badnav. Qed.
Print Assumptions C62_refuted.
Example C62_example : must_fail w_bad (e_cfg true None) /\ stopped_by w_bad (e_cfg true None) [] = None /\ dirs_exist every (e_cfg true None) /\
  e_run false w_clean (e_cfg true None) = ([g1_out], 0, None).
Proof. exact (conj bad_must (conj (proj1 bad_count) (conj (fun d _ => eq_refl) clean_count))). Qed.

(** C63.  --save-coordinates: no results, no other file changed; coordinates.txt holds the lines of the suitable files, in the order
    of their names; up to the file that stops the program, if one does. *)
Theorem C63_saved : forall isdir w c f, (forall d, In d (c_obsdir c) -> isdir d = true) -> find_files (w_ls w) (c_obsdir c) RE_OBS <> [] ->
  let o := full_main true isdir w c f in
  o_log o = [] /\ (forall p, p <> lit "coordinates.txt" -> fs_get p (o_files o) = fs_get p f) /\
  exists did rest lines, Permutation (find_files (w_ls w) (c_obsdir c) RE_OBS) (did ++ rest) /\ StronglySorted str_le (did ++ rest) /\
    coordinates_lines w did lines /\ fs_get (lit "coordinates.txt") (o_files o) = Some (concat lines) /\ (o_exn o = None <-> rest = []).
Proof. exact saved_run. Qed.
Print Assumptions C63_saved.
Theorem C63_nothing : forall isdir w c f, (exists d, In d (c_obsdir c) /\ isdir d = false) \/ find_files (w_ls w) (c_obsdir c) RE_OBS = [] ->
  let o := full_main true isdir w c f in o_files o = f /\ o_log o = [] /\ o_exn o <> None.
Proof. exact saved_nothing. Qed.
Print Assumptions C63_nothing.
Example C63_example : let o := full_main true every w_crd (e_cfg true None) [(lit "a.txt", lit "text"); (lit "coordinates.txt", lit "old")] in
  o_files o = [(lit "a.txt", lit "text"); (lit "coordinates.txt", lit "site; 359.9999982002433; 73.23531921210753" ++ [ascii_of_nat 10])] /\ o_exn o = None /\ o_errors o = 2.
Proof. exact crd_run. Qed.

(** C64.  The program works in the directory of the configuration file with the settings of that file; missing: a path without a
    directory part (refuted below). *)
Theorem C64_start_partial : forall y a f ls fields outdir dtf secs dir0 x base,
  a_version a = false -> rcfile a = (dir0 ++ [x]) ++ "/"%char :: base -> x <> "/"%char -> absent "/"%char base ->
  let dir := path_join (y_cwd y) (dir0 ++ [x]) in
  y_read y (dir ++ "/"%char :: base) = Some (file_text ls) -> Forall line_ok ls ->
  assigned (lit "navIgnoreAbsence") ls <> None -> assigned (lit "cfg_file") ls = None -> good_values ls fields outdir dtf secs ->
  y_dir y dir = true -> outdir <> [] -> absent "/"%char (value_of ls (lit "logFile")) ->
  exists c w, cfg_of (y_env y) ls fields outdir dtf secs c /\ found_in dir (y_world y c) w /\
    program y a f = (Some dir, full_main (a_save a) (fun p => y_dir y (path_join dir p)) w c f).
Proof. exact start_spec. Qed.
Print Assumptions C64_start_partial.
(** It does not matter from where it is called and how the path is written. *)
Theorem C64_place_partial : forall y cwd' a a' f ls fields outdir dtf secs dir0 x base dir0' x' base',
  a_version a = false -> a_version a' = false -> a_save a = a_save a' ->
  rcfile a = (dir0 ++ [x]) ++ "/"%char :: base -> x <> "/"%char -> absent "/"%char base ->
  rcfile a' = (dir0' ++ [x']) ++ "/"%char :: base' -> x' <> "/"%char -> absent "/"%char base' ->
  path_join (y_cwd y) (rcfile a) = path_join cwd' (rcfile a') ->
  y_read y (path_join (y_cwd y) (rcfile a)) = Some (file_text ls) -> Forall line_ok ls ->
  assigned (lit "navIgnoreAbsence") ls <> None -> assigned (lit "cfg_file") ls = None -> good_values ls fields outdir dtf secs ->
  y_dir y (path_join (y_cwd y) (dir0 ++ [x])) = true -> outdir <> [] -> absent "/"%char (value_of ls (lit "logFile")) ->
  program (at_dir y cwd') a' f = program y a f.
Proof. exact start_place. Qed.
Print Assumptions C64_place_partial.
(** A configuration file that cannot be opened or is malformed: nothing is changed. *)
Theorem C64_invalid : forall y a f,
  a_version a = true \/ y_read y (path_join (y_cwd y) (rcfile a)) = None \/
    (exists text e, y_read y (path_join (y_cwd y) (rcfile a)) = Some text /\ read_settings text = Err e) ->
  fst (program y a f) = None /\ o_files (snd (program y a f)) = f /\ o_log (snd (program y a f)) = [] /\ o_exn (snd (program y a f)) <> None.
Proof. exact (fun y a f H => conj (program_invalid y a f H) (program_none y a f (program_invalid y a f H))). Qed.
Print Assumptions C64_invalid.
(** Every acceptable configuration file named without a directory, as in -c my.cfg, ends in OSError: os.chdir of the empty name. *)
Theorem C64_bare_refuted : forall y a f ls fields outdir dtf secs, a_version a = false ->
  y_read y (path_join (y_cwd y) (rcfile a)) = Some (file_text ls) -> Forall line_ok ls ->
  assigned (lit "navIgnoreAbsence") ls <> None -> assigned (lit "cfg_file") ls = None -> good_values ls fields outdir dtf secs ->
  absent "/"%char (rcfile a) -> program y a f = (None, mkOutcome f [] 0 (Some OSError)).
Proof. exact started_bare. Qed.
Print Assumptions C64_bare_refuted.
Example C64_example : let r := program y_example a_example [] in
  fst r = Some (lit "/home/run") /\ map fst (o_files (snd r)) = [lit "./out/2012/001/aaaa/aaaa_G01_001_12.dat"] /\ o_exn (snd r) = None.
Proof. exact example_program. Qed.
Example C64_bare_example : exists y a, y_read y (path_join (y_cwd y) (rcfile a)) = Some (file_text example_file) /\ absent "/"%char (rcfile a) /\ a_version a = false.
Proof. exists (at_dir y_example (lit "/home/run")), (mkArgs false (Some (lit "my.cfg")) false). split; [reflexivity|]. split; [now apply absent_dec|reflexivity]. Qed.

(** C65.  What is written does not depend on what files there are: the same rows, the same result files; other files stay; a second
    run changes nothing. *)
Theorem C65_again : forall isdir w c f f', dirs_exist isdir c -> let o := full_main false isdir w c f in let o' := full_main false isdir w c f' in
  o_log o' = o_log o /\ o_exn o' = o_exn o /\
  (o_exn o = None ->
   (forall name ops sat d, written w c f name ops -> rows_of sat ops <> [] -> get_rinex_date name = Some d ->
      let p := result_file (c_outdir c) (marker_of name) sat d in fs_get p (o_files o) <> None /\ fs_get p (o_files o') = fs_get p (o_files o)) /\
   (forall p, (forall name ops sat d, written w c f name ops -> rows_of sat ops <> [] -> get_rinex_date name = Some d ->
        p <> result_file (c_outdir c) (marker_of name) sat d) -> fs_get p (o_files o) = fs_get p f) /\
   (f' = o_files o -> forall p, fs_get p (o_files o') = fs_get p (o_files o))).
Proof. exact run_again. Qed.
Print Assumptions C65_again.
Example C65_example : stopped_by w_clean (e_cfg true None) [(g1_out, lit "old")] = None /\
  exists text, fst (fst (main w_clean (e_cfg true None) [(g1_out, lit "old")])) = [(g1_out, text)] /\ text <> lit "old".
Proof. exact again_run. Qed.

(** C66.  The order in which directories list their entries does not matter, if for no day and system there are two navigation
    files, or the directories of the navigation files keep their order. *)
Theorem C66_order_partial : forall save isdir w c ls f,
  (forall d, In d (c_obsdir c) \/ In d (c_navdir c) -> Permutation (w_ls w d) (ls d)) ->
  (forall t sys, length (find_nav_files (w_ls w) (c_navdir c) t sys) <= 1) \/ (forall d, In d (c_navdir c) -> ls d = w_ls w d) ->
  full_main save isdir (with_ls w ls) c f = full_main save isdir w c f.
Proof. exact order_free. Qed.
Print Assumptions C66_order_partial.
(** Of two navigation files the first listed is used. *)
Theorem C66_refuted : exists w c ls, (forall d, Permutation (w_ls w d) (ls d)) /\
  o_files (full_main false every (with_ls w ls) c []) <> o_files (full_main false every w c []).
Proof. exact nav_order. Qed.
Print Assumptions C66_refuted.
Example C66_example : (forall d, Permutation (w_ls w_obs2 d) (ls_rev d)) /\ (forall d, In d (c_navdir (e_cfg true None)) -> ls_rev d = w_ls w_obs2 d) /\
  ls_rev (lit "/obs") <> w_ls w_obs2 (lit "/obs") /\ e_run false w_obs2 (e_cfg true None) = ([g1_out; lit "/out/2012/001/bbbb/bbbb_G01_001_12.dat"], 0, None).
Proof. exact obs_order. Qed.

(** C67.  A directory of obsDir that does not exist: the program stops and has changed nothing.  A directory of navDir that does not
    exist: nothing is written, and the program stops if a file has a usable record. *)
Theorem C67_obs : forall save isdir w c f, (exists d, In d (c_obsdir c) /\ isdir d = false) -> full_main save isdir w c f = mkOutcome f [] 0 (Some OSError).
Proof. exact missing_obs. Qed.
Print Assumptions C67_obs.
Theorem C67_nav : forall isdir w c f, (exists d, In d (c_navdir c) /\ isdir d = false) ->
  let o := full_main false isdir w c f in
  o_files o = f /\ o_log o = [] /\
  forall name b s, found w c name -> open_obs w name = Ok b -> suitable b -> In s (b_steps b) -> usable (b_date b) s -> o_exn o <> None.
Proof. exact missing_nav. Qed.
Print Assumptions C67_nav.
(** ... even if the absence of navigation files is to be ignored: with the directory there, and empty, there are rows. *)
Theorem C67_refuted : exists isdir w c d, In d (c_navdir c) /\ isdir d = false /\ w_ls w d = [] /\ c_ignore c = true /\
  o_exn (full_main false every w c []) = None /\ o_files (full_main false every w c []) <> [] /\
  full_main false isdir w c [] = mkOutcome [] [] 0 (Some OSError).
Proof. exact navdir_lost. Qed.
Print Assumptions C67_refuted.

(** C68.  A record of one of the five systems, of the file's day, its satellite located and in view, has its row; missing: IRNSS,
    which is listed among the systems the program processes and never has a row. *)
Theorem C68_visible_partial : forall w c f name ops b kept s t sys n pos, written w c f name ops -> ops <> [] -> stopped_by w c f = None ->
  open_obs w name = Ok b -> used c b kept -> In s kept -> identifies s t sys n -> In sys systems -> b_date b = Some (dt_date t) -> located w c t sys n pos ->
  (forall xyzs site, coordinates w c name xyzs -> site_of xyzs s t site ->
     exists el az, compute_el_az (Fops (w_libm w)) (w_fuel w) site pos = Ok (el, az) /\ fltb el fzero = false) ->
  (forall types, s_types s sys = Ok types -> record_validity types (s_rec s) <> Err LabelError) ->
  exists xyzs op, coordinates w c name xyzs /\ In op ops /\ row_for w c xyzs s op.
Proof. exact visible_row. Qed.
Print Assumptions C68_visible_partial.
Theorem C68_irnss_refuted : forall w c f name ops, written w c f name ops -> forall digits sd nav t q, ~ In (WRow ("I"%char :: digits) sd nav t q) ops.
Proof. exact no_irnss. Qed.
Print Assumptions C68_irnss_refuted.
Example C68_example : exists pos el az, located w_clean (e_cfg true None) (t_at 0 0 0 0) "G"%char 1 pos /\
  compute_el_az (Fops (w_libm w_clean)) (w_fuel w_clean) g1_site pos = Ok (el, az) /\ fltb el fzero = false.
Proof. exact g1_in_view. Qed.
