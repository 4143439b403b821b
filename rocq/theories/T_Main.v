(** C41-C44, C51, C57-C61: runs over observation files.  [written w c f name ops]: in the run of [main w c f], [ops] are the
    calls of the writer for observation file [name]; a row is a call [WRow sat sat_def nav_file time quantities]. *)
From Verif Require Import Base PyStr PyFloat PyDate PyPath PyRegex M_Common M_Header M_Obs2 M_Rec M_Text M_Cfg M_Label M_Names M_Xyz M_Nav M_NmUtils M_Num M_Tec M_Sat M_Main.
From Verif Require Import S_Time S_Obs2 S_Open2 S_Out W_Obs2 E_Obs2 E_Obs3 S_Names S_Xyz S_Label S_Main S_Fresh P_Main4 P_Main7 P_Main8 P_Main9 P_Main10 P_Main11 P_Main12 P_Main13 S_Run S_Alone P_Alone E_Main E_Main2 E_Alone.
Open Scope nat_scope.

(** C41.  Every row is of a record that is used ... *)
Theorem C41_rows : forall w c f name ops b kept, written w c f name ops -> open_obs w name = Ok b -> used c b kept ->
  forall sat sd nav t q, In (WRow sat sd nav t q) ops ->
  exists s xyzs, In s kept /\ usable (b_date b) s /\ coordinates w c name xyzs /\ row_for w c xyzs s (WRow sat sd nav t q).
Proof. exact rows_used. Qed.
Print Assumptions C41_rows.
(** ... and every record that is used has its row, or none for one of the listed reasons. *)
Theorem C41_complete : forall w c f name ops b kept before s after t sys n, written w c f name ops -> ops <> [] -> stopped_by w c f = None ->
  open_obs w name = Ok b -> used c b kept -> kept = before ++ s :: after -> identifies s t sys n -> usable (b_date b) s ->
  exists xyzs, coordinates w c name xyzs /\
    ((exists op, In op ops /\ row_for w c xyzs s op) \/ skipped w c xyzs (b_date b) before s t sys n).
Proof. exact rows_complete. Qed.
Print Assumptions C41_complete.
(** Which records are used is determined for every file with an observation interval. *)
Theorem C41_used : forall w c name b d, open_obs w name = Ok b -> interval_is b d ->
  match c_sampling c with Some iv => (Z.abs iv < 2 ^ 52)%Z | None => True end ->
  exists kept, used c b kept /\ forall kept', used c b kept' -> kept' = kept.
Proof.
  intros w c name b d Ho Hi Hc. destruct (used_exists w c b d (P_Main6.open_obs_dated w name b Ho) Hi Hc) as [kept Hk].
  exists kept. split; [exact Hk|]. intros kept' Hk'. exact (used_unique c b kept' kept Hk' Hk).
Qed.
Print Assumptions C41_used.
(** With a sampling interval in force the times of the rows are equal or at least that far apart. *)
Theorem C41_spaced : forall w c f name ops b iv, written w c f name ops -> open_obs w name = Ok b -> thins c b iv -> (0 <= iv)%Z ->
  forall s1 d1 n1 t1 q1 s2 d2 n2 t2 q2, above (WRow s1 d1 n1 t1 q1) (WRow s2 d2 n2 t2 q2) ops -> t1 = t2 \/ (instant t1 + iv <= instant t2)%Z.
Proof. exact rows_spaced. Qed.
Print Assumptions C41_spaced.
Example C41_example : let c := e_cfg true (Some 60000000%Z) in
  exists ops b kept, written w_ok c [] ok_name ops /\ ops <> [] /\ stopped_by w_ok c [] = None /\ open_obs w_ok ok_name = Ok b /\ thins c b 60000000 /\ used c b kept /\
    names ops = [n3 "G01" 0 0; n3 "G02" 0 0; n3 "G03" 0 0; n3 "R01" 0 0; n3 "G01" 1 0; n3 "G02" 1 0].
Proof.
  cbv zeta. destruct (run_written w_ok (e_cfg true (Some 60000000%Z)) ok_name _ _ ltac:(rewrite ok_run_sampled; left; reflexivity)) as [ops [Hw [Hn _]]].
  destruct (ok_used (e_cfg true (Some 60000000%Z)) eq_refl) as [kept Hk]. exists ops, (the_obs w_ok ok_name), kept.
  split; [exact Hw|]. split; [apply names_ne; rewrite Hn; intros X; clear -X; discriminate|]. split; [rewrite run_stopped, ok_run_sampled; reflexivity|].
  split; [exact ok_open|]. split; [exact ok_thins|]. split; [exact Hk|exact Hn].
Qed.

(** C42.  The rows are of the day in the file's name and of the supported systems. *)
Theorem C42_day : forall w c f name ops, written w c f name ops -> forall sat sd nav t q, In (WRow sat sd nav t q) ops ->
  get_rinex_date name = Some (dt_date t) /\ exists sys digits, sat = sys :: digits /\ In sys systems.
Proof. exact row_day. Qed.
Print Assumptions C42_day.
Theorem C42_no_day : forall w c f name ops, written w c f name ops -> get_rinex_date name = None -> rows_only ops = [].
Proof. exact no_day. Qed.
Print Assumptions C42_no_day.
(** The file has records of another day and of another system; none has a row. *)
Example C42_example : exists ops b, written w_ok (e_cfg true None) [] ok_name ops /\ open_obs w_ok ok_name = Ok b /\ rows_only ops <> [] /\
  (exists s t, In s (b_steps b) /\ s_epoch s = Some t /\ get_rinex_date ok_name <> Some (dt_date t)) /\ exists s, In s (b_steps b) /\ s_sat s = lit "J01".
Proof. exact ok_others. Qed.

(** C43.  A row of a satellite without ephemeris: only if that is to be ignored, not of GLONASS, and with zeros. *)
Theorem C43_absent : forall w c f name ops, written w c f name ops -> forall sys digits n sd nav t q, In (WRow (sys :: digits) sd nav t q) ops ->
  py_int digits = Ok n -> unlocated w c t sys n -> c_ignore c = true /\ sys <> "R"%char /\ shows_sat q origin fzero fzero.
Proof. exact absent_row. Qed.
Print Assumptions C43_absent.
(** Records of such satellites have rows; missing: the first record of a system without navigation file. *)
Theorem C43_kept_partial : forall w c f name ops b kept before s after t sys n, written w c f name ops -> ops <> [] -> stopped_by w c f = None ->
  open_obs w name = Ok b -> used c b kept -> kept = before ++ s :: after -> identifies s t sys n -> usable (b_date b) s ->
  unlocated w c t sys n -> c_ignore c = true -> sys <> "R"%char ->
  (exists sd nav q, In (WRow (s_sat s) sd nav t q) ops /\ shows_sat q origin fzero fzero) \/
  (nav_data w c t sys None /\ forall s', In s' before -> usable (b_date b) s' -> hd_error (s_sat s') <> Some sys) \/
  (exists types, s_types s sys = Ok types /\ record_validity types (s_rec s) = Err LabelError).
Proof. exact absent_kept. Qed.
Print Assumptions C43_kept_partial.
(** The first record of a system without navigation file has no row although the absence is to be ignored. *)
Theorem C43_refuted : exists w c name ops b s after t sys n, written w c [] name ops /\ ops <> [] /\ stopped_by w c [] = None /\
  open_obs w name = Ok b /\ used c b (s :: after) /\ identifies s t sys n /\ usable (b_date b) s /\
  unlocated w c t sys n /\ c_ignore c = true /\ sys <> "R"%char /\ forall sd nav q, ~ In (WRow (s_sat s) sd nav t q) ops.
Proof. exact first_lost. Qed.
Print Assumptions C43_refuted.
(** G03 has no ephemeris: rows with zeros, or no rows *)
Example C43_example :
  run w_ok (e_cfg true None) =
  ([(ok_name, [n3 "G01" 0 0; n3 "G02" 0 0; n3 "G03" 0 0; n3 "R01" 0 0; n3 "G01" 0 30; n3 "G01" 1 0; n3 "G02" 1 0; n3 "G01" 1 30; n3 "G02" 1 30; n3 "G03" 1 30],
     [n3 "G03" 0 0; n3 "G03" 1 30])], None) /\
  run w_ok (e_cfg false None) =
  ([(ok_name, [n3 "G01" 0 0; n3 "G02" 0 0; n3 "R01" 0 0; n3 "G01" 0 30; n3 "G01" 1 0; n3 "G02" 1 0; n3 "G01" 1 30; n3 "G02" 1 30], [])], None).
Proof. exact (conj ok_run_ignore ok_run). Qed.

(** C44.  What a row shows is computed from the record, the file's coordinates and the navigation file of the day (row_for),
    whatever was processed before. *)
Theorem C44_rows : forall w c f name ops, written w c f name ops -> forall sat sd nav t q, In (WRow sat sd nav t q) ops ->
  exists b s xyzs, open_obs w name = Ok b /\ In s (b_steps b) /\ usable (b_date b) s /\ coordinates w c name xyzs /\
    row_for w c xyzs s (WRow sat sd nav t q).
Proof. exact rows_fresh. Qed.
Print Assumptions C44_rows.
(** The run is the run of a program without memory, in which no lookup of GLONASS frequencies can fail; missing: ephemerides
    whose position cannot be computed. *)
Theorem C44_transparent_partial : forall w c f, always_computable w c -> main w c f = fresh_main w c f.
Proof. exact main_fresh. Qed.
Print Assumptions C44_transparent_partial.
(** There the memory is seen: of two files with the same contents only the second has rows. *)
Theorem C44_refuted : exists w c a b opsa opsb, a <> b /\ w_content w a = w_content w b /\ written w c [] a opsa /\ written w c [] b opsb /\
  stopped_by w c [] = None /\ main w c [] <> fresh_main w c [] /\
  (forall sat sd nav t q, ~ In (WRow sat sd nav t q) opsa) /\ exists sat sd nav t q, In (WRow sat sd nav t q) opsb.
Proof. exact cache_seen. Qed.
Print Assumptions C44_refuted.
Example C44_example : always_computable w_ok (e_cfg true None) /\ always_computable w_ok (e_cfg false None).
Proof. exact (conj (ok_computable true) (ok_computable false)). Qed.

(** C51.  The site of a row, and the elevation and azimuth from there. *)
Theorem C51_site : forall w c f name ops, written w c f name ops -> forall sat sd nav t q, In (WRow sat sd nav t q) ops ->
  exists b s xyzs site lbh, open_obs w name = Ok b /\ In s (b_steps b) /\ s_sat s = sat /\ s_epoch s = Some t /\ coordinates w c name xyzs /\
    site_of xyzs s t site /\ geodetic w site lbh /\ shows_site q site lbh /\
    (exists sys n pos el az, identifies s t sys n /\ shows_sat q pos el az /\
      (el = fzero /\ az = fzero /\ ~ (exists p, located w c t sys n p) \/
       located w c t sys n pos /\ compute_el_az (Fops (w_libm w)) (w_fuel w) site pos = Ok (el, az))).
Proof. exact row_site. Qed.
Print Assumptions C51_site.
(** With a coordinates file beside the observation file: the site is the last position it gives for the time of the row; only for
    times it does not mention, the position announced in the observation file. *)
Theorem C51_file : forall w c f dir0 x base ext hat packed ls ps ops, obs_base base hat -> arch ext packed -> x <> "/"%char ->
  let dir := dir0 ++ [x] in
  let xyz := dir ++ lit "/" ++ base ++ lit ".xyz" in
  w_there w xyz = true -> (exists p, In p (c_obsdir c) /\ In (base ++ lit ".xyz") (w_ls w p)) -> w_crd w xyz = Ok ls -> xyz_lines ls ps ->
  written w c f (dir ++ lit "/" ++ base ++ ext) ops -> forall sat sd nav t q, In (WRow sat sd nav t q) ops ->
  exists site lbh, shows_site q site lbh /\ geodetic w site lbh /\
    (forall p, last_position t ps p -> near_point site p) /\
    ((forall p, ~ In (t, p) ps) -> exists b s, open_obs w (dir ++ lit "/" ++ base ++ ext) = Ok b /\ In s (b_steps b) /\ s_sat s = sat /\ s_epoch s = Some t /\
       same_place site (s_xyz s)).
Proof. exact file_site. Qed.
Print Assumptions C51_file.
Example C51_file_example : obs_base (lit "aaaa0010.15o") false /\ arch [] false /\ site_name = (lit "/ob" ++ ["s"%char]) ++ lit "/" ++ lit "aaaa0010.15o" ++ [] /\
  w_there w_site (lit "/obs/aaaa0010.15o.xyz") = true /\ In (lit "aaaa0010.15o.xyz") (w_ls w_site (lit "/obs")) /\
  exists ls, w_crd w_site (lit "/obs/aaaa0010.15o.xyz") = Ok ls /\ xyz_lines ls [(t3 0 1 0 0, (Dec false 15 1, Dec false 25 1, Dec false 35 1))].
Proof. exact site_file. Qed.
(** the header's position, that of an event, and that of the coordinates file *)
Example C51_example : site_rows w_site (e_cfg true None) =
  map (fun x => Some (VFloat x)) [b64_of_dec false 39284750000 (-4); b64_of_dec false 11110000 (-4); b64_of_dec false 15 (-1)].
Proof. exact site_moves. Qed.

(** C57.  A file that is no RINEX file or cannot be decompressed changes nothing for the others: the run is that without it. *)
Theorem C57_skipped : forall w c ls, same_aids w c ls -> forall f names1 name names2,
  sort_str (find_files (w_ls w) (c_obsdir c) RE_OBS) = names1 ++ name :: names2 ->
  sort_str (find_files ls (c_obsdir c) RE_OBS) = names1 ++ names2 -> names1 ++ names2 <> [] ->
  (open_obs w name = Err RinexError \/ open_obs w name = Err UncompressError) ->
  fst (fst (main w c f)) = fst (fst (main (with_ls w ls) c f)) /\ stopped_by w c f = stopped_by (with_ls w ls) c f /\
  (forall nm ops, ops <> [] -> written w c f nm ops <-> written (with_ls w ls) c f nm ops).
Proof. exact skip_without. Qed.
Print Assumptions C57_skipped.
(** Alone it leaves everything as it is. *)
Theorem C57_only : forall w c f name, find_files (w_ls w) (c_obsdir c) RE_OBS = [name] -> (open_obs w name = Err RinexError \/ open_obs w name = Err UncompressError) ->
  fst (fst (main w c f)) = f /\ stopped_by w c f = None /\ forall nm ops, written w c f nm ops -> ops = [].
Proof. exact skip_only. Qed.
Print Assumptions C57_only.
(** A file that opens but has an unreadable epoch line later on stops the whole run. *)
Theorem C57_refuted : exists w w' c bad name ops,
  find_files (w_ls w) (c_obsdir c) RE_OBS = [bad; name] /\ find_files (w_ls w') (c_obsdir c) RE_OBS = [name] /\ w_content w name = w_content w' name /\
  stopped_by w c [] = Some AttributeError /\ (forall ops', ~ written w c [] name ops') /\
  stopped_by w' c [] = None /\ written w' c [] name ops /\ length (names ops) = 10.
Proof. exact junk_stops. Qed.
Print Assumptions C57_refuted.
Example C57_example : sort_str (find_files (w_ls w_bad) (c_obsdir (e_cfg true None)) RE_OBS) = [] ++ lit "/obs/aaaa0010.12o" :: [ok_name] /\
  sort_str (find_files ls_site (c_obsdir (e_cfg true None)) RE_OBS) = [] ++ [ok_name] /\ same_aids w_bad (e_cfg true None) ls_site /\
  open_obs w_bad (lit "/obs/aaaa0010.12o") = Err RinexError.
Proof. exact skip_example. Qed.

(** C58.  The rows of a file are those of the records used, one by one and in their order; a record without row has none for one
    of the listed reasons.  If the program was stopped, they are those of the records before the stop. *)
Theorem C58_account : forall w c f name ops b kept, written w c f name ops -> ops <> [] -> open_obs w name = Ok b -> used c b kept ->
  exists xyzs done rest, coordinates w c name xyzs /\ kept = done ++ rest /\ accounts w c xyzs (b_date b) [] done (rows_only ops) /\
    (stopped_by w c f = None -> rest = []).
Proof. exact rows_account. Qed.
Print Assumptions C58_account.
Example C58_example : exists ops b kept, written w_ok (e_cfg false None) [] ok_name ops /\ ops <> [] /\ open_obs w_ok ok_name = Ok b /\
  used (e_cfg false None) b kept /\ length kept = 15 /\ length (rows_only ops) = 8.
Proof. exact ok_account. Qed.

(** C59.  After the run the file of a satellite holds the rows of the run, unless a later observation file with rows of that satellite
    has the same site name and day. *)
Theorem C59_files : forall w c f pre name ops post sat, stopped_by w c f = None -> snd (fst (main w c f)) = pre ++ (name, ops) :: post -> rows_of sat ops <> [] ->
  (forall name' ops', In (name', ops') post -> rows_of sat ops' <> [] -> marker_of name' <> marker_of name \/ get_rinex_date name' <> get_rinex_date name) ->
  exists b iv d content, open_obs w name = Ok b /\ h_interval (b_hdr b) = Some iv /\ get_rinex_date name = Some d /\
    fs_get (result_file (c_outdir c) (marker_of name) sat d) (fst (fst (main w c f))) = Some content /\
    file_of_rows (out_of w c) iv (rows_of sat ops) content.
Proof. exact run_files. Qed.
Print Assumptions C59_files.
Example C59_example : exists ops, stopped_by w_ok (e_cfg true None) [] = None /\ snd (fst (main w_ok (e_cfg true None) [])) = [] ++ (ok_name, ops) :: [] /\
  length (rows_of (lit "G01") ops) = 4 /\ result_file (lit "/out") (marker_of ok_name) (lit "G01") (2012, 1, 1)%Z = lit "/out/2012/001/site/site_G01_001_12.dat".
Proof. exact ok_files. Qed.

(** C60.  The positions told to the writer: first that of the header; then, at the time of a record, that of its site. *)
Theorem C60_announced : forall w c f name ops, written w c f name ops -> ops <> [] ->
  exists b t0 ts lbh os xyzs, open_obs w name = Ok b /\ h_tofo (b_hdr b) = Some (t0, ts) /\ ops = WPos t0 (h_xyz (b_hdr b)) lbh :: os /\
    geodetic w (h_xyz (b_hdr b)) lbh /\ coordinates w c name xyzs /\
    (forall t p q, In (WPos t p q) os -> exists s, In s (b_steps b) /\ usable (b_date b) s /\ s_epoch s = Some t /\ site_of xyzs s t p /\ geodetic w p q).
Proof. exact positions_announced. Qed.
Print Assumptions C60_announced.
(** The comment lines of a satellite's file give the site of its first row; missing: files whose records are not in the order of time. *)
Theorem C60_comment_partial : forall w c f pre name ops post sat b before sd nav t q after,
  stopped_by w c f = None -> snd (fst (main w c f)) = pre ++ (name, ops) :: post ->
  (forall name' ops', In (name', ops') post -> rows_of sat ops' <> [] -> marker_of name' <> marker_of name \/ get_rinex_date name' <> get_rinex_date name) ->
  open_obs w name = Ok b -> in_order b -> ops = before ++ WRow sat sd nav t q :: after -> rows_of sat before = [] ->
  exists iv d p l site lbh rows, h_interval (b_hdr b) = Some iv /\ get_rinex_date name = Some d /\
    fs_get (result_file (c_outdir c) (marker_of name) sat d) (fst (fst (main w c f))) = Some (comment_text (comment_lines (out_of w c) name iv sd nav p l) ++ rows) /\
    geodetic w p l /\ shows_site q site lbh /\ same_place site p.
Proof. exact file_comment. Qed.
Print Assumptions C60_comment_partial.
(** The header's time of the first observation is after the records: the position told before the satellite's first row is not the
    newest one (which is the one the comment lines give, C40_comments). *)
Theorem C60_refuted : exists w c name ops before sat sd nav t q after t1 p l site lbh, written w c [] name ops /\ stopped_by w c [] = None /\
  ops = before ++ WRow sat sd nav t q :: after /\ rows_of sat before = [] /\ newest (t1, p, l) (announced before) /\ shows_site q site lbh /\ ~ same_place site p.
Proof. exact late_wrong. Qed.
Print Assumptions C60_refuted.
Example C60_example :
  (exists b, open_obs w_site site_name = Ok b /\ in_order b) /\
  map (fun x => (fst x, calls (snd x))) (snd (fst (main w_site (e_cfg true None) []))) =
  [(site_name, [inl (t3 0 0 0 0, x0); inr (lit "G01", Some (VFloat x0)); inl (t3 0 0 30 0, x1); inr (lit "G01", Some (VFloat x1));
                inl (t3 0 1 0 0, b64_of_dec false 15 (-1)); inr (lit "G01", Some (VFloat (b64_of_dec false 15 (-1))))])] /\
  stopped_by w_site (e_cfg true None) [] = None.
Proof. exact (conj site_order site_calls). Qed.

(** C61.  Without observation files the program exits and writes nothing. *)
Theorem C61_none : forall w c f, find_files (w_ls w) (c_obsdir c) RE_OBS = [] -> main w c f = (f, [], Some SystemExit).
Proof. exact run_none. Qed.
Print Assumptions C61_none.
(** The observation files found (C48_find) are processed in the order of their names, each of them unless the program is stopped. *)
Theorem C61_order : forall w c f, exists rest,
  Permutation.Permutation (find_files (w_ls w) (c_obsdir c) RE_OBS) (map fst (snd (fst (main w c f))) ++ rest) /\
  Sorted.StronglySorted str_le (map fst (snd (fst (main w c f))) ++ rest) /\ (stopped_by w c f = None -> rest = []).
Proof. exact run_names. Qed.
Print Assumptions C61_order.
(** A file is used exactly if it can be opened and is of a supported system and of GPS time. *)
Theorem C61_suitable : forall w c f name ops, written w c f name ops -> stopped_by w c f = None ->
  (ops <> [] <-> exists b, open_obs w name = Ok b /\ suitable b).
Proof. exact file_suitable. Qed.
Print Assumptions C61_suitable.
Example C61_example : find_files (w_ls w_none) (c_obsdir (e_cfg true None)) RE_OBS = [] /\
  map (fun x => (fst x, Nat.eqb (length (snd x)) 0)) (snd (fst (main w_two (e_cfg true None) []))) = [(site_name, true); (ok_name, false)] /\
  stopped_by w_two (e_cfg true None) [] = None /\ find_files (w_ls w_two) (c_obsdir (e_cfg true None)) RE_OBS = [ok_name; site_name].
Proof. exact (conj eq_refl two_run). Qed.

(** C73.  The fifth comment line of a satellite's file gives the sampling interval asked for, and marks it "(not used)." exactly when the
    records of the observation file are not thinned; missing: a sampling interval equal to the interval of the file. *)
Theorem C73_mark_partial : forall w c f pre name ops post sat b d,
  stopped_by w c f = None -> snd (fst (main w c f)) = pre ++ (name, ops) :: post -> rows_of sat ops <> [] ->
  (forall name' ops', In (name', ops') post -> rows_of sat ops' <> [] -> marker_of name' <> marker_of name \/ get_rinex_date name' <> get_rinex_date name) ->
  open_obs w name = Ok b -> interval_is b d -> (0 < d)%Z -> (Z.abs (asked c) < 2 ^ 52)%Z -> asked c <> d ->
  exists iv day sd nav p l rows, get_rinex_date name = Some day /\
    fs_get (result_file (c_outdir c) (marker_of name) sat day) (fst (fst (main w c f))) = Some (comment_text (comment_lines (out_of w c) name iv sd nav p l) ++ rows) /\
    let shown := lit "Sampling interval: " ++ show_val (VFloat (total_seconds (asked c))) in
    (keeps_all c b /\ nth_error (comment_lines (out_of w c) name iv sd nav p l) 4 = Some (shown ++ lit " (not used).") \/
     thins c b (asked c) /\ nth_error (comment_lines (out_of w c) name iv sd nav p l) 4 = Some shown).
Proof. exact marked. Qed.
Print Assumptions C73_mark_partial.
(** With the two intervals equal no record is left out, and the sampling interval is not marked. *)
Theorem C73_refuted : exists w c name ops b d sat content iv day sd nav p l rows,
  stopped_by w c [] = None /\ snd (fst (main w c [])) = [(name, ops)] /\ open_obs w name = Ok b /\ interval_is b d /\ c_sampling c = Some d /\ (0 < d)%Z /\
  keeps_all c b /\ rows_of sat ops <> [] /\ get_rinex_date name = Some day /\
  fs_get (result_file (c_outdir c) (marker_of name) sat day) (fst (fst (main w c []))) = Some content /\
  content = comment_text (comment_lines (out_of w c) name iv sd nav p l) ++ rows /\
  nth_error (comment_lines (out_of w c) name iv sd nav p l) 4 = Some (lit "Sampling interval: " ++ show_val (VFloat (total_seconds d))).
Proof. exact equal_intervals. Qed.
Print Assumptions C73_refuted.
Example C73_example : let c := e_cfg true (Some 60000000%Z) in let d := 30000000%Z in
  exists ops, stopped_by w_ok c [] = None /\ snd (fst (main w_ok c [])) = [] ++ (ok_name, ops) :: [] /\ length (rows_of (lit "G01") ops) = 2 /\
    open_obs w_ok ok_name = Ok (the_obs w_ok ok_name) /\ interval_is (the_obs w_ok ok_name) d /\ asked c <> d.
Proof. exact mark_example. Qed.
