(** C71, C72: compressed input files, and the external programs that read them.  [tools_world t w]: the world [w] with the files and
    programs of [t]; [stored t dir base ext path hat packed b]: the file [path] of [t] is [dir]/[base][ext], compact (Hatanaka) or not,
    packed or not, and its bytes are [b]; [unpacked t hat packed b raw]: the programs make [raw] of them. *)
From Verif Require Import Base PyStr PyFloat PyDate PyPath PyRegex M_Common M_Header M_Obs2 M_Label M_Rec M_Text M_Cfg M_Names M_Xyz M_Nav M_NmUtils M_Num M_Main M_Run M_Expand.
From Verif Require Import S_Text S_Time S_Names S_Out S_Main S_Run S_Expand P_Expand1 P_Expand2 P_Expand3 P_Expand4 P_Expand5 E_Main E_Run E_Expand E_Expand2.
Open Scope nat_scope.

(** C71.  An observation file gives the same header, records and end however it is stored, and the same site name. *)
Theorem C71_obs : forall t t' w w' dir dir' base base' ext ext' path path' hat hat' packed packed' b b' raw, w_fuel w = w_fuel w' ->
  stored t dir base ext path hat packed b -> stored t' dir' base' ext' path' hat' packed' b' -> same_stem base hat base' hat' ->
  unpacked t hat packed b raw -> unpacked t' hat' packed' b' raw ->
  reads_alike (open_obs (tools_world t w) path) (open_obs (tools_world t' w') path') /\ marker_of path = marker_of path'.
Proof. exact obs_alike. Qed.
Print Assumptions C71_obs.
(** A navigation file of ASCII bytes gives the same text packed and plain ... *)
Theorem C71_nav : forall t t' path path' b gz raw, ~ In newline_c path -> packed_name path -> t_file t path = Some b -> t_gzip t = Some gz -> gz b = raw ->
  ~ In newline_c path' -> ~ packed_name path' -> t_file t' path' = Some raw -> sane_locale t' -> ascii_bytes raw -> expand_nav t path = expand_nav t' path'.
Proof. exact nav_alike. Qed.
Print Assumptions C71_nav.
(** ... its name is found for the same days and systems ... *)
Theorem C71_nav_found : forall t sys name ext packed, arch ext packed -> re_test (compose_navigation_re sys t) (name ++ ext) = re_test (compose_navigation_re sys t) name.
Proof. exact nav_arch. Qed.
Print Assumptions C71_nav_found.
(** ... and has the same date. *)
Theorem C71_date : forall dir name path path' ext, path_of dir name path -> path_of dir (name ++ ext) path' -> ~ In "/"%char name -> ~ In "/"%char ext ->
  (exists yy ddd, classic_name name yy ddd \/ modern_name name yy ddd) -> get_rinex_date path = get_rinex_date path'.
Proof. exact name_date. Qed.
Print Assumptions C71_date.
(** The coordinates beside an observation file are found for the packed file too. *)
Theorem C71_coordinates : forall t t' w w' c d x base ext ext' hat packed packed', obs_base base hat -> arch ext packed -> arch ext' packed' -> x <> "/"%char ->
  let dir := d ++ [x] in let xyz := dir ++ lit "/" ++ base ++ lit ".xyz" in
  w_there w xyz = w_there w' xyz -> t_file t xyz = t_file t' xyz -> (forall s, t_locale t s = t_locale t' s) ->
  (find_files (w_ls w) (c_obsdir c) RE_XYZ = [] <-> find_files (w_ls w') (c_obsdir c) RE_XYZ = []) ->
  xyz_data (tools_world t w) c (dir ++ lit "/" ++ base ++ ext) = xyz_data (tools_world t' w') c (dir ++ lit "/" ++ base ++ ext').
Proof. exact packed_xyz. Qed.
Print Assumptions C71_coordinates.
(** Hence two runs over the same data, stored differently, write the same rows and end alike. *)
Theorem C71_run_partial : forall t t' w w' c f f', same_machine w w' -> nav_pairs t t' w w' c ->
  Forall2 (obs_pair t t' w w' c) (sort_str (find_files (w_ls w) (c_obsdir c) RE_OBS)) (sort_str (find_files (w_ls w') (c_obsdir c) RE_OBS)) ->
  Forall2 (fun x x' => same_file (tools_world t w) (tools_world t' w') c (fst x) (fst x') /\ Forall2 same_call (snd x) (snd x'))
    (snd (fst (main (tools_world t w) c f))) (snd (fst (main (tools_world t' w') c f'))) /\
  stopped_by (tools_world t w) c f = stopped_by (tools_world t' w') c f'.
Proof. exact packed_run. Qed.
Print Assumptions C71_run_partial.
(** the condition on the navigation files, from the directories *)
Theorem C71_listing : forall t t' w w' c, repacked_dirs t t' w w' c -> nav_pairs t t' w w' c.
Proof. exact listing_pairs. Qed.
Print Assumptions C71_listing.
(** The result files have the same names and the same rows; only comments may differ (they name the sources).  Missing: navigation
    files with other bytes than ASCII, and coordinates beside compact files (refuted below). *)
Theorem C71_files_partial : forall t t' w w' c f f' pre name ops post sat, same_machine w w' -> nav_pairs t t' w w' c ->
  Forall2 (obs_pair t t' w w' c) (sort_str (find_files (w_ls w) (c_obsdir c) RE_OBS)) (sort_str (find_files (w_ls w') (c_obsdir c) RE_OBS)) ->
  stopped_by (tools_world t w) c f = None -> snd (fst (main (tools_world t w) c f)) = pre ++ (name, ops) :: post -> rows_of sat ops <> [] ->
  (forall name' ops', In (name', ops') post -> rows_of sat ops' <> [] -> marker_of name' <> marker_of name \/ get_rinex_date name' <> get_rinex_date name) ->
  exists day h h' rows, get_rinex_date name = Some day /\ comments h /\ comments h' /\ length rows = length (rows_of sat ops) /\
    fs_get (result_file (c_outdir c) (marker_of name) sat day) (fst (fst (main (tools_world t w) c f))) = Some (h ++ concat rows) /\
    fs_get (result_file (c_outdir c) (marker_of name) sat day) (fst (fst (main (tools_world t' w') c f'))) = Some (h' ++ concat rows).
Proof. exact packed_files. Qed.
Print Assumptions C71_files_partial.
(** a navigation file with an umlaut in a comment stops the run when it is plain, not when it is packed *)
Theorem C71_refuted : exists t t' w w' c nav raw b, same_machine w w' /\ c_navdir c = [lit "/nav"] /\ (forall d, d <> lit "/nav" -> w_ls w d = w_ls w' d) /\
  w_ls w (lit "/nav") = [nav] /\ w_ls w' (lit "/nav") = [nav ++ lit ".Z"] /\ t_file t (lit "/nav/" ++ nav) = Some raw /\ t_file t' (lit "/nav/" ++ nav ++ lit ".Z") = Some b /\
  unpacked t' false true b raw /\ (forall p, In p (find_files (w_ls w) (c_obsdir c) RE_OBS) -> t_file t p = t_file t' p) /\
  stopped_by (tools_world t w) c [] = Some ValueError /\ row_count (tools_world t w) c = 0 /\
  stopped_by (tools_world t' w') c [] = None /\ row_count (tools_world t' w') c = 9.
Proof. exact note_stops. Qed.
Print Assumptions C71_refuted.
(** coordinates named after the observation file are not used once it is in the compact form *)
Theorem C71_coordinates_refuted : exists t t' w w' c name name' raw b, same_machine w w' /\ stored t (lit "/obs") (lit "site0010.12o") [] name false false raw /\
  stored t' (lit "/obs") (lit "site0010.12d") [] name' true false b /\ unpacked t' true false b raw /\
  find_files (w_ls w) (c_obsdir c) RE_OBS = [name] /\ find_files (w_ls w') (c_obsdir c) RE_OBS = [name'] /\
  (exists crd text, w_there w crd = true /\ w_there w' crd = true /\ t_file t crd = Some text /\ t_file t' crd = Some text /\
     find_files (w_ls w) (c_obsdir c) RE_XYZ = [crd] /\ find_files (w_ls w') (c_obsdir c) RE_XYZ = [crd] /\ crd = name ++ lit ".xyz") /\
  nav_pairs t t' w w' c /\ site_rows (tools_world t w) c <> site_rows (tools_world t' w') c.
Proof. exact hat_coordinates. Qed.
Print Assumptions C71_coordinates_refuted.
Example C71_example : same_machine w_plain w_packed /\ repacked_dirs t_plain t_packed w_plain w_packed (e_cfg true None) /\
  Forall2 (obs_pair t_plain t_packed w_plain w_packed (e_cfg true None))
    (sort_str (find_files (w_ls w_plain) (c_obsdir (e_cfg true None)) RE_OBS)) (sort_str (find_files (w_ls w_packed) (c_obsdir (e_cfg true None)) RE_OBS)) /\
  exists ops, stopped_by (tools_world t_plain w_plain) (e_cfg true None) [] = None /\
    snd (fst (main (tools_world t_plain w_plain) (e_cfg true None) [])) = [] ++ (x_plain, ops) :: [] /\ length (rows_of (lit "G01") ops) = 4.
Proof. exact (conj x_same (conj x_nav (conj x_obs x_files))). Qed.

(** C72.  An observation file that needs a program which is not installed is left out, changes nothing for the others, and an error
    is announced.  Missing: navigation files, damaged archives, files that cannot be opened (refuted below). *)
Theorem C72_program_partial : forall t w c f names1 name names2 dir base ext hat packed b, stored t dir base ext name hat packed b -> tool_missing t hat packed ->
  sort_str (find_files (w_ls w) (c_obsdir c) RE_OBS) = names1 ++ name :: names2 ->
  let w1 := tools_world t w in
  let without := files_loop w1 c no_caches f (names1 ++ names2) in
  fst (fst (main w1 c f)) = fst (fst without) /\ stopped_by w1 c f = snd without /\
  (forall nm ops, ops <> [] -> written w1 c f nm ops <-> In (nm, ops) (snd (fst without))) /\
  (forall isdir, dirs_exist isdir c -> o_exn (full_main false isdir w1 c f) = None -> announces_errors (full_main false isdir w1 c f) = true).
Proof. exact missing_program. Qed.
Print Assumptions C72_program_partial.
(** a packed navigation file and no gzip: the run stops, where it would have given rows without that file *)
Theorem C72_nav_refuted : exists t w c obs nav raw b, t_gzip t = None /\ find_files (w_ls w) (c_obsdir c) RE_OBS = [obs] /\ open_obs (tools_world t w) obs = Ok b /\ b_steps b <> [] /\
  w_ls w (lit "/nav") = [nav ++ lit ".Z"] /\ c_navdir c = [lit "/nav"] /\ t_file t (lit "/nav/" ++ nav ++ lit ".Z") = Some raw /\
  stopped_by (tools_world t w) c [] = Some UncompressError /\ row_count (tools_world t w) c = 0 /\
  (exists w', same_machine w w' /\ find_files (w_ls w') (c_obsdir c) RE_OBS = [obs] /\ w_ls w' (lit "/nav") = [] /\ stopped_by (tools_world t w') c [] = None /\ row_count (tools_world t w') c = 8).
Proof. exact nogz_stops. Qed.
Print Assumptions C72_nav_refuted.
(** gzip stops in the middle of a damaged archive: rows are missing and no error is announced *)
Theorem C72_damaged_refuted : exists t t' w c path b b' x y gz, t_gzip t = Some gz /\ t_gzip t' = Some gz /\ t_file t path = Some b /\ t_file t' path = Some b' /\ (forall p, p <> path -> t_file t p = t_file t' p) /\
  gz b = x ++ y /\ gz b' = x /\ y <> [] /\ find_files (w_ls w) (c_obsdir c) RE_OBS = [path] /\
  announces_errors (full_main false every (tools_world t w) c []) = false /\ o_exn (full_main false every (tools_world t w) c []) = None /\ row_count (tools_world t w) c = 9 /\
  announces_errors (full_main false every (tools_world t' w) c []) = false /\ o_exn (full_main false every (tools_world t' w) c []) = None /\ row_count (tools_world t' w) c = 4.
Proof. exact hurt_silent. Qed.
Print Assumptions C72_damaged_refuted.
(** a plain file that is listed and cannot be opened stops the run; a packed one does not *)
Theorem C72_unreadable_refuted : exists t w w' c path, same_machine w w' /\ t_file t path = None /\ t_file t (path ++ lit ".Z") = None /\ t_gzip t <> None /\
  (exists other, find_files (w_ls w) (c_obsdir c) RE_OBS = [path; other] /\ find_files (w_ls w') (c_obsdir c) RE_OBS = [path ++ lit ".Z"; other]) /\
  stopped_by (tools_world t w) c [] = Some OSError /\ row_count (tools_world t w) c = 0 /\
  stopped_by (tools_world t w') c [] = None /\ row_count (tools_world t w') c = 9.
Proof. exact gone_stops. Qed.
Print Assumptions C72_unreadable_refuted.
Example C72_example : exists t w, stored t (lit "/obs") (lit "site0010.12d") (lit ".Z") x_packed true true (zipped (hat raw_obs)) /\ tool_missing t true true /\
  sort_str (find_files (w_ls w) (c_obsdir (e_cfg true None)) RE_OBS) = [] ++ x_packed :: [].
Proof. exact nogz_obs. Qed.
