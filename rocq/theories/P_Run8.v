(** The properties of whole runs, in the terms of their statements. *)
From Coq Require Import Sorting.Sorted Sorting.Permutation.
From Verif Require Import Base PyStr PyFloat PyDate PyPath PyRegex S_Text S_Time S_Open2 M_Common M_Header M_Obs2 M_Obs3 M_Rec M_Text M_Cfg M_Label M_Names M_Xyz M_Nav M_NmUtils M_Num M_Tec M_Sat M_Main M_Run S_Names S_Xyz S_Label S_Main S_Fresh S_Run S_Out S_Rec S_Cfg P_Str P_Out P_Cfg P_Cfg2 P_Main3 P_Main7 P_Main8 P_Main10 P_Main12 P_Run1 P_Run3 P_Run4 P_Run5 P_Run6 P_Run7.
Open Scope nat_scope.

Lemma full_run isdir w c f : dirs_exist isdir c ->
  full_main false isdir w c f = mkOutcome (fst (fst (main w c f))) (snd (fst (main w c f))) (main_errors w c f) (snd (main w c f)).
Proof.
  intros H. unfold full_main. rewrite (all_dirs isdir (c_obsdir c)) by (intros; apply H; auto). rewrite (all_dirs isdir (c_navdir c)) by (intros; apply H; auto).
  cbn [negb]. destruct (main w c f) as [[a b] e]. reflexivity.
Qed.
Lemma announced_errors isdir w c f : dirs_exist isdir c -> let o := full_main false isdir w c f in
  o_exn o = None -> (announces_errors o = true -> may_fail w c) /\ (must_fail w c -> announces_errors o = true).
Proof.
  intros Hd o. subst o. rewrite full_run by exact Hd. unfold announces_errors. cbn [o_exn o_errors]. intros He.
  destruct (main_errors_spec w c f He) as [H1 H2]. rewrite He. split.
  - intros H. apply H1. intros X. rewrite X in H. discriminate.
  - intros H. specialize (H2 H). destruct (main_errors w c f); [contradiction|reflexivity].
Qed.
Lemma saved_run isdir w c f : (forall d, In d (c_obsdir c) -> isdir d = true) -> find_files (w_ls w) (c_obsdir c) RE_OBS <> [] ->
  let o := full_main true isdir w c f in
  o_log o = [] /\ (forall p, p <> lit "coordinates.txt" -> fs_get p (o_files o) = fs_get p f) /\
  exists did rest lines, Permutation (find_files (w_ls w) (c_obsdir c) RE_OBS) (did ++ rest) /\ StronglySorted str_le (did ++ rest) /\
    coordinates_lines w did lines /\ fs_get (lit "coordinates.txt") (o_files o) = Some (concat lines) /\ (o_exn o = None <-> rest = []).
Proof.
  intros Hd Hn o. subst o. unfold full_main. rewrite (all_dirs isdir _ Hd). cbn [negb]. destruct (save_main w c f) as [f' e] eqn:E.
  cbn [o_files o_log o_exn]. split; [reflexivity|]. exact (saved w c f f' e E Hn).
Qed.
Lemma saved_nothing isdir w c f : (exists d, In d (c_obsdir c) /\ isdir d = false) \/ find_files (w_ls w) (c_obsdir c) RE_OBS = [] ->
  let o := full_main true isdir w c f in o_files o = f /\ o_log o = [] /\ o_exn o <> None.
Proof.
  intros [H|H]; cbv zeta; unfold full_main; [rewrite (missing_dir _ _ H); cbn; repeat split; discriminate|].
  destruct (forallb isdir (c_obsdir c)); cbn [negb]; [|repeat split; discriminate]. rewrite (saved_none w c f H). cbn. repeat split; discriminate.
Qed.
Lemma run_again isdir w c f f' : dirs_exist isdir c -> let o := full_main false isdir w c f in let o' := full_main false isdir w c f' in
  o_log o' = o_log o /\ o_exn o' = o_exn o /\
  (o_exn o = None ->
   (forall name ops sat d, written w c f name ops -> rows_of sat ops <> [] -> get_rinex_date name = Some d ->
      let p := result_file (c_outdir c) (marker_of name) sat d in fs_get p (o_files o) <> None /\ fs_get p (o_files o') = fs_get p (o_files o)) /\
   (forall p, (forall name ops sat d, written w c f name ops -> rows_of sat ops <> [] -> get_rinex_date name = Some d ->
        p <> result_file (c_outdir c) (marker_of name) sat d) -> fs_get p (o_files o) = fs_get p f) /\
   (f' = o_files o -> forall p, fs_get p (o_files o') = fs_get p (o_files o))).
Proof.
  intros Hd o o'. subst o o'. rewrite !full_run by exact Hd. cbn [o_log o_exn o_files]. destruct (main_same w c f f') as [H1 H2].
  split; [now symmetry|]. split; [now symmetry|]. intros He. destruct (rerun_files w c f f' He) as [R1 R2].
  split; [intros name ops sat d A B C; cbv zeta; destruct (R1 name ops sat d A B C); auto|]. split; [exact R2|].
  intros ->. destruct (rerun_again w c f He) as [_ R3]. exact R3.
Qed.
(** the directory of the configuration file is where the program works *)
Lemma start_spec0 y a f ls fields outdir dtf secs dir0 x base :
  a_version a = false -> rcfile a = (dir0 ++ [x]) ++ "/"%char :: base -> x <> "/"%char -> absent "/"%char base ->
  let dir := path_join (y_cwd y) (dir0 ++ [x]) in
  y_read y (dir ++ "/"%char :: base) = Some (file_text ls) -> Forall line_ok ls ->
  assigned (lit "navIgnoreAbsence") ls <> None -> assigned (lit "cfg_file") ls = None -> good_values ls fields outdir dtf secs ->
  y_dir y dir = true -> outdir <> [] -> absent "/"%char (value_of ls (lit "logFile")) ->
  exists c, cfg_of (y_env y) ls fields outdir dtf secs c /\
    program y a f = (Some dir, full_main (a_save a) (fun p => y_dir y (path_join dir p)) (seen_from dir (y_world y c)) c f).
Proof.
  intros Hv Hp Hx Hb dir Hr Hls Hi Ho Hg Hd Hn Hl. destruct (read_cfg_ok (y_env y) ls fields outdir dtf secs Hls Hi Hg) as [c [Hc Hof]].
  exists c. split; [exact Hof|]. apply (started y a f ls fields outdir dtf secs Hv) with (base := base); try assumption.
  rewrite Hp, join_path. exact Hr.
Qed.
Lemma start_spec y a f ls fields outdir dtf secs dir0 x base :
  a_version a = false -> rcfile a = (dir0 ++ [x]) ++ "/"%char :: base -> x <> "/"%char -> absent "/"%char base ->
  let dir := path_join (y_cwd y) (dir0 ++ [x]) in
  y_read y (dir ++ "/"%char :: base) = Some (file_text ls) -> Forall line_ok ls ->
  assigned (lit "navIgnoreAbsence") ls <> None -> assigned (lit "cfg_file") ls = None -> good_values ls fields outdir dtf secs ->
  y_dir y dir = true -> outdir <> [] -> absent "/"%char (value_of ls (lit "logFile")) ->
  exists c w, cfg_of (y_env y) ls fields outdir dtf secs c /\ found_in dir (y_world y c) w /\
    program y a f = (Some dir, full_main (a_save a) (fun p => y_dir y (path_join dir p)) w c f).
Proof.
  intros H1 H2 H3 H4 dir H5 H6 H7 H8 H9 H10 H11 H12. destruct (start_spec0 y a f ls fields outdir dtf secs dir0 x base H1 H2 H3 H4 H5 H6 H7 H8 H9 H10 H11 H12) as [c [Hc Hp]].
  exists c, (seen_from dir (y_world y c)). split; [exact Hc|]. split; [|exact Hp]. unfold found_in, seen_from. cbn. repeat split; reflexivity.
Qed.
Lemma start_place y cwd' a a' f ls fields outdir dtf secs dir0 x base dir0' x' base' :
  a_version a = false -> a_version a' = false -> a_save a = a_save a' ->
  rcfile a = (dir0 ++ [x]) ++ "/"%char :: base -> x <> "/"%char -> absent "/"%char base ->
  rcfile a' = (dir0' ++ [x']) ++ "/"%char :: base' -> x' <> "/"%char -> absent "/"%char base' ->
  path_join (y_cwd y) (rcfile a) = path_join cwd' (rcfile a') ->
  y_read y (path_join (y_cwd y) (rcfile a)) = Some (file_text ls) -> Forall line_ok ls ->
  assigned (lit "navIgnoreAbsence") ls <> None -> assigned (lit "cfg_file") ls = None -> good_values ls fields outdir dtf secs ->
  y_dir y (path_join (y_cwd y) (dir0 ++ [x])) = true -> outdir <> [] -> absent "/"%char (value_of ls (lit "logFile")) ->
  program (at_dir y cwd') a' f = program y a f.
Proof.
  intros Hv Hv' Hs Hp Hx Hb Hp' Hx' Hb' He Hr Hls Hi Ho Hg Hd Hn Hl.
  destruct (read_cfg_ok (y_env y) ls fields outdir dtf secs Hls Hi Hg) as [c [Hc Hof]].
  assert (E : path_join (y_cwd y) (dir0 ++ [x]) = path_join cwd' (dir0' ++ [x'])).
  { rewrite Hp, Hp', !join_path in He. exact (proj1 (last_slash _ _ _ _ Hb Hb' He)). }
  rewrite (started y a f ls fields outdir dtf secs Hv Hr Hls Hi Ho Hg dir0 x base c Hp Hx Hb Hd Hn Hl Hc).
  assert (Hr' : y_read (at_dir y cwd') (path_join (y_cwd (at_dir y cwd')) (rcfile a')) = Some (file_text ls)) by (cbn [at_dir y_read y_cwd]; now rewrite <- He).
  assert (Hd' : y_dir (at_dir y cwd') (path_join (y_cwd (at_dir y cwd')) (dir0' ++ [x'])) = true) by (cbn [at_dir y_dir y_cwd]; now rewrite <- E).
  rewrite (started (at_dir y cwd') a' f ls fields outdir dtf secs Hv' Hr' Hls Hi Ho Hg dir0' x' base' c Hp' Hx' Hb' Hd' Hn Hl Hc).
  cbn [at_dir y_cwd y_dir y_world]. rewrite E, Hs. reflexivity.
Qed.
(** no row of a system beyond five *)
Lemma no_irnss w c f name ops : written w c f name ops -> forall digits sd nav t q, ~ In (WRow ("I"%char :: digits) sd nav t q) ops.
Proof.
  intros Hw digits sd nav t q Hin. destruct (row_day w c f name ops Hw _ _ _ _ _ Hin) as [_ [sys [ds [E Hs]]]]. injection E as <- _.
  repeat (destruct Hs as [Hs|Hs]; [discriminate|]). destruct Hs.
Qed.
Lemma visible_row w c f name ops b kept s t sys n pos : written w c f name ops -> ops <> [] -> stopped_by w c f = None ->
  open_obs w name = Ok b -> used c b kept -> In s kept -> identifies s t sys n -> In sys systems -> b_date b = Some (dt_date t) -> located w c t sys n pos ->
  (forall xyzs site, coordinates w c name xyzs -> site_of xyzs s t site ->
     exists el az, compute_el_az (Fops (w_libm w)) (w_fuel w) site pos = Ok (el, az) /\ fltb el fzero = false) ->
  (forall types, s_types s sys = Ok types -> record_validity types (s_rec s) <> Err LabelError) ->
  exists xyzs op, coordinates w c name xyzs /\ In op ops /\ row_for w c xyzs s op.
Proof.
  intros Hw Hne Hst Ho Hu Hin Hi Hs Hd Hl Hv Hr. apply in_split in Hin. destruct Hin as [before [after E]].
  assert (Hus : usable (b_date b) s) by (exists t, sys, n; auto).
  destruct (rows_complete w c f name ops b kept before s after t sys n Hw Hne Hst Ho Hu E Hi Hus) as [xyzs [Hx [[op [H1 H2]]|Hk]]]; [exists xyzs, op; auto|].
  exfalso. destruct Hk as [Hn _|Hn _|Hn|site pos' el az Hl' Hsite Hc Hlt|site pos' e Hl' Hsite Hc _|types Ht Hlab].
  - destruct Hl as [dt [eph [He _]]]. pose proof (ephemeris_fun w c _ _ _ _ _ He (eph_no_file w c t sys n Hn)) as X. discriminate.
  - exact (unlocated_not w c _ _ _ _ Hn Hl).
  - exact (located_computable w c _ _ _ _ Hl Hn).
  - rewrite (located_fun w c _ _ _ _ _ Hl' Hl) in Hc. destruct (Hv xyzs site Hx Hsite) as [el' [az' [E1 E2]]]. rewrite E1 in Hc. injection Hc as <- <-. rewrite E2 in Hlt. discriminate.
  - rewrite (located_fun w c _ _ _ _ _ Hl' Hl) in Hc. destruct (Hv xyzs site Hx Hsite) as [el' [az' [E1 E2]]]. rewrite E1 in Hc. discriminate.
  - exact (Hr types Ht Hlab).
Qed.
