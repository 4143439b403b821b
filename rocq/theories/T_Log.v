(** C81, C82: the log of a run.  [main_parts w c f] is what the run of the configuration [c] does, in its order, for each observation
    file: each part is the processing of one record, or what is done before, between and after the records, with the messages logged and
    the calls of the writer.  [main_says w c f] are the messages, [main_log_file w c f] those that logLevel lets into the log file. *)
From Verif Require Import Base PyStr PyFloat PyDate PyPath PyRegex M_Common M_Header M_Obs2 M_Obs3 M_Label M_Rec M_Text M_Cfg M_Names M_Xyz M_Nav M_NmUtils M_Num M_Tec M_Sat M_Main M_Run M_Log.
From Verif Require Import S_Time S_Obs2 S_Out S_Names S_Cfg S_Main S_Run S_Log W_Obs2 E_Obs2 E_Main E_Run P_Log2 P_Log3 P_Log4 E_Log.
Open Scope nat_scope.

(** the parts are those of the run: the same files, and the calls of the writer are those that make the results *)
Theorem C81_run : forall w c f, Forall2 (fun a b => fst a = fst b /\ snd a = concat (map p_ops (snd b))) (snd (fst (main w c f))) (main_parts w c f).
Proof. exact run_rows. Qed.
Print Assumptions C81_run.
(** C81.  Of each observation file all records that satisfy the settings are processed, or a message of level WARNING or above says why
    the file is left out: it cannot be opened, its satellite system is not supported or its time is not of GPS *)
Theorem C81_files : forall w c f name ps, stopped_by w c f = None -> In (name, ps) (main_parts w c f) ->
  (exists b, open_obs w name = Ok b /\ suitable b /\ forall kept, used c b kept -> chosen (usable (b_date b)) kept (records_of ps)) \/
  (records_of ps = [] /\ exists p m, In p ps /\ In m (p_says p) /\ 30 <= level_of m /\
     ((exists e, open_obs w name = Err e /\ m = LOpen e) \/
      (exists b, open_obs w name = Ok b /\ ~ suitable b /\
         ((exists v ty sys, h_ver (b_hdr b) = Some (v, ty, sys) /\ m = LSystem sys) \/ (exists t0 ts, h_tofo (b_hdr b) = Some (t0, ts) /\ m = LTime name ts))))).
Proof. exact run_left_out. Qed.
Print Assumptions C81_files.
(** Of the records that are left out because they are of another day than the file, each has its message, in their order *)
Theorem C81_other_days : forall w c f name ps b, stopped_by w c f = None -> In (name, ps) (main_parts w c f) -> open_obs w name = Ok b -> suitable b ->
  exists others ms, chosen (fun s => exists t, another_day (b_date b) s t) (b_steps b) others /\ chosen date_message (concat (map p_says ps)) ms /\
    Forall2 (fun s m => exists t, another_day (b_date b) s t /\ m = LDate name (dt_date t) (b_date b)) others ms.
Proof. exact run_dates. Qed.
Print Assumptions C81_other_days.
Theorem C81_all_files : forall w c f, stopped_by w c f = None -> map fst (main_parts w c f) = sort_str (find_files (w_ls w) (c_obsdir c) RE_OBS).
Proof. exact run_all_files. Qed.
Print Assumptions C81_all_files.
(** Each record that is processed has its row, or a message of level INFO or above that gives the reason; with logLevel DEBUG or INFO
    the message is in the log file.  Missing: two cases in which nothing is said, below.  They concern only records that need
    navigation data: of GLONASS, or when its absence is not to be ignored. *)
Theorem C81_reported_partial : forall w c f before name p s t sys n, part_of_run w c f before name p -> p_step p = Some s -> identifies s t sys n ->
  has_row s t (p_ops p) \/
  (exists m, In m (p_says p) /\ noticeable m /\ about m name s t sys n /\ (verbose c -> In m (main_log_file w c f))) \/
  ((c_ignore c = false \/ sys = "R"%char) /\ (far w c t sys n \/ exists s', processed before s' /\ identifies s' t sys n)).
Proof. exact run_reported. Qed.
Print Assumptions C81_reported_partial.
(** nothing is said when all messages of the satellite are too far from the time of the record: a record without row and without any
    message, although no record of the same satellite has been processed before *)
Theorem C81_far_refuted : exists w c before name p s t sys n, verbose c /\ stopped_by w c [] = None /\ part_of_run w c [] before name p /\ p_step p = Some s /\
  identifies s t sys n /\ (forall s', ~ processed before s') /\ far w c t sys n /\ ~ has_row s t (p_ops p) /\ p_says p = [].
Proof. exact far_silent. Qed.
Print Assumptions C81_far_refuted.
(** nothing is said of a satellite that the navigation file does not have if an observation file before had it at that time *)
Theorem C81_again_refuted : exists w c before name p s t sys n f sats, verbose c /\ stopped_by w c [] = None /\ part_of_run w c [] before name p /\ p_step p = Some s /\
  identifies s t sys n /\ nav_data w c t sys (Some (f, sats)) /\ dict_get Z.eqb n sats = None /\ ~ has_row s t (p_ops p) /\ p_says p = [].
Proof. exact again_silent. Qed.
Print Assumptions C81_again_refuted.
(** a run with records left out, and its log *)
Example C81_ex : (exists before p s, part_of_run w_ok (e_cfg false None) [] before ok_name p /\ p_step p = Some s /\ identifies s (t_at 0 0 0 0) "G"%char 3 /\
    ~ has_row s (t_at 0 0 0 0) (p_ops p) /\ In (LNoSatellite "G" 3) (p_says p)) /\
  main_log_file w_ok (e_cfg false None) [] = [LNoSatellite "G" 3; angles1; LNoSatellite "G" 3; other_day; other_day; other_day].
Proof. split; [exact ok_reported|exact ok_log]. Qed.

(** C82.  The errors counted at the end of a run are exactly its messages that a file cannot be opened or read to its end or has another
    time system, that the position of a satellite or the angles cannot be computed; all are of level ERROR *)
Theorem C82_count : forall isdir w c f, dirs_exist isdir c -> let o := full_main false isdir w c f in o_exn o = None ->
  exists fs, chosen failure (main_says w c f) fs /\ length fs = o_errors o /\ Forall error_message fs.
Proof. exact run_count. Qed.
Print Assumptions C82_count.
(** when the user is told to look into the log file, there is an error in it.  Missing: logLevel CRITICAL, for which it is false. *)
Theorem C82_found_partial : forall isdir w c f, dirs_exist isdir c -> announces_errors (full_main false isdir w c f) = true -> In (c_level c) log_levels ->
  c_level c <> lit "CRITICAL" -> exists m, failure m /\ In m (main_log_file w c f).
Proof. exact run_found. Qed.
Print Assumptions C82_found_partial.
Theorem C82_critical_refuted : exists isdir w c f, dirs_exist isdir c /\ In (c_level c) log_levels /\ announces_errors (full_main false isdir w c f) = true /\ main_log_file w c f = [].
Proof. exact crit_empty. Qed.
Print Assumptions C82_critical_refuted.
(** when the user is not told so, the only errors logged are those of damaged navigation files and of geodetic coordinates *)
Theorem C82_rest : forall isdir w c f, dirs_exist isdir c -> let o := full_main false isdir w c f in o_exn o = None -> announces_errors o = false ->
  forall m, In m (main_says w c f) -> error_message m -> m = LNavError \/ m = LGeodetic.
Proof. exact run_rest. Qed.
Print Assumptions C82_rest.
(** and there are runs that log such errors and announce none *)
Theorem C82_silent_refuted : exists isdir w c f m, dirs_exist isdir c /\ In m (main_log_file w c f) /\ error_message m /\ stopped_by w c f = None /\ announces_errors (full_main false isdir w c f) = false.
Proof. exact badnav_silent. Qed.
Print Assumptions C82_silent_refuted.
Example C82_ex : main_log_file w_bad (with_level (e_cfg true None) "ERROR") [] = [LOpen RinexError; angles1] /\ dirs_exist every (with_level (e_cfg true None) "ERROR").
Proof. split; [exact bad_log|apply every_dirs]. Qed.
