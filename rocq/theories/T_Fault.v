(** C79, C80: disks that refuse operations, and --save-coordinates that is stopped.  [faulty w c f f' e]: a run of the configuration
    [c] that starts with the files [f], where any operation on a result file may be refused, ends with the files [f'] and the exception
    [e].  [main w c f] and [save_main w c f] are the runs (without and with --save-coordinates) that nothing disturbs. *)
From Verif Require Import Base PyStr PyFloat PyDate PyPath PyRegex M_Common M_Header M_Obs2 M_Obs3 M_Label M_Rec M_Text M_Cfg M_Names M_Xyz M_Nav M_NmUtils M_Num M_Tec M_Sat M_Main M_Run M_Disk M_Fault.
From Verif Require Import S_Time S_Obs2 S_Out S_Names S_Main S_Run S_Disk S_Fault E_Main E_Run E_Disk P_Fault E_Fault.
Open Scope nat_scope.

(** C79.  A run that ends normally has written all its results, whatever the disk did: no refused operation goes unnoticed. *)
Theorem C79_noticed : forall w c f f', faulty w c f f' None -> stopped_by w c f = None /\ forall p, fs_get p f' = fs_get p (fst (fst (main w c f))).
Proof. exact faulty_noticed. Qed.
Print Assumptions C79_noticed.
(** a refused operation stops the run with OSError; nothing else stops a run that would otherwise end *)
Theorem C79_stops : forall w c f f' e, faulty w c f f' e -> e = Some OSError \/ e = stopped_by w c f.
Proof. exact faulty_exn. Qed.
Print Assumptions C79_stops.
(** however it ends, each file is as it was before or the beginning of a result file *)
Theorem C79_beginning : forall w c f f' e, faulty w c f f' e -> forall p, fs_get p f' = fs_get p f \/
  exists name ops sat day iv x full, written w c f name ops /\ get_rinex_date name = Some day /\ p = result_file (c_outdir c) (marker_of name) sat day /\
    (rows_of sat ops <> [] -> exists b, open_obs w name = Ok b /\ h_interval (b_hdr b) = Some iv) /\ (stopped_by w c f = None -> rows_of sat ops <> []) /\
    fs_get p f' = Some x /\ begins x full /\ file_of_rows (out_of w c) iv (rows_of sat ops) full.
Proof. exact faulty_beginning. Qed.
Print Assumptions C79_beginning.
(** the refused operation belongs to one of the observation files, and the results of those before it are complete *)
Theorem C79_where : forall w c f f' e, faulty w c f f' e -> e <> stopped_by w c f -> exists n, faulty_after n w c f f'.
Proof. exact faulty_where. Qed.
Print Assumptions C79_where.
Theorem C79_finished : forall w c n f f' l1 name ops l2 sat, faulty_after n w c f f' -> snd (fst (main w c f)) = l1 ++ (name, ops) :: l2 -> length l1 < n ->
  rows_of sat ops <> [] -> apart (stopped_by w c f) name sat (firstn (n - length l1) l2) ->
  exists b iv d content, open_obs w name = Ok b /\ h_interval (b_hdr b) = Some iv /\ get_rinex_date name = Some d /\
    fs_get (result_file (c_outdir c) (marker_of name) sat d) f' = Some content /\ file_of_rows (out_of w c) iv (rows_of sat ops) content.
Proof. exact faulty_done. Qed.
Print Assumptions C79_finished.
(** when the disk works again, running again gives the results of a run that nothing disturbed *)
Theorem C79_again : forall w c f f' e, faulty w c f f' e -> stopped_by w c f = None ->
  stopped_by w c f' = None /\ forall p, fs_get p (fst (fst (main w c f'))) = fs_get p (fst (fst (main w c f))).
Proof. exact faulty_again. Qed.
Print Assumptions C79_again.
(** the disk is full while the second row is written: 500 of 538 characters *)
Example C79_example : exists f', faulty w_clean (e_cfg true None) [(g1_out, lit "old")] f' (Some OSError) /\ stopped_by w_clean (e_cfg true None) [(g1_out, lit "old")] = None /\
  lengths f' = [(g1_out, 500)].
Proof. exact disk_full. Qed.
Example C79_good_example : forall w c f, exists f', faulty w c f f' (stopped_by w c f).
Proof. exact disk_good. Qed.
(** the result file of the second of two observation files cannot be opened *)
Example C79_finished_example : exists f' ops l2, faulty_after 1 w_obs2 (e_cfg true None) [] f' /\ snd (fst (main w_obs2 (e_cfg true None) [])) = [] ++ (a_name, ops) :: l2 /\
  rows_of (lit "G01") ops <> [] /\ l2 <> [] /\ apart (stopped_by w_obs2 (e_cfg true None) []) a_name (lit "G01") l2.
Proof. exact second_refused. Qed.

(** C80.  --save-coordinates stopped at any moment: no other file is changed, and coordinates.txt is as it was before or the beginning
    of the complete one. *)
Theorem C80_beginning : forall w c f f', save_killed w c f f' -> (forall p, p <> lit "coordinates.txt" -> fs_get p f' = fs_get p f) /\
  (fs_get (lit "coordinates.txt") f' = fs_get (lit "coordinates.txt") f \/
   exists x full, fs_get (lit "coordinates.txt") f' = Some x /\ fs_get (lit "coordinates.txt") (fst (save_main w c f)) = Some full /\ begins x full).
Proof. exact save_beginning. Qed.
Print Assumptions C80_beginning.
(** running again gives the files of a run that nothing stopped *)
Theorem C80_again : forall w c f f', save_killed w c f f' ->
  snd (save_main w c f') = snd (save_main w c f) /\ forall p, fs_get p (fst (save_main w c f')) = fs_get p (fst (save_main w c f)).
Proof. exact save_again. Qed.
Print Assumptions C80_again.
(** at its end, or at the exception that stops it, the file has all its lines *)
Theorem C80_exit : forall w c f f' e, save_exits w c f f' e -> e = snd (save_main w c f) /\ forall p, fs_get p f' = fs_get p (fst (save_main w c f)).
Proof. exact save_exit. Qed.
Print Assumptions C80_exit.
(** a refused operation does not go unnoticed, and leaves what a stopped run leaves *)
Theorem C80_noticed : forall w c f f', save_faulty w c f f' None -> snd (save_main w c f) = None /\ forall p, fs_get p f' = fs_get p (fst (save_main w c f)).
Proof. exact save_noticed. Qed.
Print Assumptions C80_noticed.
Theorem C80_refused : forall w c f f' e, save_faulty w c f f' e -> save_killed w c f f'.
Proof. exact save_faulty_killed. Qed.
Print Assumptions C80_refused.
(** two observation files; the run is stopped when 50 of 86 characters are in the file, or refused after 20 *)
Example C80_example : (exists f', save_killed w_crd2 (e_cfg true None) old_crds f' /\ lengths f' = [(lit "a.txt", 4); (lit "coordinates.txt", 50)]) /\
  snd (save_main w_crd2 (e_cfg true None) old_crds) = None /\ lengths (fst (save_main w_crd2 (e_cfg true None) old_crds)) = [(lit "a.txt", 4); (lit "coordinates.txt", 86)].
Proof. exact crd2_example. Qed.
Example C80_refused_example : exists f', save_faulty w_crd2 (e_cfg true None) old_crds f' (Some OSError) /\ lengths f' = [(lit "a.txt", 4); (lit "coordinates.txt", 20)].
Proof. exact crd2_refused. Qed.
Example C80_exit_example : forall w c f, exists f', save_exits w c f f' (snd (save_main w c f)).
Proof. exact crd_good. Qed.
