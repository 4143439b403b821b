(** C85, C86, C87: a setting changes what it says and nothing else. *)
From Verif Require Import Base PyStr PyFloat PyDate PyPath PyRegex M_Common M_Header M_Obs2 M_Rec M_Text M_Cfg M_Label M_Names M_Xyz M_Nav M_NmUtils M_Num M_Tec M_Sat M_Main M_Run.
From Verif Require Import S_Text S_Time S_Out S_Names S_Main S_Settings P_Set1 P_Set2 P_Set3 E_Main E_Set.
Open Scope nat_scope.

(** C85.  With another outDir (and logLevel and logFileName), from whatever file systems: the same end, the same calls of the writers,
    and every result file is found at the same place below the other directory, with the same contents. *)
Theorem C85_run : forall w c c', same_inputs c c' -> c_format c = c_format c' -> c_ignore c = c_ignore c' -> c_dtformat c = c_dtformat c' ->
  forall f f', snd (fst (main w c f)) = snd (fst (main w c' f')) /\ stopped_by w c f = stopped_by w c' f'.
Proof. exact main_moved. Qed.
Print Assumptions C85_run.
Theorem C85_files : forall w c c', same_inputs c c' -> c_format c = c_format c' -> c_ignore c = c_ignore c' -> c_dtformat c = c_dtformat c' ->
  forall f f' name ops sat d, stopped_by w c f = None -> written w c f name ops -> rows_of sat ops <> [] -> get_rinex_date name = Some d ->
  fs_get (result_file (c_outdir c) (marker_of name) sat d) (fst (fst (main w c f))) =
  fs_get (result_file (c_outdir c') (marker_of name) sat d) (fst (fst (main w c' f'))).
Proof. exact result_moved. Qed.
Print Assumptions C85_files.
(** The whole program, missing directories included: the same calls of the writers, the same number of errors, the same end. *)
Theorem C85_end : forall w c c', same_inputs c c' -> c_format c = c_format c' -> c_ignore c = c_ignore c' -> c_dtformat c = c_dtformat c' ->
  forall isdir f f', let o := full_main false isdir w c f in let o' := full_main false isdir w c' f' in
  o_log o = o_log o' /\ o_errors o = o_errors o' /\ o_exn o = o_exn o'.
Proof. exact full_moved. Qed.
Print Assumptions C85_end.
(** With --save-coordinates none of these settings, the format included, has any effect: the files too are the same. *)
Theorem C85_save : forall w c c', same_inputs c c' -> forall isdir f, full_main true isdir w c f = full_main true isdir w c' f.
Proof. exact save_set. Qed.
Print Assumptions C85_save.
Example C85_example : same_inputs (s_cfg f1 "/out" true) (s_cfg f1 "/elsewhere/" true) /\ stopped_by w_ok (s_cfg f1 "/out" true) [] = None /\
  (exists ops, written w_ok (s_cfg f1 "/out" true) [] ok_name ops /\ length (rows_of (lit "G01") ops) = 4) /\ get_rinex_date ok_name = Some (2012, 1, 1)%Z /\
  result_file (lit "/elsewhere/") (marker_of ok_name) (lit "G01") (2012, 1, 1)%Z = lit "/elsewhere/2012/001/site/site_G01_001_12.dat" /\
  fs_get (lit "/elsewhere/2012/001/site/site_G01_001_12.dat") (fst (fst (main w_ok (s_cfg f1 "/elsewhere/" true) []))) <> None.
Proof. exact moved_example. Qed.

(** C86.  With another recFields, outDir, datetimeFormat, logLevel and logFileName: file by file the same positions and rows, with the same
    values in every column the formats share; missing: the column tec.l8c8 without tec.l1c1 and tec.l2c2 (refuted below). *)
Theorem C86_columns_partial : forall w c c', same_inputs c c' -> c_ignore c = c_ignore c' ->
  forall f f', stopped_by w c f = None -> stopped_by w c' f' = None ->
  Forall2 (same_entries c c') (snd (fst (main w c f))) (snd (fst (main w c' f'))).
Proof. exact set_format. Qed.
Print Assumptions C86_columns_partial.
(** The runs count the same number of errors. *)
Theorem C86_errors : forall w c c', same_inputs c c' -> c_ignore c = c_ignore c' -> forall isdir f f',
  let o := full_main false isdir w c f in let o' := full_main false isdir w c' f' in o_exn o = None -> o_exn o' = None -> o_errors o = o_errors o'.
Proof. exact (fun w c c' H E => full_errors_set w c c' H (eq_ind _ (fun b => c_ignore c = true -> b = true) (fun x => x) _ E)). Qed.
Print Assumptions C86_errors.
(** A column common to both formats is empty with one and has a value with the other. *)
Theorem C86_refuted : exists w c c' name ops ops' sat t q q', same_inputs c c' /\ c_ignore c = c_ignore c' /\ stopped_by w c [] = None /\ stopped_by w c' [] = None /\
  In (lit "tec.l8c8") (rf_fields (c_format c)) /\ In (lit "tec.l8c8") (rf_fields (c_format c')) /\
  written w c [] name ops /\ written w c' [] name ops' /\ rows_of sat ops = [(t, q)] /\ rows_of sat ops' = [(t, q')] /\
  q (QTec "l8c8") = None /\ q' (QTec "l8c8") <> None.
Proof. exact format_matters. Qed.
Print Assumptions C86_refuted.
Example C86_example : same_inputs (s_cfg f1 "/out" true) (s_cfg f2 "/out" true) /\ c_ignore (s_cfg f1 "/out" true) = c_ignore (s_cfg f2 "/out" true) /\
  stopped_by w_ok (s_cfg f1 "/out" true) [] = None /\ stopped_by w_ok (s_cfg f2 "/out" true) [] = None /\
  wanted (s_cfg f1 "/out" true) "p1p2" /\ wanted (s_cfg f2 "/out" true) "p1p2" /\ length (column_of (QTec "p1p2") w_ok (s_cfg f2 "/out" true)) = 10.
Proof. exact set_example. Qed.

(** C87.  With navIgnoreAbsence the same rows, and between them rows of zeros. *)
Theorem C87_ignore : forall w c c', same_inputs c c' -> c_ignore c = false -> c_ignore c' = true ->
  forall f f', stopped_by w c f = None -> stopped_by w c' f' = None ->
  Forall2 (zeros_more c c') (snd (fst (main w c f))) (snd (fst (main w c' f'))).
Proof. exact set_ignore. Qed.
Print Assumptions C87_ignore.
Theorem C87_errors : forall w c c', same_inputs c c' -> c_ignore c = false -> c_ignore c' = true -> forall isdir f f',
  let o := full_main false isdir w c f in let o' := full_main false isdir w c' f' in o_exn o = None -> o_exn o' = None -> o_errors o = o_errors o'.
Proof. exact (fun w c c' H _ E => full_errors_set w c c' H (fun _ => E)). Qed.
Print Assumptions C87_errors.
Example C87_errors_example : s_errors (s_cfg f1 "/out" true) = (2, None) /\ s_errors (s_cfg f2 "/elsewhere" true) = (2, None) /\ s_errors (s_cfg f1 "/out" false) = (2, None).
Proof. exact set_errors. Qed.
Example C87_example : same_inputs (s_cfg f1 "/out" false) (s_cfg f1 "/out" true) /\ c_ignore (s_cfg f1 "/out" false) = false /\ c_ignore (s_cfg f1 "/out" true) = true /\
  stopped_by w_ok (s_cfg f1 "/out" false) [] = None /\ stopped_by w_ok (s_cfg f1 "/out" true) [] = None /\
  length (column_of QEl w_ok (s_cfg f1 "/out" true)) = 10 /\ length (column_of QEl w_ok (s_cfg f1 "/out" false)) = 8.
Proof. exact ignore_example. Qed.
