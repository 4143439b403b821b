(** C74-C76: the text of numbers and dates in the output. *)
From Verif Require Import Base PyStr PyFloat PyDate PyStrftime PyPath S_Text S_Time S_Open2 S_Out S_Rec S_Cfg S_Show S_When M_Common M_Header M_Obs2 M_Rec M_Text M_Cfg M_Label M_Names M_Nav M_Num M_Tec M_Sat M_Main M_Run S_Main S_Run E_Main E_Run P_Show1 P_Show2 P_Show3 P_When P_When2 E_Show.
Open Scope nat_scope.

(** C74.  Every number shown by str() is read back by float(), or int(), as the same number. *)
Theorem C74_numbers : (forall x, is_b64 x -> py_float (show_val (VFloat x)) = Ok x) /\ (forall z, py_int (show_val (VInt z)) = Ok z).
Proof. exact (conj number_back py_int_z). Qed.
Print Assumptions C74_numbers.
(** The interval and the position in the comments of a satellite's file are read back as the interval of the observation file and a
    position announced for it, with all their digits. *)
Theorem C74_comments : forall w c f pre name ops post sat b,
  stopped_by w c f = None -> snd (fst (main w c f)) = pre ++ (name, ops) :: post -> rows_of sat ops <> [] ->
  (forall name' ops', In (name', ops') post -> rows_of sat ops' <> [] -> marker_of name' <> marker_of name \/ get_rinex_date name' <> get_rinex_date name) ->
  open_obs w name = Ok b -> libm_b64 (w_libm w) ->
  exists iv d t p l lines rows i lbh xyz, h_interval (b_hdr b) = Some iv /\ get_rinex_date name = Some d /\ In (WPos t p l) ops /\ geodetic w p l /\
    fs_get (result_file (c_outdir c) (marker_of name) sat d) (fst (fst (main w c f))) = Some (comment_text lines ++ rows) /\
    nth_error lines 3 = Some (lit "Interval: " ++ i) /\ reads_interval i iv /\
    nth_error lines 6 = Some (lit "Position (L, B, H): " ++ lbh) /\ numbers ","%char lbh = three_of l /\
    nth_error lines 7 = Some (lit "Position (X, Y, Z): " ++ xyz) /\ numbers ","%char xyz = three_of p.
Proof. exact numbers_back. Qed.
Print Assumptions C74_comments.
(** So is the GLONASS channel in the satellite's comment ... *)
Theorem C74_channel : forall w c f name ops, written w c f name ops -> forall sat sd nav t q, In (WRow ("R"%char :: sat) sd nav t q) ops ->
  exists n k text, py_int sat = Ok n /\ channel w c t n k /\ sd = ("R"%char :: sat) ++ lit " (k = " ++ text ++ lit ")" /\ py_float text = Ok k.
Proof. exact glonass_back. Qed.
Print Assumptions C74_channel.
(** ... and the longitude and latitude in coordinates.txt. *)
Theorem C74_coordinates : forall w name b line, open_obs w name = Ok b -> libm_b64 (w_libm w) -> coordinates_line w name b line ->
  exists lon lat l bb h, line = firstn 4 (basename name) ++ lit "; " ++ lon ++ lit "; " ++ lat ++ [ascii_of_nat 10] /\
    geodetic w (h_xyz (b_hdr b)) (l, bb, h) /\ py_float lon = Ok l /\ py_float lat = Ok bb.
Proof. exact line_back. Qed.
Print Assumptions C74_coordinates.
Example C74_example :
  (exists ops, stopped_by w_clean (e_cfg true None) [] = None /\ snd (fst (main w_clean (e_cfg true None) [])) = [] ++ (a_name, ops) :: [] /\ rows_of (lit "G01") ops <> []) /\
  libm_b64 (w_libm w_clean) /\
  option_map (fun s => firstn 37 (nth 7 (split_on (ascii_of_nat 10) s) [])) (fs_get g1_out (fst (fst (main w_clean (e_cfg true None) [])))) = Some (lit "# Position (X, Y, Z): 3928475.0, -0.1") /\
  option_map (fun s => nth 3 (split_on (ascii_of_nat 10) s) []) (fs_get g1_out (fst (fst (main w_clean (e_cfg true None) [])))) = Some (lit "# Interval: 30.0") /\
  show_val (VFloat (b64_of_dec false 1 (-1))) = lit "0.1" /\ show_val (VFloat (b64_of_dec true 123456789012345678 5)) = lit "-1.2345678901234568e+22".
Proof. exact (conj clean_written (conj e_lib_b64 clean_text)). Qed.

(** C75.  Rows whose datetime cells are equal agree in the codes of the format ... *)
Theorem C75_codes : forall w c t u d, documented (c_dtformat c) -> common_era t -> common_era u -> oc_strftime (out_of w c) t = oc_strftime (out_of w c) u ->
  uses d (c_dtformat c) -> code_value d t = code_value d u.
Proof. exact cell_codes. Qed.
Print Assumptions C75_codes.
(** ... so a format with the date, hour, minute and second tells the second of the row, and with the microsecond its time. *)
Theorem C75_time : forall w c t u, documented (c_dtformat c) -> to_second (c_dtformat c) -> common_era t -> common_era u ->
  oc_strftime (out_of w c) t = oc_strftime (out_of w c) u -> (instant t - dus t = instant u - dus u)%Z /\ (uses "f" (c_dtformat c) -> t = u).
Proof. exact cell_second. Qed.
Print Assumptions C75_time.
(** The default format does not tell rows of one second apart, although both are rows of a run. *)
Theorem C75_subsecond_refuted : exists w c name ops a b, written w c [] name ops /\ stopped_by w c [] = None /\ c_dtformat c = lit "%Y-%j %H:%M:%S" /\
  map fst (rows_of (lit "G01") ops) = [a; b] /\ a <> b /\ oc_strftime (out_of w c) a = oc_strftime (out_of w c) b.
Proof. exact subsecond. Qed.
Print Assumptions C75_subsecond_refuted.
Example C75_example : let def := lit "%Y-%j %H:%M:%S" in let long := lit "%A, %d %B %Y, %H:%M:%S.%f" in
  documented def /\ to_second def /\ documented long /\ to_second long /\ uses "f" long /\ common_era (mkDT 2012 12 31 23 59 59 999999) /\
  strftime (fun _ => []) def (mkDT 2012 12 31 23 59 59 999999) = lit "2012-366 23:59:59" /\
  strftime (fun _ => []) long (mkDT 2012 12 31 23 59 59 999999) = lit "Monday, 31 December 2012, 23:59:59.999999".
Proof. exact when_example. Qed.

(** C76.  The Fortran format written in the comments gives the width of the datetime cell of every row; missing: %A and %B, years
    before 1000, and the columns of C37. *)
Theorem C76_width_partial : forall e ls fields outdir dtf secs c n, cfg_of e ls fields outdir dtf secs c -> fixed dtf n -> common_era (e_now e) ->
  (forall f, In f [lit "site.l"; lit "site.b"; lit "site.h"] -> ~ In f (rf_fields (c_format c))) ->
  (exists ds s, rf_fortran (c_format c) = "("%char :: s ++ [")"%char] /\ descriptor_list ds s /\ Forall2 (describes n) (rf_fields (c_format c)) ds) /\
  forall w t, common_era t -> List.length (oc_strftime (out_of w c) t) = n.
Proof. exact header_width. Qed.
Print Assumptions C76_width_partial.
(** With the name of the day or of the month the format gives the width of the moment of the run. *)
Theorem C76_names_refuted : exists e c t, read_cfg e (lit "datetimeFormat = '%A'" ++ [ascii_of_nat 10] ++ lit "recFields = 'datetime, el'" ++ [ascii_of_nat 10] ++ lit "navIgnoreAbsence = True") = Ok c /\ common_era (e_now e) /\ common_era t /\
  rf_fortran (c_format c) = lit "(A6,1X,F10.5)" /\ forall w, oc_strftime (out_of w c) t = lit "Wednesday".
Proof. exact day_names_wide. Qed.
Print Assumptions C76_names_refuted.
Example C76_example : exists e c, read_cfg e (lit "recFields = 'datetime, el'" ++ [ascii_of_nat 10] ++ lit "navIgnoreAbsence = True") = Ok c /\ common_era (e_now e) /\ fixed (c_dtformat c) 17 /\ rf_fortran (c_format c) = lit "(A17,1X,F10.5)".
Proof. exact width_example. Qed.
