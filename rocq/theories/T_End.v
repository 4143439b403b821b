(** Properties C77 and C78: from the text of an observation file to the text of a result file.  See S_End, S_Tell. *)
From Coq Require Import Reals.
From Verif Require Import Base PyStr PyFloat PyDate PyPath S_Text S_Time S_Obs2 S_Open2 S_Obs3 S_Label S_Rec S_Tec S_Out M_Common M_Header M_Obs2 M_Obs3 M_Label M_Num M_Tec M_Rec M_Text M_Cfg M_Names M_Nav M_Main S_Main S_End.
From Verif Require Import S_Tell P_End5 P_Tell E_Obs2 E_Main E_End E_Tell.
Open Scope nat_scope.

(** C77.  After a run every row of a satellite's file belongs to a block of the well-formed observation file (version 2 or 3) and says
    what that block states of the satellite: its time; the decimals of the observables and their loss-of-lock indicators; the slant TEC
    that two observables are the delays of, to less than a thousandth; zero where an observable is absent. *)
Theorem C77_rows : forall w c n fields, compose_rec_format n fields = Ok (c_format c) -> squares w ->
  forall f pre name ops post sat stated, stopped_by w c f = None -> snd (fst (main w c f)) = pre ++ (name, ops) :: post -> rows_of sat ops <> [] ->
  (forall name' ops', In (name', ops') post -> rows_of sat ops' <> [] -> marker_of name' <> marker_of name \/ get_rinex_date name' <> get_rinex_date name) ->
  well_formed w name stated ->
  exists d h rows, get_rinex_date name = Some d /\ fs_get (result_file (c_outdir c) (marker_of name) sat d) (fst (fst (main w c f))) = Some (h ++ concat rows) /\
    comments h /\ List.length rows = List.length (rows_of sat ops) /\ Forall (row_says w c stated sat) rows.
Proof. exact end_rows. Qed.
Print Assumptions C77_rows.
(** A run over a RINEX 2 file with satellites of GPS and GLONASS meets the hypotheses; the last rows of two of its result files. *)
Example C77_example : let r := main w_ok end_cfg [] in
  compose_rec_format 8 end_fields = Ok (c_format end_cfg) /\ squares w_ok /\ well_formed w_ok site_name e_stated /\ stopped_by w_ok end_cfg [] = None /\
  (exists ops, snd (fst r) = [] ++ (site_name, ops) :: [] /\ rows_of (lit "G01") ops <> [] /\ rows_of (lit "R01") ops <> []) /\
  (exists b, fs_get g01_file (fst (fst r)) = Some (b ++ g01_row)) /\ (exists b, fs_get r01_file (fst (fst r)) = Some (b ++ r01_row)).
Proof. exact end_example. Qed.
(** Values stated by that file that meet the hypotheses of the columns: two pseudoranges, a blank phase, the frequencies of a GPS and
    of a GLONASS satellite, a slant TEC. *)
Example C77_columns_example : let f1 := IZR 1575420000 in let f2 := IZR 1227600000 in let t := t_at 0 0 0 0 in exists r s,
  e_stated t (lit "G01") g01_vals /\
  observable g01_vals cC1 (FVal false 20000000000 0 7) /\ decimal (FVal false 20000000000 0 7) 20000000 0 /\
  observable g01_vals cP2 (FVal false 20000000123 0 0) /\ decimal (FVal false 20000000123 0 0) (20000000 + 123 / 1000) 0 /\
  absent g01_vals cL2 /\ frequency w_ok end_cfg t (lit "G01") "1" f1 /\ frequency w_ok end_cfg t (lit "G01") "2" f2 /\
  frequency w_ok end_cfg t (lit "R01") "1" (IZR 1604812500) /\
  (20000000 = r + delay s f1 /\ 20000000 + 123 / 1000 = r + delay s f2 /\ Rabs s <= 1000000)%R.
Proof. exact slant_example. Qed.

(** C78.  The rows of a satellite's file are an account of the observation file: for every record it states of the satellite at a time of
    the day and of the sampling, in the order of the file, there is one row that says what the record states, or none for one of the
    reasons of C58. *)
Theorem C78_account : forall w c n fields, compose_rec_format n fields = Ok (c_format c) -> squares w ->
  forall f pre name ops post sat b facts kept, stopped_by w c f = None -> snd (fst (main w c f)) = pre ++ (name, ops) :: post -> rows_of sat ops <> [] ->
  (forall name' ops', In (name', ops') post -> rows_of sat ops' <> [] -> marker_of name' <> marker_of name \/ get_rinex_date name' <> get_rinex_date name) ->
  open_obs w name = Ok b -> file_states w name facts -> used_facts c b facts kept ->
  exists d h rows xyzs, get_rinex_date name = Some d /\ fs_get (result_file (c_outdir c) (marker_of name) sat d) (fst (fst (main w c f))) = Some (h ++ concat rows) /\
    comments h /\ coordinates w c name xyzs /\ told w c xyzs b sat kept rows.
Proof. exact end_told. Qed.
Print Assumptions C78_account.
(** A satellite without rows: every record of it has such a reason. *)
Theorem C78_none : forall w c n fields, compose_rec_format n fields = Ok (c_format c) -> squares w ->
  forall f name ops sat b facts kept, stopped_by w c f = None -> written w c f name ops -> ops <> [] -> rows_of sat ops = [] ->
  open_obs w name = Ok b -> file_states w name facts -> used_facts c b facts kept ->
  exists xyzs, coordinates w c name xyzs /\ told w c xyzs b sat kept [].
Proof. exact end_untold. Qed.
Print Assumptions C78_none.
(** Which of the stated records are used is determined by the sampling interval. *)
Theorem C78_used : forall c b facts d, interval_is b d -> match c_sampling c with Some iv => (Z.abs iv < 2 ^ 52)%Z | None => True end ->
  exists kept, used_facts c b facts kept /\ forall kept', used_facts c b facts kept' -> kept' = kept.
Proof. exact used_facts_fun. Qed.
Print Assumptions C78_used.
Example C78_example : let r := main w_ok end_cfg [] in
  compose_rec_format 8 end_fields = Ok (c_format end_cfg) /\ squares w_ok /\ stopped_by w_ok end_cfg [] = None /\
  (exists ops, snd (fst r) = [] ++ (site_name, ops) :: [] /\ rows_of (lit "G01") ops <> [] /\ rows_of (lit "R01") ops <> []) /\
  (exists b, open_obs w_ok site_name = Ok b /\ used_facts end_cfg b e_facts e_facts) /\ file_states w_ok site_name e_facts /\ List.length e_facts = 15.
Proof. exact tell_example. Qed.
(** the same with one record a minute: seven of the fifteen records are used *)
Example C78_sampled_example : let r := main w_ok min_cfg [] in
  compose_rec_format 8 end_fields = Ok (c_format min_cfg) /\ stopped_by w_ok min_cfg [] = None /\
  (exists ops, snd (fst r) = [] ++ (site_name, ops) :: [] /\ List.length (rows_of (lit "G01") ops) = 2) /\
  (exists b, open_obs w_ok site_name = Ok b /\ thins min_cfg b 60000000 /\ used_facts min_cfg b e_facts min_facts) /\ List.length min_facts = 7.
Proof. exact min_example. Qed.
