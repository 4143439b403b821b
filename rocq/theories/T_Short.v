(** C90: what comes later in an observation file changes nothing of the rows before. *)
From Verif Require Import Base PyStr PyFloat PyDate PyPath PyRegex PyStrftime M_Common M_Header M_Obs2 M_Rec M_Text M_Cfg M_Label M_Names M_Xyz M_Nav M_NmUtils M_Num M_Tec M_Sat M_Main.
From Verif Require Import S_Text S_Time S_Out S_Names S_Main S_Alone S_Systems S_Short P_Short P_Short3 E_Main E_Systems E_Short.
Open Scope nat_scope.

(** C90.  Observation files of which the end is missing: the run ends normally if the run over the complete files does, and what is
    written for each file is the beginning of what is written for the complete file.  Missing: satellites whose position cannot be
    computed (C44). *)
Theorem C90_rows_partial : forall w c o, cut_contents w c o -> computable_files w c -> forall f f', stopped_by w c f = None ->
  stopped_by (with_contents w o) c f' = None /\ Forall2 writes_less (snd (fst (main w c f))) (snd (fst (main (with_contents w o) c f'))).
Proof. exact main_short. Qed.
Print Assumptions C90_rows_partial.
(** The file of a satellite has, after its comment lines, the first rows it has for the complete observation file. *)
Theorem C90_files_partial : forall w c o, cut_contents w c o -> computable_files w c ->
  forall f f' pre' name ops' post' sat, stopped_by w c f = None -> snd (fst (main (with_contents w o) c f')) = pre' ++ (name, ops') :: post' ->
  rows_of sat ops' <> [] -> (forall name' os, In (name', os) post' -> marker_of name' <> marker_of name \/ get_rinex_date name' <> get_rinex_date name) ->
  exists d head head' rows missing, get_rinex_date name = Some d /\ comments head /\ comments head' /\
    fs_get (result_file (c_outdir c) (marker_of name) sat d) (fst (fst (main w c f))) = Some (head ++ concat rows ++ missing) /\
    fs_get (result_file (c_outdir c) (marker_of name) sat d) (fst (fst (main (with_contents w o) c f'))) = Some (head' ++ concat rows) /\
    exists b iv, open_obs w name = Ok b /\ h_interval (b_hdr b) = Some iv /\
      Forall2 (fun tq row => row_text (c_format c) (strftime (w_strftime w) (c_dtformat c)) iv (fst tq) (snd tq) = Ok row) (rows_of sat ops') rows.
Proof. exact results_short. Qed.
Print Assumptions C90_files_partial.
(** A text of which the last lines are missing is such a beginning: RINEX 2, when what is left has eleven different times (the
    interval is taken from them) ... *)
Theorem C90_text2 : forall w o name lines more v b b', w_content w name = Ok (lines ++ more) -> o name = Ok lines -> open_obs w name = Ok b ->
  open_obs (with_contents w o) name = Ok b' -> obs_class (hd [] lines) = Ok v -> ver_lt3 v = true -> eleven_times v lines ->
  b_end b' = GStop \/ b_end b' = GRaise RinexError -> beginning_of b b'.
Proof. exact cut_text2. Qed.
Print Assumptions C90_text2.
(** ... and RINEX 3, when the interval is the same. *)
Theorem C90_text3 : forall w o name lines more v b b', w_content w name = Ok (lines ++ more) -> o name = Ok lines -> open_obs w name = Ok b ->
  open_obs (with_contents w o) name = Ok b' -> obs_class (hd [] lines) = Ok v -> ver_lt3 v = false -> h_interval (b_hdr b') = h_interval (b_hdr b) ->
  b_end b' = GStop \/ b_end b' = GRaise RinexError -> beginning_of b b'.
Proof. exact cut_text3. Qed.
Print Assumptions C90_text3.
Example C90_example : cut_contents w_ok (e_cfg false None) (text_of obs2_cut) /\ computable_files w_ok (e_cfg false None) /\
  stopped_by w_ok (e_cfg false None) [] = None /\
  (exists ops, written w_ok (e_cfg false None) [] ok_name ops /\ length (names ops) = 8) /\
  (exists ops, written (with_contents w_ok (text_of obs2_cut)) (e_cfg false None) [] ok_name ops /\ length (names ops) = 6).
Proof. exact short_example. Qed.
Example C90_text2_example : exists w o lines more b b', w_content w ok_name = Ok (lines ++ more) /\ o ok_name = Ok lines /\ open_obs w ok_name = Ok b /\
  open_obs (with_contents w o) ok_name = Ok b' /\ obs_class (hd [] lines) = Ok V211 /\ eleven_times V211 lines /\ b_end b' = GRaise RinexError /\
  length (b_steps b) = 26 /\ length (b_steps b') = 25.
Proof. exact text2_example. Qed.
Example C90_text3_example : exists w o lines more b b', w_content w ok_name = Ok (lines ++ more) /\ o ok_name = Ok lines /\ open_obs w ok_name = Ok b /\
  open_obs (with_contents w o) ok_name = Ok b' /\ obs_class (hd [] lines) = Ok V302 /\ h_interval (b_hdr b') = h_interval (b_hdr b) /\ b_end b' = GStop /\
  length (b_steps b) = 5 /\ length (b_steps b') = 3.
Proof. exact text3_example. Qed.
