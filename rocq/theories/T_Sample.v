(** C89: a sampling interval leaves rows out and changes none. *)
From Verif Require Import Base PyStr PyFloat PyDate PyPath PyRegex PyStrftime M_Common M_Header M_Obs2 M_Rec M_Text M_Cfg M_Label M_Names M_Xyz M_Nav M_NmUtils M_Num M_Tec M_Sat M_Main.
From Verif Require Import S_Text S_Time S_Out S_Names S_Main S_Alone S_Systems S_Sample P_Sample E_Main E_Sample.
Open Scope nat_scope.

(** C89.  The same run with a sampling interval: it ends normally if it did without, and the rows of each observation file are some of
    those without sampling, with the same values in the same order.  Missing: coordinates of the site that are -0.0, satellites whose
    position cannot be computed (C44). *)
Theorem C89_rows_partial : forall w c iv, plain_positions w c -> no_sampling w c -> computable_files w c ->
  forall f f', stopped_by w c f = None ->
  stopped_by w (with_sampling c iv) f' = None /\ Forall2 rows_left_out (snd (fst (main w c f))) (snd (fst (main w (with_sampling c iv) f'))).
Proof. exact main_fewer. Qed.
Print Assumptions C89_rows_partial.
(** The file of a satellite has, after its comment lines, some of the rows it has without sampling, each with the same text. *)
Theorem C89_files_partial : forall w c iv, plain_positions w c -> no_sampling w c -> computable_files w c ->
  forall f f' pre' name ops' post' sat, stopped_by w c f = None -> snd (fst (main w (with_sampling c iv) f')) = pre' ++ (name, ops') :: post' ->
  rows_of sat ops' <> [] -> (forall name' os, In (name', os) post' -> marker_of name' <> marker_of name \/ get_rinex_date name' <> get_rinex_date name) ->
  exists d head head' rows rows', get_rinex_date name = Some d /\ comments head /\ comments head' /\ left_out rows rows' /\ rows' <> [] /\
    fs_get (result_file (c_outdir c) (marker_of name) sat d) (fst (fst (main w c f))) = Some (head ++ concat rows) /\
    fs_get (result_file (c_outdir c) (marker_of name) sat d) (fst (fst (main w (with_sampling c iv) f'))) = Some (head' ++ concat rows') /\
    exists ops b iv0, In (name, ops) (snd (fst (main w c f))) /\ open_obs w name = Ok b /\ h_interval (b_hdr b) = Some iv0 /\
      Forall2 (fun tq row => row_text (c_format c) (strftime (w_strftime w) (c_dtformat c)) iv0 (fst tq) (snd tq) = Ok row) (rows_of sat ops) rows.
Proof. exact results_fewer. Qed.
Print Assumptions C89_files_partial.
(** Of two intervals the longer does not only leave out more: it may write a row that the shorter one leaves out. *)
Theorem C89_intervals_refuted : exists w c iv iv' name sat ops ops' sd nav t q, (0 < iv < iv')%Z /\ plain_positions w c /\ no_sampling w c /\ computable_files w c /\
  stopped_by w (with_sampling c (Some iv)) [] = None /\ stopped_by w (with_sampling c (Some iv')) [] = None /\
  written w (with_sampling c (Some iv)) [] name ops /\ written w (with_sampling c (Some iv')) [] name ops' /\
  In (WRow sat sd nav t q) ops' /\ forall sd' nav' q', ~ In (WRow sat sd' nav' t q') ops.
Proof. exact longer_keeps. Qed.
Print Assumptions C89_intervals_refuted.
Example C89_example : plain_positions w_ok (e_cfg true None) /\ no_sampling w_ok (e_cfg true None) /\ computable_files w_ok (e_cfg true None) /\
  stopped_by w_ok (e_cfg true None) [] = None /\
  (exists ops, written w_ok (e_cfg true None) [] ok_name ops /\ length (names ops) = 10) /\
  (exists ops, written w_ok (with_sampling (e_cfg true None) (Some 60000000%Z)) [] ok_name ops /\ length (names ops) = 6).
Proof. exact sample_example. Qed.
