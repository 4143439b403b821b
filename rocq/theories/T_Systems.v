(** C88: the rows of a system do not depend on the other systems. *)
From Verif Require Import Base PyStr PyFloat PyDate PyPath PyRegex M_Common M_Header M_Obs2 M_Rec M_Text M_Cfg M_Label M_Names M_Xyz M_Nav M_NmUtils M_Num M_Tec M_Sat M_Main.
From Verif Require Import S_Text S_Time S_Out S_Names S_Main S_Alone S_Systems P_Systems E_Main E_Systems.
Open Scope nat_scope.

(** C88.  Observation files from which the records of other systems are taken out: the run ends normally if it did before, and the rows
    are those of before that are of the systems kept.  Missing: runs with a sampling interval (refuted below), coordinates of the site
    that are -0.0, satellites whose position cannot be computed (C44). *)
Theorem C88_rows_partial : forall keep w c o, contents_of keep w c o -> plain_positions w c -> no_sampling w c -> computable_files w c ->
  forall f f', stopped_by w c f = None ->
  stopped_by (with_contents w o) c f' = None /\ Forall2 (rows_kept keep) (snd (fst (main w c f))) (snd (fst (main (with_contents w o) c f'))).
Proof. exact main_det. Qed.
Print Assumptions C88_rows_partial.
(** The result files of these systems differ in their comment lines at most. *)
Theorem C88_files_partial : forall keep w c o, contents_of keep w c o -> plain_positions w c -> no_sampling w c -> computable_files w c ->
  forall f f' pre name ops post sys num, stopped_by w c f = None -> snd (fst (main w c f)) = pre ++ (name, ops) :: post ->
  keep sys = true -> rows_of (sys :: num) ops <> [] ->
  (forall name' ops', In (name', ops') post -> rows_of (sys :: num) ops' <> [] -> marker_of name' <> marker_of name \/ get_rinex_date name' <> get_rinex_date name) ->
  exists d head head' body, get_rinex_date name = Some d /\ comments head /\ comments head' /\
    fs_get (result_file (c_outdir c) (marker_of name) (sys :: num) d) (fst (fst (main w c f))) = Some (head ++ body) /\
    fs_get (result_file (c_outdir c) (marker_of name) (sys :: num) d) (fst (fst (main (with_contents w o) c f'))) = Some (head' ++ body).
Proof. exact results_det. Qed.
Print Assumptions C88_files_partial.
(** With a sampling interval a record of another system decides which records are used. *)
Theorem C88_sampling_refuted : exists keep w c o name sat ops ops' sd nav t q, contents_of keep w c o /\ plain_positions w c /\ computable_files w c /\
  stopped_by w c [] = None /\ stopped_by (with_contents w o) c [] = None /\ written w c [] name ops /\ written (with_contents w o) c [] name ops' /\
  row_of_kept keep (WRow sat sd nav t q) = true /\ In (WRow sat sd nav t q) ops /\ forall sd' nav' q', ~ In (WRow sat sd' nav' t q') ops'.
Proof. exact sampling_mixes. Qed.
Print Assumptions C88_sampling_refuted.
Example C88_example : contents_of gps w_ok (e_cfg false None) (text_of obs2_gps) /\ plain_positions w_ok (e_cfg false None) /\ no_sampling w_ok (e_cfg false None) /\
  computable_files w_ok (e_cfg false None) /\ stopped_by w_ok (e_cfg false None) [] = None /\
  (exists ops, written w_ok (e_cfg false None) [] ok_name ops /\ length (names ops) = 8) /\
  (exists ops, written (with_contents w_ok (text_of obs2_gps)) (e_cfg false None) [] ok_name ops /\ length (names ops) = 7).
Proof. exact systems_example. Qed.
