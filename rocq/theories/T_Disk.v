(** C69, C70: runs that are stopped.  [killed w c f f'] says that a run of the configuration [c] that starts with the files [f] was
    stopped after any of its file operations, with any part of the text still in the buffers, and that the files then are [f'].
    [main w c f] is the run that nothing stops from outside. *)
From Coq Require Import Relations.Relation_Operators.
From Verif Require Import Base PyStr PyFloat PyDate PyPath PyRegex M_Common M_Header M_Obs2 M_Rec M_Text M_Cfg M_Names M_Xyz M_Nav M_NmUtils M_Num M_Tec M_Sat M_Main M_Run M_Disk.
From Verif Require Import S_Time S_Obs2 S_Out S_Names S_Main S_Run S_Disk E_Main P_Disk5 E_Run E_Disk.
Open Scope nat_scope.

(** C69.  Every file is as it was before, or it is the beginning of a result file that the run was about to write.  Missing: a result
    file that exists is complete, or can be told from a complete one (refuted below). *)
Theorem C69_beginning_partial : forall w c f f', killed w c f f' -> forall p, fs_get p f' = fs_get p f \/
  exists name ops sat day iv x full, written w c f name ops /\ get_rinex_date name = Some day /\ p = result_file (c_outdir c) (marker_of name) sat day /\
    (rows_of sat ops <> [] -> exists b, open_obs w name = Ok b /\ h_interval (b_hdr b) = Some iv) /\ (stopped_by w c f = None -> rows_of sat ops <> []) /\
    fs_get p f' = Some x /\ begins x full /\ file_of_rows (out_of w c) iv (rows_of sat ops) full.
Proof. exact killed_beginning. Qed.
Print Assumptions C69_beginning_partial.
(** the observation files that were done have their complete results, unless a later one of the same site and day replaces them *)
Theorem C69_finished : forall w c n f f' l1 name ops l2 sat, killed_after n w c f f' -> snd (fst (main w c f)) = l1 ++ (name, ops) :: l2 -> length l1 < n ->
  rows_of sat ops <> [] -> apart (stopped_by w c f) name sat (firstn (n - length l1) l2) ->
  exists b iv d content, open_obs w name = Ok b /\ h_interval (b_hdr b) = Some iv /\ get_rinex_date name = Some d /\
    fs_get (result_file (c_outdir c) (marker_of name) sat d) f' = Some content /\ file_of_rows (out_of w c) iv (rows_of sat ops) content.
Proof. exact killed_done. Qed.
Print Assumptions C69_finished.
(** a run that an exception stops has all rows written before it *)
Theorem C69_exception : forall w c f f' l1 name ops l2 sat, exits w c f f' -> snd (fst (main w c f)) = l1 ++ (name, ops) :: l2 -> rows_of sat ops <> [] ->
  apart (stopped_by w c f) name sat l2 ->
  exists b iv d content, open_obs w name = Ok b /\ h_interval (b_hdr b) = Some iv /\ get_rinex_date name = Some d /\
    fs_get (result_file (c_outdir c) (marker_of name) sat d) f' = Some content /\ file_of_rows (out_of w c) iv (rows_of sat ops) content.
Proof. exact exit_files. Qed.
Print Assumptions C69_exception.
(** a run that ends by itself leaves the same files whenever the buffers are written *)
Theorem C69_normal : forall w c f d, stopped_by w c f = None -> moves (mkDisk f []) (operations w c) d -> forall p, fs_get p (d_files d) = fs_get p (fst (fst (main w c f))).
Proof. exact ends_with. Qed.
Print Assumptions C69_normal.
(** the claim fails: what a stopped run leaves can be the complete result of another observation file, a file cut inside a row, or
    an empty file where the result of an earlier run was *)
Theorem C69_refuted : exists w w' c f', killed w c [] f' /\ stopped_by w c [] = None /\ stopped_by w' c [] = None /\
  fst (fst (main w' c [])) = f' /\ f' <> [] /\ fst (fst (main w c [])) <> f'.
Proof. exact looks_complete. Qed.
Print Assumptions C69_refuted.
Theorem C69_row_refuted : exists w c f' p x, killed w c [] f' /\ stopped_by w c [] = None /\ fs_get p f' = Some x /\ x <> [] /\ forall y, x <> y ++ [ascii_of_nat 10].
Proof. exact cut_row. Qed.
Print Assumptions C69_row_refuted.
Theorem C69_old_refuted : exists w c f f' p old, fs_get p f = Some old /\ old <> [] /\ f = fst (fst (main w c [])) /\ stopped_by w c f = None /\ killed w c f f' /\ fs_get p f' = Some [].
Proof. exact old_lost. Qed.
Print Assumptions C69_old_refuted.
Example C69_example : exists f' ops l2, killed_after 1 w_obs2 (e_cfg true None) [] f' /\ snd (fst (main w_obs2 (e_cfg true None) [])) = [] ++ (a_name, ops) :: l2 /\
  rows_of (lit "G01") ops <> [] /\ l2 <> [] /\ apart (stopped_by w_obs2 (e_cfg true None) []) a_name (lit "G01") l2 /\ lengths f' = [(g1_out, 538); (b_out, 0)].
Proof. exact between_files. Qed.
Example C69_exception_example : exists f' ops, exits w_junk (e_cfg true None) [] f' /\ stopped_by w_junk (e_cfg true None) [] = Some AttributeError /\
  snd (fst (main w_junk (e_cfg true None) [])) = [] ++ (lit "/obs/aaaa0010.15o", ops) :: [] /\ rows_of (lit "G01") ops <> [].
Proof. exact exit_exception. Qed.

(** C70.  A run that was stopped at any moment is made good by running again: the files are then those of a run that nothing
    stopped. *)
Theorem C70_again : forall w c f f', killed w c f f' -> stopped_by w c f = None ->
  stopped_by w c f' = None /\ forall p, fs_get p (fst (fst (main w c f'))) = fs_get p (fst (fst (main w c f))).
Proof. exact killed_again. Qed.
Print Assumptions C70_again.
(** ... and so does any number of stopped runs before it *)
Theorem C70_history : forall w c f f', clos_refl_trans_1n fs (killed w c) f f' -> stopped_by w c f = None ->
  stopped_by w c f' = None /\ forall p, fs_get p (fst (fst (main w c f'))) = fs_get p (fst (fst (main w c f))).
Proof. exact killed_often. Qed.
Print Assumptions C70_history.
Example C70_example : exists f f', killed w_clean (e_cfg true None) f f' /\ stopped_by w_clean (e_cfg true None) f = None /\ f <> [] /\ fs_get g1_out f' = Some [].
Proof. exact cut_old. Qed.
