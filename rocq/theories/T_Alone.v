(** C83, C84: what else is in the directories.  [with_ls w ls]: the same world, but the directories list what [ls] says. *)
From Verif Require Import Base PyStr PyFloat PyDate PyPath PyRegex M_Common M_Header M_Obs2 M_Rec M_Text M_Cfg M_Label M_Names M_Xyz M_Nav M_NmUtils M_Num M_Tec M_Sat M_Main M_Run.
From Verif Require Import S_Text S_Time S_Out S_Names S_Main S_Fresh S_Run S_Alone P_Alone P_Alone2 E_Obs2 E_Main E_Run E_Alone.
Open Scope nat_scope.

(** C83.  A run over some of the observation files ends like the run over all of them, and writes for each of its files the same;
    missing: records whose position cannot be computed (refuted below). *)
Theorem C83_rows_partial : forall w c ls, same_aids w c ls -> computable_files w c ->
  forall f f', stopped_by w c f = None -> find_files ls (c_obsdir c) RE_OBS <> [] ->
  (forall nm, In nm (find_files ls (c_obsdir c) RE_OBS) -> In nm (find_files (w_ls w) (c_obsdir c) RE_OBS)) ->
  stopped_by (with_ls w ls) c f' = None /\
  (forall name ops, In name (find_files ls (c_obsdir c) RE_OBS) -> (written (with_ls w ls) c f' name ops <-> written w c f name ops)).
Proof. exact alone_written. Qed.
Print Assumptions C83_rows_partial.
(** The result files are the same, unless another file of the run over all has the same site name and day. *)
Theorem C83_files_partial : forall w c ls, same_aids w c ls -> computable_files w c ->
  forall f f' name ops sat d, stopped_by w c f = None ->
  (forall nm, In nm (find_files ls (c_obsdir c) RE_OBS) -> In nm (find_files (w_ls w) (c_obsdir c) RE_OBS)) ->
  In name (find_files ls (c_obsdir c) RE_OBS) -> written w c f name ops -> rows_of sat ops <> [] -> get_rinex_date name = Some d ->
  (forall name' ops', written w c f name' ops' -> rows_of sat ops' <> [] -> name' = name \/ marker_of name' <> marker_of name \/ get_rinex_date name' <> get_rinex_date name) ->
  let p := result_file (c_outdir c) (marker_of name) sat d in
  fs_get p (fst (fst (main (with_ls w ls) c f'))) = fs_get p (fst (fst (main w c f))).
Proof. exact alone_files. Qed.
Print Assumptions C83_files_partial.
(** A file has rows in company and none when processed alone. *)
Theorem C83_refuted : exists w c ls name ops, same_aids w c ls /\ find_files ls (c_obsdir c) RE_OBS = [name] /\ In name (find_files (w_ls w) (c_obsdir c) RE_OBS) /\
  stopped_by w c [] = None /\ stopped_by (with_ls w ls) c [] = None /\
  written w c [] name ops /\ (exists sat sd nav t q, In (WRow sat sd nav t q) ops) /\
  forall ops', written (with_ls w ls) c [] name ops' -> forall sat sd nav t q, ~ In (WRow sat sd nav t q) ops'.
Proof. exact alone_differs. Qed.
Print Assumptions C83_refuted.
Example C83_example : same_aids w_obs2 (e_cfg true None) ls_a /\ computable_files w_obs2 (e_cfg true None) /\ stopped_by w_obs2 (e_cfg true None) [] = None /\
  find_files ls_a (c_obsdir (e_cfg true None)) RE_OBS = [a_name] /\ In a_name (find_files (w_ls w_obs2) (c_obsdir (e_cfg true None)) RE_OBS) /\
  find_files (w_ls w_obs2) (c_obsdir (e_cfg true None)) RE_OBS <> [a_name] /\
  exists ops, written w_obs2 (e_cfg true None) [] a_name ops /\ names ops = [n3 "G01" 0 0; n3 "G01" 0 30].
Proof. exact alone_example. Qed.

(** C84.  Files without a RINEX extension in their names do not matter, in whatever number and wherever listed. *)
Theorem C84_others : forall save isdir w c ls f, (forall d, In d (c_obsdir c) \/ In d (c_navdir c) -> with_others (w_ls w d) (ls d)) ->
  full_main save isdir (with_ls w ls) c f = full_main save isdir w c f.
Proof. exact others_free. Qed.
Print Assumptions C84_others.
Example C84_example : (forall d, In d (c_obsdir (e_cfg true None)) \/ In d (c_navdir (e_cfg true None)) -> with_others (w_ls w_clean d) (ls_more d)) /\
  length (ls_more (lit "/obs")) = 4 /\ no_rinex (lit "readme.txt") /\ ~ no_rinex (lit "copy of aaaa0010.12o").
Proof. exact others_example. Qed.
