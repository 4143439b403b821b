(** Programs that are missing, damaged archives, files that cannot be opened, coordinates beside compact files. *)
From Verif Require Import Base PyStr PyFloat PyDate PyPath PyRegex M_Common M_Header M_Obs2 M_Obs3 M_Label M_Rec M_Text M_Cfg M_Names M_Xyz M_Nav M_NmUtils M_Num M_Tec M_Sat M_Main M_Run M_Expand.
From Verif Require Import S_Text S_Time S_Obs2 S_Open2 S_Names S_Out W_Obs2 E_Obs2 S_Main S_Run S_Expand E_Main E_Main2 E_Run P_Str P_Names6 P_Main1 P_Main3 P_Expand2 P_Expand4 E_Expand.
Open Scope nat_scope.

(** ** no gzip, and a packed navigation file *)
Definition t_nogz : tools := e_tools false [("/obs/site0010.12o", raw_obs); ("/nav/brdc0010.12n.Z", zipped nav2_n)]%string.
Lemma nogz_runs : stopped_by (tools_world t_nogz w_note_z) (e_cfg true None) [] = Some UncompressError /\ row_count (tools_world t_nogz w_note_z) (e_cfg true None) = 0.
Proof. vm_compute. auto. Qed.
(** without that navigation file the run gives rows *)
Lemma nonav_runs : stopped_by (tools_world t_nogz (x_world ["site0010.12o"]%string [])) (e_cfg true None) [] = None /\
  row_count (tools_world t_nogz (x_world ["site0010.12o"]%string [])) (e_cfg true None) = 8.
Proof. vm_compute. auto. Qed.

(** ** a damaged archive *)
Definition cut_at : nat := length (bytes (firstn 19 obs2)).
Definition hurt_obs : str := firstn cut_at raw_obs ++ [hurt_c] ++ skipn cut_at raw_obs.
Definition t_whole : tools := e_tools true [("/obs/site0010.12o.Z", zipped raw_obs); ("/nav/brdc0010.12n", nav2_n)]%string.
Definition t_hurt : tools := e_tools true [("/obs/site0010.12o.Z", zipped hurt_obs); ("/nav/brdc0010.12n", nav2_n)]%string.
Definition w_hurt : world := x_world ["site0010.12o.Z"]%string ["brdc0010.12n"]%string.
Lemma hurt_runs : e_gz (zipped raw_obs) = firstn cut_at raw_obs ++ skipn cut_at raw_obs /\ e_gz (zipped hurt_obs) = firstn cut_at raw_obs /\ skipn cut_at raw_obs <> [] /\
  e_run false (tools_world t_whole w_hurt) (e_cfg true None) = ([lit "/out/2012/001/site/site_G01_001_12.dat"; lit "/out/2012/001/site/site_G02_001_12.dat"; lit "/out/2012/001/site/site_G03_001_12.dat"], 0, None) /\
  row_count (tools_world t_whole w_hurt) (e_cfg true None) = 9 /\
  e_run false (tools_world t_hurt w_hurt) (e_cfg true None) = ([lit "/out/2012/001/site/site_G01_001_12.dat"; lit "/out/2012/001/site/site_G02_001_12.dat"; lit "/out/2012/001/site/site_G03_001_12.dat"], 0, None) /\
  row_count (tools_world t_hurt w_hurt) (e_cfg true None) = 4.
Proof. vm_compute. repeat split; discriminate || reflexivity. Qed.

(** ** an observation file that cannot be opened *)
Definition w_gone : world := x_world ["aaaa0010.12o"; "site0010.12o"]%string ["brdc0010.12n"]%string.
Definition w_gone_z : world := x_world ["aaaa0010.12o.Z"; "site0010.12o"]%string ["brdc0010.12n"]%string.
Definition t_gone : tools := e_tools true [("/obs/site0010.12o", raw_obs); ("/nav/brdc0010.12n", nav2_n)]%string.
Lemma gone_runs : stopped_by (tools_world t_gone w_gone) (e_cfg true None) [] = Some OSError /\ row_count (tools_world t_gone w_gone) (e_cfg true None) = 0 /\
  stopped_by (tools_world t_gone w_gone_z) (e_cfg true None) [] = None /\ row_count (tools_world t_gone w_gone_z) (e_cfg true None) = 9.
Proof. vm_compute. auto. Qed.

(** ** coordinates beside a compact file *)
Definition crd_text : str := bytes [lit "2012-01-01 00:00:00 1.5 2.5 3.5"].
Definition t_crd : tools := e_tools true [("/obs/site0010.12o", raw_obs); ("/obs/site0010.12o.xyz", crd_text); ("/nav/brdc0010.12n", nav2_n)]%string.
Definition t_crd_hat : tools := e_tools true [("/obs/site0010.12d", hat raw_obs); ("/obs/site0010.12o.xyz", crd_text); ("/nav/brdc0010.12n", nav2_n)]%string.
Definition w_crd_o : world := x_world ["site0010.12o"; "site0010.12o.xyz"]%string ["brdc0010.12n"]%string.
Definition w_crd_d : world := x_world ["site0010.12d"; "site0010.12o.xyz"]%string ["brdc0010.12n"]%string.
Lemma crd_runs : site_rows (tools_world t_crd w_crd_o) (e_cfg true None) <> site_rows (tools_world t_crd_hat w_crd_d) (e_cfg true None) /\
  length (site_rows (tools_world t_crd w_crd_o) (e_cfg true None)) = 9 /\ length (site_rows (tools_world t_crd_hat w_crd_d) (e_cfg true None)) = 9.
Proof. split; [|vm_compute; auto]. intros E. assert (H : hd None (site_rows (tools_world t_crd w_crd_o) (e_cfg true None)) = hd None (site_rows (tools_world t_crd_hat w_crd_d) (e_cfg true None))) by now rewrite E. vm_compute in H. discriminate. Qed.

(** ** the statements *)
Lemma nogz_stops : exists t w c obs nav raw b, t_gzip t = None /\ find_files (w_ls w) (c_obsdir c) RE_OBS = [obs] /\ open_obs (tools_world t w) obs = Ok b /\ b_steps b <> [] /\
  w_ls w (lit "/nav") = [nav ++ lit ".Z"] /\ c_navdir c = [lit "/nav"] /\ t_file t (lit "/nav/" ++ nav ++ lit ".Z") = Some raw /\
  stopped_by (tools_world t w) c [] = Some UncompressError /\ row_count (tools_world t w) c = 0 /\
  (exists w', same_machine w w' /\ find_files (w_ls w') (c_obsdir c) RE_OBS = [obs] /\ w_ls w' (lit "/nav") = [] /\ stopped_by (tools_world t w') c [] = None /\ row_count (tools_world t w') c = 8).
Proof.
  exists t_nogz, w_note_z, (e_cfg true None), x_plain, (lit "brdc0010.12n"), (zipped nav2_n), (the_obs (tools_world t_nogz w_note_z) x_plain).
  split; [reflexivity|]. split; [vm_compute; reflexivity|]. split; [apply the_obs_ok; vm_compute; reflexivity|].
  split; [intros E; assert (H : length (b_steps (the_obs (tools_world t_nogz w_note_z) x_plain)) = 0) by (rewrite E; reflexivity); vm_compute in H; discriminate|].
  split; [reflexivity|]. split; [reflexivity|]. split; [reflexivity|]. destruct nogz_runs as [N1 N2]. split; [exact N1|]. split; [exact N2|].
  exists (x_world ["site0010.12o"]%string []). split; [repeat split|]. split; [vm_compute; reflexivity|]. split; [reflexivity|]. exact nonav_runs.
Qed.
Lemma hurt_silent : exists t t' w c path b b' x y gz, t_gzip t = Some gz /\ t_gzip t' = Some gz /\ t_file t path = Some b /\ t_file t' path = Some b' /\ (forall p, p <> path -> t_file t p = t_file t' p) /\
  gz b = x ++ y /\ gz b' = x /\ y <> [] /\ find_files (w_ls w) (c_obsdir c) RE_OBS = [path] /\
  announces_errors (full_main false every (tools_world t w) c []) = false /\ o_exn (full_main false every (tools_world t w) c []) = None /\ row_count (tools_world t w) c = 9 /\
  announces_errors (full_main false every (tools_world t' w) c []) = false /\ o_exn (full_main false every (tools_world t' w) c []) = None /\ row_count (tools_world t' w) c = 4.
Proof.
  exists t_whole, t_hurt, w_hurt, (e_cfg true None), (lit "/obs/site0010.12o.Z"), (zipped raw_obs), (zipped hurt_obs), (firstn cut_at raw_obs), (skipn cut_at raw_obs), e_gz.
  destruct hurt_runs as [H1 [H2 [H3 [H4 [H5 [H6 H7]]]]]]. split; [reflexivity|]. split; [reflexivity|]. split; [reflexivity|]. split; [reflexivity|]. split.
  { intros p Hp. unfold t_whole, t_hurt, e_tools. cbn [t_file map fst snd]. unfold of_files. cbn [map dict_get fst snd]. destruct (seqb p (lit "/obs/site0010.12o.Z")) eqn:E; [apply seqb_eq in E; contradiction|reflexivity]. }
  split; [exact H1|]. split; [exact H2|]. split; [exact H3|]. split; [vm_compute; reflexivity|].
  unfold e_run in H4, H6. unfold announces_errors.
  destruct (full_main false every (tools_world t_whole w_hurt) (e_cfg true None) []) as [f1 l1 n1 e1]. destruct (full_main false every (tools_world t_hurt w_hurt) (e_cfg true None) []) as [f2 l2 n2 e2].
  cbn [o_files o_errors o_exn] in *. apply pair_equal_spec in H4, H6. destruct H4 as [H4 ->], H6 as [H6 ->]. apply pair_equal_spec in H4, H6. destruct H4 as [_ ->], H6 as [_ ->]. repeat split; assumption || reflexivity.
Qed.
Lemma gone_stops : exists t w w' c path, same_machine w w' /\ t_file t path = None /\ t_file t (path ++ lit ".Z") = None /\ t_gzip t <> None /\
  (exists other, find_files (w_ls w) (c_obsdir c) RE_OBS = [path; other] /\ find_files (w_ls w') (c_obsdir c) RE_OBS = [path ++ lit ".Z"; other]) /\
  stopped_by (tools_world t w) c [] = Some OSError /\ row_count (tools_world t w) c = 0 /\
  stopped_by (tools_world t w') c [] = None /\ row_count (tools_world t w') c = 9.
Proof.
  exists t_gone, w_gone, w_gone_z, (e_cfg true None), (lit "/obs/aaaa0010.12o"). split; [repeat split|]. split; [reflexivity|]. split; [reflexivity|]. split; [discriminate|].
  split; [exists x_plain; vm_compute; auto|]. exact gone_runs.
Qed.
Lemma hat_coordinates : exists t t' w w' c name name' raw b, same_machine w w' /\ stored t (lit "/obs") (lit "site0010.12o") [] name false false raw /\
  stored t' (lit "/obs") (lit "site0010.12d") [] name' true false b /\ unpacked t' true false b raw /\
  find_files (w_ls w) (c_obsdir c) RE_OBS = [name] /\ find_files (w_ls w') (c_obsdir c) RE_OBS = [name'] /\
  (exists crd text, w_there w crd = true /\ w_there w' crd = true /\ t_file t crd = Some text /\ t_file t' crd = Some text /\
     find_files (w_ls w) (c_obsdir c) RE_XYZ = [crd] /\ find_files (w_ls w') (c_obsdir c) RE_XYZ = [crd] /\ crd = name ++ lit ".xyz") /\
  nav_pairs t t' w w' c /\ site_rows (tools_world t w) c <> site_rows (tools_world t' w') c.
Proof.
  exists t_crd, t_crd_hat, w_crd_o, w_crd_d, (e_cfg true None), x_plain, (lit "/obs/site0010.12d"), raw_obs, (hat raw_obs). split; [repeat split|].
  split; [apply (site_stored t_crd "o"%char false false []); reflexivity|]. split; [apply (site_stored t_crd_hat "d"%char true false []); reflexivity|].
  split; [exists (hat raw_obs); split; [reflexivity|exists e_crx; split; reflexivity]|]. split; [vm_compute; reflexivity|]. split; [vm_compute; reflexivity|].
  split; [exists (lit "/obs/site0010.12o.xyz"), crd_text; repeat (split; [vm_compute; reflexivity|]); reflexivity|].
  split; [|exact (proj1 crd_runs)]. apply listing_pairs. intros sys d [<-|[]]. constructor; [|constructor].
  exists (lit "brdc0010.12n"), [], [], false, false. repeat (split; [reflexivity|]). intros q Hq. rewrite no_prio in Hq. destruct Hq.
Qed.
Lemma nogz_obs : exists t w, stored t (lit "/obs") (lit "site0010.12d") (lit ".Z") x_packed true true (zipped (hat raw_obs)) /\ tool_missing t true true /\
  sort_str (find_files (w_ls w) (c_obsdir (e_cfg true None)) RE_OBS) = [] ++ x_packed :: [].
Proof.
  exists (e_tools false [("/obs/site0010.12d.Z", zipped (hat raw_obs))]%string), w_packed.
  split; [apply (site_stored _ "d"%char true true (lit ".Z")); try reflexivity; left; reflexivity|]. split; [left; split; reflexivity|exact (proj2 x_names)].
Qed.
