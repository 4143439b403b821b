(** Whole runs over concrete files: examples, and witnesses of the claims the code violates. *)
From Coq Require Import Sorting.Sorted Sorting.Permutation.
From Verif Require Import Base PyStr PyFloat PyDate PyPath PyRegex M_Common M_Header M_Obs2 M_Obs3 M_Label M_Rec M_Text M_Cfg M_Names M_Xyz M_Nav M_NmUtils M_Num M_Tec M_Sat M_Main M_Run.
From Verif Require Import S_Text S_Time S_Obs2 S_Open2 S_Obs3 S_Out W_Obs2 E_Obs2 E_Obs3 S_Label S_Main S_Fresh S_Run S_Cfg T_Cfg E_Main P_Main3 P_Main7 P_Run3.
Open Scope nat_scope.

Definition every (_ : str) : bool := true.
Definition e_run (save : bool) (w : world) (c : cfg) : list str * nat * option exn :=
  let o := full_main save every w c [] in (map fst (o_files o), o_errors o, o_exn o).

(** *** Errors *)
Definition g1_nav : list str := gps_nav (gps_msg " 1" " 5.153000000000D+03").
Definition w_clean : world := e_world [("aaaa0010.12o", obs_g1)]%string [("brdc0010.12n", g1_nav)]%string.
Definition g1_out : str := lit "/out/2012/001/aaaa/aaaa_G01_001_12.dat".
Lemma clean_count : e_run false w_clean (e_cfg true None) = ([g1_out], 0, None).
Proof. vm_compute. reflexivity. Qed.
Lemma zero_count : stopped_by w_zero (e_cfg true None) [] = None /\ main_errors w_zero (e_cfg true None) [] = 2.
Proof. vm_compute. auto. Qed.
Lemma bad_count : stopped_by w_bad (e_cfg true None) [] = None /\ main_errors w_bad (e_cfg true None) [] = 2.
Proof. vm_compute. auto. Qed.
Lemma bad_must : must_fail w_bad (e_cfg true None).
Proof. apply (tr_open _ _ _ _ (lit "/obs/aaaa0010.12o")); [vm_compute; now left|left; vm_compute; reflexivity]. Qed.
Definition a_name : str := lit "/obs/aaaa0010.12o".
Definition w_badnav : world := e_world [("aaaa0010.12o", obs_g1)]%string [("brdc0010.12n", [lit "     9.99           NAVIGATION DATA                         RINEX VERSION / TYPE"])]%string.
Definition badnav_rec : option (str * option datetime) := option_map (fun s => (s_sat s, s_epoch s)) (hd_error (b_steps (the_obs w_badnav a_name))).
Lemma badnav_facts : let c := e_cfg false None in
  find_files (w_ls w_badnav) (c_obsdir c) RE_OBS = [a_name] /\
  stopped_by w_badnav c [] = None /\ main_errors w_badnav c [] = 0 /\
  load_navigation_message (w_ls w_badnav) (w_nav w_badnav) (c_navdir c) (t_at 0 0 0 0) "G"%char [] = Err RinexError /\
  match open_obs w_badnav a_name with Ok _ => true | Err _ => false end = true /\
  b_date (the_obs w_badnav a_name) = Some (dt_date (t_at 0 0 0 0)) /\
  badnav_rec = Some (lit "G01", Some (t_at 0 0 0 0)).
Proof. vm_compute. repeat split; reflexivity. Qed.
(** a navigation file cannot be read, a record needs it, and the run is announced as free of errors *)
Lemma badnav : exists w c name b s t sys n, found w c name /\ open_obs w name = Ok b /\ suitable b /\ In s (b_steps b) /\ usable (b_date b) s /\ identifies s t sys n /\
  used c b (b_steps b) /\
  load_navigation_message (w_ls w) (w_nav w) (c_navdir c) t sys (preferred c sys) = Err RinexError /\
  announces_errors (full_main false every w c []) = false.
Proof.
  destruct badnav_facts as [H1 [H2 [H3 [H4 [H5 [H6 H7]]]]]]. apply the_obs_ok in H5. unfold badnav_rec in H7.
  assert (Hsu : suitable (the_obs w_badnav a_name)).
  { vm_compute. split; [eexists _, _, _; split; [reflexivity|right; reflexivity]|eexists; reflexivity]. }
  exists w_badnav, (e_cfg false None), a_name, (the_obs w_badnav a_name).
  revert H5 H6 H7 Hsu. generalize (the_obs w_badnav a_name). intros b H5 H6 H7 Hsu.
  destruct (b_steps b) as [|s r] eqn:Es; [clear -H7; discriminate|]. cbn [hd_error option_map] in H7. injection H7 as Hs Ht.
  assert (Hi : identifies s (t_at 0 0 0 0) "G"%char 1) by (split; [exact Ht|]; exists (lit "01"); split; [exact Hs|vm_compute; reflexivity]).
  exists s, (t_at 0 0 0 0), "G"%char, 1%Z.
  split; [unfold found; rewrite H1; now left|]. split; [exact H5|]. split; [exact Hsu|]. split; [now left|].
  split; [exists (t_at 0 0 0 0), "G"%char, 1%Z; split; [exact Hi|]; split; [now left|exact H6]|]. split; [exact Hi|]. split; [left; split; [left; reflexivity|symmetry; exact Es]|]. split; [exact H4|].
  unfold full_main, every, announces_errors. cbn [forallb negb e_cfg c_obsdir c_navdir andb].
  unfold stopped_by in H2. destruct (main w_badnav (e_cfg false None) []) as [[f' log] e]. cbn [fst snd] in H2. subst e. cbn [o_exn o_errors]. rewrite H3. reflexivity.
Qed.

(** *** Coordinates *)
Definition w_crd : world := e_world [("site0010.12o", obs2); ("aaaa0010.15o", file_utc); ("bbbb0010.12o", [lit "no RINEX file"])]%string nav2.
Lemma crd_run : let o := full_main true every w_crd (e_cfg true None) [(lit "a.txt", lit "text"); (lit "coordinates.txt", lit "old")] in
  o_files o = [(lit "a.txt", lit "text"); (lit "coordinates.txt", lit "site; 359.9999982002433; 73.23531921210753" ++ [ascii_of_nat 10])] /\ o_exn o = None /\ o_errors o = 2.
Proof. vm_compute. auto. Qed.

(** *** The order of a directory's entries *)
Definition w_nav2 : world := e_world [("aaaa0010.12o", obs_g1)]%string [("brdc0010.12n", g1_nav); ("abcd0010.12n", gps_nav (gps_msg " 2" " 5.150000000000D+03"))]%string.
Definition ls_other (d : str) : list str := rev (w_ls w_nav2 d).
Lemma nav_order : exists w c ls, (forall d, Permutation (w_ls w d) (ls d)) /\
  o_files (full_main false every (with_ls w ls) c []) <> o_files (full_main false every w c []).
Proof.
  exists w_nav2, (e_cfg false None), ls_other. split; [intros d; apply Permutation_rev|].
  assert (H : length (o_files (full_main false every (with_ls w_nav2 ls_other) (e_cfg false None) [])) = 0 /\ length (o_files (full_main false every w_nav2 (e_cfg false None) [])) = 1) by (vm_compute; auto).
  destruct H as [H1 H2]. intros E. rewrite E, H2 in H1. clear -H1. discriminate.
Qed.
Definition w_obs2 : world := e_world [("bbbb0010.12o", obs_g1); ("aaaa0010.12o", obs_g1)]%string [("brdc0010.12n", g1_nav)]%string.
Definition ls_rev (d : str) : list str := rev (w_ls w_obs2 d).
Lemma obs_order : (forall d, Permutation (w_ls w_obs2 d) (ls_rev d)) /\ (forall d, In d (c_navdir (e_cfg true None)) -> ls_rev d = w_ls w_obs2 d) /\
  ls_rev (lit "/obs") <> w_ls w_obs2 (lit "/obs") /\ e_run false w_obs2 (e_cfg true None) = ([g1_out; lit "/out/2012/001/bbbb/bbbb_G01_001_12.dat"], 0, None).
Proof.
  split; [intros d; apply Permutation_rev|]. split; [intros d [<-|[]]; reflexivity|]. split; [vm_compute; discriminate|vm_compute; reflexivity].
Qed.

(** *** Running again *)
Lemma again_run : stopped_by w_clean (e_cfg true None) [(g1_out, lit "old")] = None /\
  exists text, fst (fst (main w_clean (e_cfg true None) [(g1_out, lit "old")])) = [(g1_out, text)] /\ text <> lit "old".
Proof. split; [vm_compute; reflexivity|]. eexists. split; [vm_compute; reflexivity|discriminate]. Qed.

(** *** The start *)
Definition y_content : str -> res (list str) :=
  of_files (Err OSError) [("/home/run/./obs/aaaa0010.12o", Ok obs_g1); ("/home/run/./nav/brdc0010.12n", Ok g1_nav)]%string.
Definition y_example : system := mkSystem (lit "/home")
  (fun p => if seqb p (lit "/home/run/my.cfg") then Some (file_text example_file) else None)
  (fun d => existsb (seqb d) [lit "/home/run"; lit "/home/run/./obs"; lit "/home/run/./nav"]) (mkEnv (fun _ => Err ValueError) (mkDT 2026 11 18 12 0 0 0) (fun _ _ => lit "00"))
  (fun _ => mkWorld e_lib 20 (of_files [] [("/home/run/./obs", [lit "aaaa0010.12o"]); ("/home/run/./nav", [lit "brdc0010.12n"])]%string)
     y_content y_content y_content (fun _ => false) (fun _ => lit "00") (lit "now")).
Definition a_example : args := mkArgs false (Some (lit "run/my.cfg")) false.
Lemma example_program : let r := program y_example a_example [] in
  fst r = Some (lit "/home/run") /\ map fst (o_files (snd r)) = [lit "./out/2012/001/aaaa/aaaa_G01_001_12.dat"] /\ o_exn (snd r) = None.
Proof. vm_compute. auto. Qed.

(** *** Missing directories *)
Definition no_navdir (d : str) : bool := negb (seqb d (lit "/nav")).
(** the same run with an empty directory has rows *)
Lemma navdir_lost : exists isdir w c d, In d (c_navdir c) /\ isdir d = false /\ w_ls w d = [] /\ c_ignore c = true /\
  o_exn (full_main false every w c []) = None /\ o_files (full_main false every w c []) <> [] /\
  full_main false isdir w c [] = mkOutcome [] [] 0 (Some OSError).
Proof.
  exists no_navdir, (e_world [("aaaa0010.12o", obs_g1)]%string []), (e_cfg true None), (lit "/nav"). split; [now left|].
  assert (H : length (o_files (full_main false every (e_world [("aaaa0010.12o", obs_g1)]%string []) (e_cfg true None) [])) = 1 /\
    o_exn (full_main false every (e_world [("aaaa0010.12o", obs_g1)]%string []) (e_cfg true None) []) = None) by (vm_compute; auto).
  destruct H as [H1 H2]. split; [reflexivity|]. split; [reflexivity|]. split; [reflexivity|]. split; [exact H2|].
  split; [intros E; rewrite E in H1; clear -H1; discriminate|vm_compute; reflexivity].
Qed.

(** *** A satellite in view *)
Definition g1_pos : option xyz :=
  match load_navigation_message (w_ls w_clean) (w_nav w_clean) [lit "/nav"] (t_at 0 0 0 0) "G"%char [] with
  | Ok (_, m) =>
    match dict_get ceqb "G"%char m with
    | Some sats => match select_navigation_message (t_at 0 0 0 0) "G"%char 1 [("G"%char, Some sats)] true with
                   | Ok (Some (dt, eph)) => match motion w_clean "G"%char eph dt with Ok p => Some p | Err _ => None end
                   | _ => None
                   end
    | None => None
    end
  | Err _ => None
  end.
Definition g1_site : xyz := h_xyz (b_hdr (the_obs w_clean a_name)).
Definition g1_view : bool :=
  match g1_pos with
  | Some p => match compute_el_az (Fops e_lib) 20 g1_site p with Ok (elev, _) => negb (fltb elev fzero) | Err _ => false end
  | None => false
  end.
Lemma g1_view_true : g1_view = true.
Proof. vm_compute. reflexivity. Qed.
Lemma g1_in_view : exists pos elev az, located w_clean (e_cfg true None) (t_at 0 0 0 0) "G"%char 1 pos /\
  compute_el_az (Fops (w_libm w_clean)) (w_fuel w_clean) g1_site pos = Ok (elev, az) /\ fltb elev fzero = false.
Proof.
  pose proof g1_view_true as H. unfold g1_view in H. destruct g1_pos as [p|] eqn:Ep; [|discriminate]. exists p.
  destruct (compute_el_az (Fops e_lib) 20 g1_site p) as [[elev az]|e] eqn:Ec; [|discriminate]. exists elev, az. apply negb_true_iff in H.
  split; [|split; [exact Ec|exact H]]. clear H Ec. unfold g1_pos in Ep.
  destruct (load_navigation_message _ _ _ _ _ _) as [[fn m]|e] eqn:E1; [|discriminate].
  destruct (dict_get ceqb "G"%char m) as [sats|] eqn:E2; [|discriminate].
  destruct (select_navigation_message _ _ _ _ _) as [[[dt eph]|]|e] eqn:E3; try discriminate.
  destruct (motion w_clean "G"%char eph dt) as [q|] eqn:E4; [|discriminate]. injection Ep as <-.
  exists dt, eph. split; [|exact E4]. apply (eph_chosen w_clean (e_cfg true None) (t_at 0 0 0 0) "G"%char 1 fn sats); [|exact E3]. exact (nav_found w_clean (e_cfg true None) _ _ fn m sats E1 E2).
Qed.
