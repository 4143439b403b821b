(** Systems taken out of observation files: an example, and the witness of the claim the code violates. *)
From Verif Require Import Base PyStr PyFloat PyDate PyPath PyRegex M_Common M_Header M_Obs2 M_Obs3 M_Label M_Rec M_Text M_Cfg M_Names M_Xyz M_Nav M_NmUtils M_Num M_Tec M_Sat M_Main M_Run.
From Verif Require Import S_Text S_Time S_Names S_Obs2 S_Open2 S_Obs3 S_Out W_Obs2 E_Obs2 E_Obs3 S_Label S_Main S_Fresh S_Run S_Alone S_Systems E_Main P_Str P_Main3.
Open Scope nat_scope.

(** only GPS *)
Definition gps (sys : ascii) : bool := Ascii.eqb sys "G".
Definition of_gps (s : step) : bool := match s_sat s with sys :: _ => gps sys | [] => false end.
Lemma filter_without l : forallb (fun s => match s_sat s with [] => false | _ => true end) l = true -> without_systems gps l (filter of_gps l).
Proof.
  induction l as [|s r IH]; cbn [forallb filter]; [constructor|]. intros H. apply andb_prop in H. destruct H as [H1 H2]. unfold of_gps at 1.
  destruct (s_sat s) as [|sys num] eqn:E; [discriminate|]. destruct (gps sys) eqn:Ek; [apply (ws_keep gps s sys num)|apply (ws_drop gps s sys num)]; auto.
Qed.
Definition plain_b (p : xyz) : bool := let '(x, y, z) := p in forallb (fun v => match v with S754_zero true => false | _ => true end) [x; y; z].
Lemma plain_b_ok p : plain_b p = true -> no_minus_zero p.
Proof. destruct p as [[x y] z]. unfold plain_b, no_minus_zero. rewrite forallb_forall. intros H v Hv E. specialize (H v Hv). subst v. discriminate. Qed.

Definition with_file (text : list str) : world := e_world [("site0010.12o", text)]%string nav2.
Definition text_of (part : list str) : str -> res (list str) := e_content [("site0010.12o", part)]%string nav2.
Section Pair.
Variables (full part : list str) (c : cfg).
Let w := with_file full.
Let w' := with_contents w (text_of part).
Hypothesis Hdir : c_obsdir c = [lit "/obs"].
Lemma pair_found name : In name (find_files (w_ls w) (c_obsdir c) RE_OBS) -> name = ok_name.
Proof.
  rewrite Hdir. assert (E : find_files (w_ls w) [lit "/obs"] RE_OBS = [ok_name]) by (vm_compute; reflexivity). rewrite E. intros [<-|[]]. reflexivity.
Qed.
Lemma pair_contents : open_obs w ok_name = Ok (the_obs w ok_name) -> open_obs w' ok_name = Ok (the_obs w' ok_name) ->
  let b := the_obs w ok_name in let b' := the_obs w' ok_name in
  b_name b' = b_name b /\ b_date b' = b_date b /\ b_hdr b' = b_hdr b /\ b_end b' = b_end b /\ b_steps b' = filter of_gps (b_steps b) ->
  forallb (fun s => match s_sat s with [] => false | _ => true end) (b_steps b) = true -> contents_of gps w c (text_of part).
Proof.
  cbv zeta. intros Ho Ho' [H1 [H2 [H3 [H4 H5]]]] H6 name Hn. apply pair_found in Hn. subst name. fold w'. rewrite Ho, Ho'.
  split; [exact H1|]. split; [exact H2|]. split; [exact H3|]. split; [exact H4|]. rewrite H5. apply filter_without. exact H6.
Qed.
Lemma pair_plain : open_obs w ok_name = Ok (the_obs w ok_name) ->
  plain_b (h_xyz (b_hdr (the_obs w ok_name))) && forallb (fun s => plain_b (s_xyz s)) (b_steps (the_obs w ok_name)) = true -> plain_positions w c.
Proof.
  intros Ho H name b Hn Hb. apply pair_found in Hn. subst name. rewrite (ok_inv _ _ _ Ho Hb). apply andb_prop in H. destruct H as [H1 H2].
  split; [exact (plain_b_ok _ H1)|]. split; [rewrite forallb_forall in H2; intros s Hs; exact (plain_b_ok _ (H2 s Hs))|].
  intros xyzs t p Hc He. inversion Hc as [| |file d Hne]; [subst; discriminate|subst; discriminate|]. exfalso. apply Hne. rewrite Hdir. vm_compute. reflexivity.
Qed.
Lemma pair_computable : open_obs w ok_name = Ok (the_obs w ok_name) -> forallb (computable_b w c) (b_steps (the_obs w ok_name)) = true -> computable_files w c.
Proof.
  intros Ho H name b s t sys n Hn Hb Hs Hi _. apply pair_found in Hn. subst name. rewrite (ok_inv _ _ _ Ho Hb) in Hs. rewrite forallb_forall in H.
  exact (computable_b_ok _ _ _ _ _ _ (H s Hs) Hi).
Qed.
End Pair.

(** the observation file of the first world with its GPS records only *)
Definition gps_blocks : list block :=
  [BData (t_at 0 0 0 0) 0 (ex_sats 3); BData (t_at 0 0 30 0) 0 (ex_sats 1); BData (t_at 0 1 0 0) 0 (ex_sats 2);
   BData (t_at 0 1 30 0) 0 (ex_sats 3); BData (mkDT 2012 1 2 0 0 0 0) 0 (ex_sats 3)].
Definition obs2_gps : list str := ex_file (put_body gps_blocks).
Definition w_gps2 : world := with_contents w_ok (text_of obs2_gps).
Lemma gps_open : open_obs w_gps2 ok_name = Ok (the_obs w_gps2 ok_name).
Proof. apply the_obs_ok. vm_compute. reflexivity. Qed.
Lemma gps_contents ignore : contents_of gps w_ok (e_cfg ignore None) (text_of obs2_gps).
Proof.
  apply (pair_contents obs2 obs2_gps (e_cfg ignore None)); [reflexivity|exact ok_open|exact gps_open|vm_compute; repeat split; reflexivity|vm_compute; reflexivity].
Qed.
Lemma gps_plain ignore : plain_positions w_ok (e_cfg ignore None).
Proof. apply (pair_plain obs2 (e_cfg ignore None)); [reflexivity|exact ok_open|vm_compute; reflexivity]. Qed.
Lemma gps_run : run w_gps2 (e_cfg false None) =
  ([(ok_name, [n3 "G01" 0 0; n3 "G02" 0 0; n3 "G01" 0 30; n3 "G01" 1 0; n3 "G02" 1 0; n3 "G01" 1 30; n3 "G02" 1 30], [])], None).
Proof. vm_compute. reflexivity. Qed.
Lemma systems_example : contents_of gps w_ok (e_cfg false None) (text_of obs2_gps) /\ plain_positions w_ok (e_cfg false None) /\ no_sampling w_ok (e_cfg false None) /\
  computable_files w_ok (e_cfg false None) /\ stopped_by w_ok (e_cfg false None) [] = None /\
  (exists ops, written w_ok (e_cfg false None) [] ok_name ops /\ length (names ops) = 8) /\
  (exists ops, written (with_contents w_ok (text_of obs2_gps)) (e_cfg false None) [] ok_name ops /\ length (names ops) = 7).
Proof.
  split; [apply gps_contents|]. split; [apply gps_plain|]. split; [intros name b _ _; left; reflexivity|].
  split; [intros name b s t sys n _; exact (ok_computable false name b s t sys n)|]. split; [rewrite run_stopped, ok_run; reflexivity|]. split.
  - destruct (run_written w_ok (e_cfg false None) ok_name _ _ ltac:(rewrite ok_run; left; reflexivity)) as [ops [H1 [H2 _]]]. exists ops. split; [exact H1|]. clear -H2. rewrite H2. reflexivity.
  - destruct (run_written w_gps2 (e_cfg false None) ok_name _ _ ltac:(rewrite gps_run; left; reflexivity)) as [ops [H1 [H2 _]]]. exists ops. split; [exact H1|]. clear -H2. rewrite H2. reflexivity.
Qed.

(** with a sampling interval the first record of any system begins the first sample *)
Definition late_full : list str := ex_file (put_body [BData (t_at 0 0 0 0) 0 [r_sat 1]; BData (t_at 0 0 30 0) 0 (ex_sats 1); BData (t_at 0 1 0 0) 0 (ex_sats 1)]).
Definition late_gps : list str := ex_file (put_body [BData (t_at 0 0 30 0) 0 (ex_sats 1); BData (t_at 0 1 0 0) 0 (ex_sats 1)]).
Definition c60 : cfg := e_cfg false (Some 60000000%Z).
Definition w_late1 : world := with_file late_full.
Definition w_late2 : world := with_contents w_late1 (text_of late_gps).
Lemma late_open : open_obs w_late1 ok_name = Ok (the_obs w_late1 ok_name) /\ open_obs w_late2 ok_name = Ok (the_obs w_late2 ok_name).
Proof. split; apply the_obs_ok; vm_compute; reflexivity. Qed.
Lemma late_runs : run w_late1 c60 = ([(ok_name, [n3 "R01" 0 0; n3 "G01" 1 0], [])], None) /\ run w_late2 c60 = ([(ok_name, [n3 "G01" 0 30], [])], None).
Proof. vm_compute. auto. Qed.
Lemma late_facts : contents_of gps w_late1 c60 (text_of late_gps) /\ plain_positions w_late1 c60 /\ computable_files w_late1 c60.
Proof.
  destruct late_open as [H1 H2]. split; [|split].
  - apply (pair_contents late_full late_gps c60); [reflexivity|exact H1|exact H2|vm_compute; repeat split; reflexivity|vm_compute; reflexivity].
  - apply (pair_plain late_full c60); [reflexivity|exact H1|vm_compute; reflexivity].
  - apply (pair_computable late_full c60); [reflexivity|exact H1|vm_compute; reflexivity].
Qed.
Lemma sampling_mixes : exists keep w c o name sat ops ops' sd nav t q, contents_of keep w c o /\ plain_positions w c /\ computable_files w c /\
  stopped_by w c [] = None /\ stopped_by (with_contents w o) c [] = None /\ written w c [] name ops /\ written (with_contents w o) c [] name ops' /\
  row_of_kept keep (WRow sat sd nav t q) = true /\ In (WRow sat sd nav t q) ops /\ forall sd' nav' q', ~ In (WRow sat sd' nav' t q') ops'.
Proof.
  destruct late_facts as [H1 [H2 H3]], late_runs as [R1 R2].
  destruct (run_written w_late1 c60 ok_name _ _ ltac:(rewrite R1; left; reflexivity)) as [ops [W1 [N1 _]]].
  destruct (run_written w_late2 c60 ok_name _ _ ltac:(rewrite R2; left; reflexivity)) as [ops' [W2 [N2 _]]].
  assert (Hin : In (n3 "G01" 1 0) (names ops)) by (rewrite N1; right; left; reflexivity).
  destruct (names_row _ _ _ _ Hin) as [sd [nav [t [q [Hr [Ht1 Ht2]]]]]].
  exists gps, w_late1, c60, (text_of late_gps), ok_name, (lit "G01"), ops, ops', sd, nav, t, q.
  split; [exact H1|]. split; [exact H2|]. split; [exact H3|]. split; [rewrite run_stopped, R1; reflexivity|]. split; [fold w_late2; rewrite run_stopped, R2; reflexivity|].
  split; [exact W1|]. split; [exact W2|]. split; [reflexivity|]. split; [exact Hr|]. intros sd' nav' q' X. apply names_in in X. rewrite N2, Ht1, Ht2 in X.
  clear -X. destruct X as [X|[]]. discriminate.
Qed.
