(** Observation files of which the end is missing: an example. *)
From Verif Require Import Base PyStr PyFloat PyDate PyPath PyRegex M_Common M_Header M_Obs2 M_Obs3 M_Label M_Rec M_Text M_Cfg M_Names M_Xyz M_Nav M_NmUtils M_Num M_Tec M_Sat M_Main M_Run.
From Verif Require Import S_Text S_Time S_Names S_Obs2 S_Open2 S_Obs3 S_Out W_Obs2 E_Obs2 E_Obs3 S_Label S_Main S_Fresh S_Run S_Alone S_Systems S_Short E_Main E_Systems.
Open Scope nat_scope.

(** the observation file of the first world as far as its third block *)
Definition obs2_cut : list str := firstn 26 obs2.
Definition w_cut : world := with_contents w_ok (text_of obs2_cut).
Lemma cut_open : open_obs w_cut ok_name = Ok (the_obs w_cut ok_name).
Proof. apply the_obs_ok. vm_compute. reflexivity. Qed.
Lemma cut_steps : b_steps (the_obs w_ok ok_name) = b_steps (the_obs w_cut ok_name) ++ skipn (length (b_steps (the_obs w_cut ok_name))) (b_steps (the_obs w_ok ok_name)).
Proof. vm_compute. reflexivity. Qed.
Lemma cut_ok : cut_contents w_ok (e_cfg false None) (text_of obs2_cut).
Proof.
  intros name Hn. apply (pair_found obs2 (e_cfg false None) eq_refl) in Hn. subst name. fold w_cut. rewrite ok_open, cut_open.
  split; [reflexivity|]. split; [vm_compute; reflexivity|]. split; [vm_compute; reflexivity|]. split; [left; vm_compute; reflexivity|]. eexists. exact cut_steps.
Qed.
Lemma cut_run : run w_cut (e_cfg false None) = ([(ok_name, [n3 "G01" 0 0; n3 "G02" 0 0; n3 "R01" 0 0; n3 "G01" 0 30; n3 "G01" 1 0; n3 "G02" 1 0], [])], None).
Proof. vm_compute. reflexivity. Qed.
Lemma short_example : cut_contents w_ok (e_cfg false None) (text_of obs2_cut) /\ computable_files w_ok (e_cfg false None) /\
  stopped_by w_ok (e_cfg false None) [] = None /\
  (exists ops, written w_ok (e_cfg false None) [] ok_name ops /\ length (names ops) = 8) /\
  (exists ops, written (with_contents w_ok (text_of obs2_cut)) (e_cfg false None) [] ok_name ops /\ length (names ops) = 6).
Proof.
  split; [exact cut_ok|]. split; [intros name b s t sys n _; exact (ok_computable false name b s t sys n)|]. split; [rewrite run_stopped, ok_run; reflexivity|]. split.
  - destruct (run_written w_ok (e_cfg false None) ok_name _ _ ltac:(rewrite ok_run; left; reflexivity)) as [ops [H1 [H2 _]]]. exists ops. split; [exact H1|]. clear -H2. rewrite H2. reflexivity.
  - destruct (run_written w_cut (e_cfg false None) ok_name _ _ ltac:(rewrite cut_run; left; reflexivity)) as [ops [H1 [H2 _]]]. exists ops. split; [exact H1|]. clear -H2. rewrite H2. reflexivity.
Qed.

(** texts *)
Definition eleven_b (v : ver) (lines : list str) : bool :=
  match set_obs_num_types (fst (split_header is_end_regex lines)), parse_header v (fst (split_header is_end_regex lines)) hdr0 with
  | Ok types, Ok h => 10 <=? changes (map (fun y => dt_us (fst (fst (fst y)))) (fst (fst (run_records v types (snd (split_header is_end_regex lines)) (mkObj2 None h)))))
  | _, _ => true
  end.
Lemma eleven_b_ok v lines : eleven_b v lines = true -> eleven_times v lines.
Proof. unfold eleven_b, eleven_times. intros H types h Ht Hh. rewrite Ht, Hh in H. exact (proj1 (Nat.leb_le _ _) H). Qed.
Definition long2 : list str := ex_file (put_body (map (fun k => BData (t_at 0 k 0 0) 0 (ex_sats 2)) [0; 1; 2; 3; 4; 5; 6; 7; 8; 9; 10; 11; 12]%Z)).
Definition cut2 : list str := firstn (length long2 - 1) long2.
Lemma text2_example : exists w o lines more b b', w_content w ok_name = Ok (lines ++ more) /\ o ok_name = Ok lines /\ open_obs w ok_name = Ok b /\
  open_obs (with_contents w o) ok_name = Ok b' /\ obs_class (hd [] lines) = Ok V211 /\ eleven_times V211 lines /\ b_end b' = GRaise RinexError /\
  length (b_steps b) = 26 /\ length (b_steps b') = 25.
Proof.
  exists (with_file long2), (text_of cut2), cut2, (skipn (length long2 - 1) long2), (the_obs (with_file long2) ok_name), (the_obs (with_contents (with_file long2) (text_of cut2)) ok_name).
  split; [unfold cut2; rewrite firstn_skipn; reflexivity|]. split; [reflexivity|]. split; [apply the_obs_ok; vm_compute; reflexivity|]. split; [apply the_obs_ok; vm_compute; reflexivity|].
  split; [vm_compute; reflexivity|]. split; [apply eleven_b_ok; vm_compute; reflexivity|]. split; [vm_compute; reflexivity|]. split; vm_compute; reflexivity.
Qed.
Definition long3 : list str := file3 (put_body3 [B3Data (t3 0 0 0 0) 0 [g_sat 1 0]; B3Data (t3 0 0 30 0) 0 [g_sat 1 0; g_sat 2 0]; B3Data (t3 0 1 0 0) 0 [g_sat 1 0; g_sat 2 0]]).
Definition cut3 : list str := firstn (length long3 - 2) long3.
Lemma text3_example : exists w o lines more b b', w_content w ok_name = Ok (lines ++ more) /\ o ok_name = Ok lines /\ open_obs w ok_name = Ok b /\
  open_obs (with_contents w o) ok_name = Ok b' /\ obs_class (hd [] lines) = Ok V302 /\ h_interval (b_hdr b') = h_interval (b_hdr b) /\ b_end b' = GStop /\
  length (b_steps b) = 5 /\ length (b_steps b') = 3.
Proof.
  exists (with_file long3), (text_of cut3), cut3, (skipn (length long3 - 2) long3), (the_obs (with_file long3) ok_name), (the_obs (with_contents (with_file long3) (text_of cut3)) ok_name).
  split; [unfold cut3; rewrite firstn_skipn; reflexivity|]. split; [reflexivity|]. split; [apply the_obs_ok; vm_compute; reflexivity|]. split; [apply the_obs_ok; vm_compute; reflexivity|].
  split; [vm_compute; reflexivity|]. split; [vm_compute; reflexivity|]. split; [vm_compute; reflexivity|]. split; vm_compute; reflexivity.
Qed.
