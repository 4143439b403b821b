(** A sampling interval: an example. *)
From Verif Require Import Base PyStr PyFloat PyDate PyPath PyRegex M_Common M_Header M_Obs2 M_Obs3 M_Label M_Rec M_Text M_Cfg M_Names M_Xyz M_Nav M_NmUtils M_Num M_Tec M_Sat M_Main M_Run.
From Verif Require Import S_Text S_Time S_Names S_Obs2 S_Open2 S_Obs3 S_Out W_Obs2 E_Obs2 E_Obs3 S_Label S_Main S_Fresh S_Run S_Alone S_Systems S_Sample E_Main E_Systems.
Open Scope nat_scope.

Lemma sample_example : plain_positions w_ok (e_cfg true None) /\ no_sampling w_ok (e_cfg true None) /\ computable_files w_ok (e_cfg true None) /\
  stopped_by w_ok (e_cfg true None) [] = None /\
  (exists ops, written w_ok (e_cfg true None) [] ok_name ops /\ length (names ops) = 10) /\
  (exists ops, written w_ok (with_sampling (e_cfg true None) (Some 60000000%Z)) [] ok_name ops /\ length (names ops) = 6).
Proof.
  split; [apply gps_plain|]. split; [intros name b _ _; left; reflexivity|].
  split; [intros name b s t sys n _; exact (ok_computable true name b s t sys n)|]. split; [rewrite run_stopped, ok_run_ignore; reflexivity|]. split.
  - destruct (run_written w_ok (e_cfg true None) ok_name _ _ ltac:(rewrite ok_run_ignore; left; reflexivity)) as [ops [H1 [H2 _]]]. exists ops. split; [exact H1|]. clear -H2. rewrite H2. reflexivity.
  - change (with_sampling (e_cfg true None) (Some 60000000%Z)) with (e_cfg true (Some 60000000%Z)).
    destruct (run_written w_ok (e_cfg true (Some 60000000%Z)) ok_name _ _ ltac:(rewrite ok_run_sampled; left; reflexivity)) as [ops [H1 [H2 _]]]. exists ops. split; [exact H1|]. clear -H2. rewrite H2. reflexivity.
Qed.

(** a longer interval may keep a record that a shorter one leaves out *)
Definition uneven : list str := ex_file (put_body [BData (t_at 0 0 0 0) 0 (ex_sats 1); BData (t_at 0 0 45 0) 0 (ex_sats 1); BData (t_at 0 1 0 0) 0 (ex_sats 1);
  BData (t_at 0 1 15 0) 0 (ex_sats 1); BData (t_at 0 1 30 0) 0 (ex_sats 1)]).
Definition w_uneven : world := with_file uneven.
Lemma uneven_runs : run w_uneven (e_cfg true (Some 30000000%Z)) = ([(ok_name, [n3 "G01" 0 0; n3 "G01" 0 45; n3 "G01" 1 15], [])], None) /\
  run w_uneven (e_cfg true (Some 60000000%Z)) = ([(ok_name, [n3 "G01" 0 0; n3 "G01" 1 0], [])], None).
Proof. vm_compute. auto. Qed.
Lemma uneven_facts : plain_positions w_uneven (e_cfg true None) /\ no_sampling w_uneven (e_cfg true None) /\ computable_files w_uneven (e_cfg true None).
Proof.
  assert (H : open_obs w_uneven ok_name = Ok (the_obs w_uneven ok_name)) by (apply the_obs_ok; vm_compute; reflexivity).
  split; [apply (pair_plain uneven (e_cfg true None)); [reflexivity|exact H|vm_compute; reflexivity]|]. split; [intros name b _ _; left; reflexivity|].
  apply (pair_computable uneven (e_cfg true None)); [reflexivity|exact H|vm_compute; reflexivity].
Qed.
Lemma longer_keeps : exists w c iv iv' name sat ops ops' sd nav t q, (0 < iv < iv')%Z /\ plain_positions w c /\ no_sampling w c /\ computable_files w c /\
  stopped_by w (with_sampling c (Some iv)) [] = None /\ stopped_by w (with_sampling c (Some iv')) [] = None /\
  written w (with_sampling c (Some iv)) [] name ops /\ written w (with_sampling c (Some iv')) [] name ops' /\
  In (WRow sat sd nav t q) ops' /\ forall sd' nav' q', ~ In (WRow sat sd' nav' t q') ops.
Proof.
  destruct uneven_facts as [H1 [H2 H3]], uneven_runs as [R1 R2].
  destruct (run_written w_uneven (e_cfg true (Some 30000000%Z)) ok_name _ _ ltac:(rewrite R1; left; reflexivity)) as [ops [W1 [N1 _]]].
  destruct (run_written w_uneven (e_cfg true (Some 60000000%Z)) ok_name _ _ ltac:(rewrite R2; left; reflexivity)) as [ops' [W2 [N2 _]]].
  assert (Hin : In (n3 "G01" 1 0) (names ops')) by (rewrite N2; right; left; reflexivity).
  destruct (names_row _ _ _ _ Hin) as [sd [nav [t [q [Hr [Ht1 Ht2]]]]]].
  exists w_uneven, (e_cfg true None), 30000000%Z, 60000000%Z, ok_name, (lit "G01"), ops, ops', sd, nav, t, q.
  split; [split; reflexivity|]. split; [exact H1|]. split; [exact H2|]. split; [exact H3|].
  change (with_sampling (e_cfg true None) (Some 30000000%Z)) with (e_cfg true (Some 30000000%Z)). change (with_sampling (e_cfg true None) (Some 60000000%Z)) with (e_cfg true (Some 60000000%Z)).
  split; [rewrite run_stopped, R1; reflexivity|]. split; [rewrite run_stopped, R2; reflexivity|]. split; [exact W1|]. split; [exact W2|]. split; [exact Hr|].
  intros sd' nav' q' X. apply names_in in X. rewrite N1, Ht1, Ht2 in X. clear -X. destruct X as [X|[X|[X|[]]]]; discriminate.
Qed.
