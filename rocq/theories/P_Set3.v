(** Settings: the number of errors counted, and the run with its options. *)
From Verif Require Import Base PyStr PyFloat PyDate PyPath PyRegex S_Text S_Time S_Open2 M_Common M_Header M_Obs2 M_Obs3 M_Rec M_Text M_Cfg M_Label M_Names M_Xyz M_Nav M_NmUtils M_Num M_Tec M_Sat M_Main M_Run S_Out S_Tec S_Main S_Run S_Settings P_Str P_Date P_Out P_Tec P_End4 P_Main8 P_Run4 P_Main1 P_Set1 P_Set2.
Open Scope nat_scope.

Section Errors.
Variables (w : world) (c c' : cfg).
Hypothesis Hin : same_inputs c c'.
Lemma record_errors_set xyzs k l s t sys n : record_errors w c xyzs k l s t sys n = record_errors w c' xyzs k l s t sys n.
Proof. unfold record_errors. rewrite (nav_step_set w c c' Hin). reflexivity. Qed.

(** navIgnoreAbsence may be switched on in the second; both runs end normally *)
Section Normal.
Hypothesis Hig : c_ignore c = true -> c_ignore c' = true.
Lemma loop_errors_set b xyzs si steps : forall last k l st st' k1 st1 o1 k2 st2 o2, w_xyz (snd st) = w_xyz (snd st') ->
  record_loop w c b xyzs si last k l st steps = (k1, st1, o1, None) -> record_loop w c' b xyzs si last k l st' steps = (k2, st2, o2, None) ->
  loop_errors w c b xyzs si last k l st steps = loop_errors w c' b xyzs si last k l st' steps.
Proof.
  induction steps as [|s r IH]; intros last k l st st' k1 st1 o1 k2 st2 o2 Hx; cbn [record_loop loop_errors]; [reflexivity|].
  destruct (record_ident s) as [[[t sys] n]|e]; [|discriminate]. destruct (accept _ _ _ _ _) as [last'|]; [|exact (IH _ _ _ _ _ _ _ _ _ _ _ Hx)].
  rewrite <- Hx. destruct (record_body w c xyzs _ k l s t sys n) as [[[ka la] oa]|e] eqn:Ea; [|discriminate].
  destruct (do_ops (out_of w c) st oa) as [sta|] eqn:Eda; [|discriminate].
  destruct (record_loop w c b xyzs si last' ka la sta r) as [[[kc stc] oc] ec] eqn:Ec. intros E. injection E as _ _ _ ->.
  destruct (record_body w c' xyzs _ k l s t sys n) as [[[kb lb] ob]|e] eqn:Eb; [|discriminate].
  destruct (do_ops (out_of w c') st' ob) as [stb|] eqn:Edb; [|discriminate].
  destruct (record_loop w c' b xyzs si last' kb lb stb r) as [[[kd std] od] ed] eqn:Ed. intros E'. injection E' as _ _ _ ->.
  destruct (body_set w c c' Hin Hig _ _ _ _ _ _ _ _ _ _ _ _ _ _ Ea Eb) as [<- [<- Hm]].
  assert (Hx' : w_xyz (snd sta) = w_xyz (snd stb)).
  { rewrite (do_ops_xyz _ _ _ _ Eda), (do_ops_xyz _ _ _ _ Edb), Hx. apply (more_xyz c c'). exact Hm. }
  rewrite record_errors_set, (IH _ _ _ _ _ _ _ _ _ _ _ Hx' Ec Ed). reflexivity.
Qed.
Lemma file_errors_set k f f' name k1 g1 o1 k2 g2 o2 : file_step w c k f name = (k1, g1, o1, None) -> file_step w c' k f' name = (k2, g2, o2, None) ->
  file_errors w c k f name = file_errors w c' k f' name.
Proof.
  unfold file_step, file_errors. destruct (open_obs w name) as [b|e]; [|reflexivity]. rewrite (start_set w c c' Hin).
  destruct (file_start w c' b) as [[[[[[xyzs si] l] iv] pos]|]|e]; [|reflexivity|reflexivity].
  destruct (do_op (out_of w c) (f, new_writer name iv) pos) as [st|] eqn:E1; [|discriminate].
  destruct (record_loop w c b xyzs si None k l st (b_steps b)) as [[[ka sta] oa] ea] eqn:Ea. intros E. injection E as _ _ _ ->.
  destruct (do_op (out_of w c') (f', new_writer name iv) pos) as [st'|] eqn:E2; [|discriminate].
  destruct (record_loop w c' b xyzs si None k l st' (b_steps b)) as [[[kb stb] ob] eb] eqn:Eb. intros E. injection E as _ _ _ ->.
  assert (Hx : w_xyz (snd st) = w_xyz (snd st')). { rewrite (do_op_xyz _ _ _ _ E1), (do_op_xyz _ _ _ _ E2). reflexivity. }
  exact (loop_errors_set _ _ _ _ _ _ _ _ _ _ _ _ _ _ _ Hx Ea Eb).
Qed.
Lemma files_errors_set names : forall k f f' g1 l1 g2 l2, files_loop w c k f names = (g1, l1, None) -> files_loop w c' k f' names = (g2, l2, None) ->
  files_errors w c k f names = files_errors w c' k f' names.
Proof.
  induction names as [|nm r IH]; intros k f f' g1 l1 g2 l2; cbn [files_loop files_errors]; [reflexivity|].
  destruct (file_step w c k f nm) as [[[ka fa] oa] [e|]] eqn:Ea; [discriminate|].
  destruct (files_loop w c ka fa r) as [[fc lc] ec] eqn:Ec. intros E. injection E as _ _ ->.
  destruct (file_step w c' k f' nm) as [[[kb fb] ob] [e|]] eqn:Eb; [discriminate|].
  destruct (files_loop w c' kb fb r) as [[fd ld] ed] eqn:Ed. intros E. injection E as _ _ ->.
  destruct (file_set w c c' Hin Hig _ _ _ _ _ _ _ _ _ _ Ea Eb) as [<- _].
  rewrite (file_errors_set _ _ _ _ _ _ _ _ _ _ Ea Eb), (IH _ _ _ _ _ _ _ Ec Ed). reflexivity.
Qed.
Lemma main_errors_set f f' : stopped_by w c f = None -> stopped_by w c' f' = None -> main_errors w c f = main_errors w c' f'.
Proof.
  unfold stopped_by, main, main_errors. destruct Hin as (<- & _). destruct (sort_str _) as [|nm r]; [discriminate|].
  destruct (files_loop w c no_caches f (nm :: r)) as [[f1 l1] e1] eqn:E1, (files_loop w c' no_caches f' (nm :: r)) as [[f2 l2] e2] eqn:E2. cbn [snd].
  intros -> ->. exact (files_errors_set _ _ _ _ _ _ _ _ E1 E2).
Qed.
End Normal.

(** only the directory for the results and the log differ *)
Section Same.
Hypothesis Hfmt : c_format c = c_format c'.
Hypothesis Hig : c_ignore c = c_ignore c'.
Hypothesis Hdtf : c_dtformat c = c_dtformat c'.
Lemma loop_errors_moved b xyzs si steps : forall last k l f f' a a', alike a a' ->
  loop_errors w c b xyzs si last k l (f, a) steps = loop_errors w c' b xyzs si last k l (f', a') steps.
Proof.
  induction steps as [|s r IH]; intros last k l f f' a a' Ha; cbn [loop_errors]; [reflexivity|].
  destruct (record_ident s) as [[[t sys] n]|e]; [|reflexivity]. destruct (accept _ _ _ _ _) as [last'|]; [|apply IH; exact Ha]. cbn [snd].
  rewrite (body_eq w c c' Hin Hfmt Hig). pose proof Ha as (_ & _ & <- & _). destruct (record_body w c' xyzs _ k l s t sys n) as [[[k' l'] ops]|e]; [|reflexivity].
  pose proof (mv_ops w c c' Hin Hfmt Hdtf ops f f' a a' Ha) as H.
  destruct (do_ops (out_of w c) (f, a) ops) as [[g b1]|e1], (do_ops (out_of w c') (f', a') ops) as [[g' b2]|e2]; try contradiction; [|reflexivity].
  cbn [alike_end] in H. rewrite record_errors_set, (IH last' k' l' g g' b1 b2 H). reflexivity.
Qed.
Lemma file_errors_moved k f f' name : file_errors w c k f name = file_errors w c' k f' name.
Proof.
  unfold file_errors. destruct (open_obs w name) as [b|e]; [|reflexivity]. rewrite (start_set w c c' Hin).
  destruct (file_start w c' b) as [[[[[[xyzs si] l] iv] pos]|]|e]; [|reflexivity|reflexivity].
  pose proof (mv_ops w c c' Hin Hfmt Hdtf [pos] f f' _ _ (new_alike name iv)) as H. cbn [do_ops] in H.
  destruct (do_op (out_of w c) (f, new_writer name iv) pos) as [[a wa]|e1], (do_op (out_of w c') (f', new_writer name iv) pos) as [[b' wb]|e2]; cbn [bind alike_end] in H; try contradiction; [|reflexivity].
  apply loop_errors_moved. exact H.
Qed.
Lemma files_errors_moved names : forall k f f', files_errors w c k f names = files_errors w c' k f' names.
Proof.
  induction names as [|nm r IH]; intros k f f'; cbn [files_errors]; [reflexivity|].
  pose proof (step_moved w c c' Hin Hfmt Hig Hdtf k f f' nm) as H. rewrite (file_errors_moved k f f' nm).
  destruct (file_step w c k f nm) as [[[k1 g1] o1] e1], (file_step w c' k f' nm) as [[[k2 g2] o2] e2]. destruct H as [<- _]. rewrite (IH k1 g1 g2). reflexivity.
Qed.
Lemma main_errors_moved f f' : main_errors w c f = main_errors w c' f'.
Proof. unfold main_errors. destruct Hin as (<- & _). apply files_errors_moved. Qed.
Lemma nonav_set names : nonav_files w c names = nonav_files w c' names /\ nonav_errors w c names = nonav_errors w c' names.
Proof.
  induction names as [|nm r [IH1 IH2]]; cbn [nonav_files nonav_errors]; [auto|]. destruct (open_obs w nm) as [b|e]; [|rewrite IH1, IH2; auto].
  rewrite (start_set w c c' Hin), IH1, IH2. auto.
Qed.
Lemma full_moved isdir f f' : let o := full_main false isdir w c f in let o' := full_main false isdir w c' f' in
  o_log o = o_log o' /\ o_errors o = o_errors o' /\ o_exn o = o_exn o'.
Proof.
  cbv zeta. unfold full_main. cbv zeta. pose proof Hin as (E1 & E2 & _). rewrite <- E1, <- E2.
  destruct (negb (forallb isdir (c_obsdir c))); [auto|]. destruct (negb (forallb isdir (c_navdir c))).
  - destruct (sort_str _) as [|nm r]; [auto|]. destruct (nonav_set (nm :: r)) as [-> ->]. auto.
  - pose proof (main_moved w c c' Hin Hfmt Hig Hdtf f f') as [L S]. unfold stopped_by in S. pose proof (main_errors_moved f f') as R.
    destruct (main w c f) as [[g l] e], (main w c' f') as [[g' l'] e']. cbn [fst snd o_log o_errors o_exn] in *. auto.
Qed.
End Same.
Lemma save_set isdir f : full_main true isdir w c f = full_main true isdir w c' f.
Proof. unfold full_main, save_main. pose proof Hin as (<- & _). reflexivity. Qed.

Lemma full_errors_set (Hig : c_ignore c = true -> c_ignore c' = true) isdir f f' : let o := full_main false isdir w c f in let o' := full_main false isdir w c' f' in
  o_exn o = None -> o_exn o' = None -> o_errors o = o_errors o'.
Proof.
  cbv zeta. unfold full_main. cbv zeta. pose proof Hin as (E1 & E2 & _). rewrite <- E1, <- E2.
  destruct (negb (forallb isdir (c_obsdir c))); [auto|]. destruct (negb (forallb isdir (c_navdir c))).
  - destruct (sort_str _) as [|nm r]; [auto|]. destruct (nonav_set (nm :: r)) as [-> ->]. auto.
  - pose proof (main_errors_set Hig f f') as R. unfold stopped_by in R.
    destruct (main w c f) as [[g l] e], (main w c' f') as [[g' l'] e']. cbn [fst snd o_log o_errors o_exn] in *. auto.
Qed.
End Errors.
