(** The log of a run: the errors announced at the end are in the log. *)
From Verif Require Import Base PyStr PyFloat PyDate PyPath S_Time M_Common M_Header M_Obs2 M_Rec M_Text M_Cfg M_Label M_Names M_Xyz M_Nav M_NmUtils M_Num M_Tec M_Sat M_Main M_Run M_Log S_Main S_Fresh S_Run S_Log S_Cfg.
From Verif Require Import P_Str P_Main1 P_Run3 P_Run8 P_Log1 P_Log2.
Open Scope nat_scope.

Definition countb (m : message) : bool := match m with LOpen _ | LTime _ _ | LBroken _ | LPosition _ _ _ | LAngles _ _ _ => true | _ => false end.
Definition failures (ms : list message) : nat := List.length (filter countb ms).
Lemma failures_app a b : failures (a ++ b) = failures a + failures b.
Proof. unfold failures. now rewrite filter_app, app_length. Qed.
Lemma failures_none ms : (forall m, In m ms -> countb m = false) -> failures ms = 0.
Proof.
  unfold failures. induction ms as [|m ms IH]; intros H; [reflexivity|]. cbn [filter]. rewrite (H m (or_introl eq_refl)). apply IH. intros x Hx. apply H. now right.
Qed.
Section Errors.
Context (w : world) (c : cfg).
Lemma nav_failures l t sys : failures (nav_says w c l t sys) = 0.
Proof. unfold nav_says. destruct (dict_mem _ _ _); [reflexivity|]. destruct (load_navigation_message _ _ _ _ _ _) as [x|e]; [reflexivity|]. destruct e; reflexivity. Qed.
Lemma select_failures sys n l : failures (select_says sys n l) = 0.
Proof. unfold select_says. destruct (dict_get ceqb sys l) as [[[|x r]|]|]; try reflexivity. destruct (dict_mem _ _ _); reflexivity. Qed.
Lemma lbh_failures p : failures (lbh_says w p) = 0.
Proof. destruct p as [[x y] z]. unfold lbh_says. destruct (is_arithmetic _); reflexivity. Qed.
Lemma site_failures name xyzs l s t : failures (site_says w name xyzs l s t) = 0.
Proof.
  unfold site_says. destruct (dict_get _ _ _) as [p|]; [rewrite failures_app, lbh_failures; reflexivity|].
  destruct (same_xyz _ _); [reflexivity|]. rewrite failures_app, lbh_failures. reflexivity.
Qed.
Lemma row_failures name s sys : failures (row_says name s sys) = 0.
Proof. unfold row_says. destruct (s_types s sys) as [ty|e]; [|reflexivity]. destruct (record_validity _ _) as [v|e]; [reflexivity|]. destruct e; reflexivity. Qed.
Lemma sat_failures k l name sat t sys n k' go : sat_step w k l t sys n = Ok (k', go) -> failures (sat_says w k l name sat t sys n) = if go then 0 else 1.
Proof.
  unfold sat_step, sat_says. destruct (dict_mem _ _ _); [intros H; apply ok_pair in H; destruct H as [_ <-]; reflexivity|].
  rewrite failures_app, select_failures. destruct (select_navigation_message _ _ _ _ _) as [[[dt eph]|]|e]; cbn [bind]; [| |discriminate].
  - destruct (get_sat_xyz w sys eph dt) as [p|e].
    + destruct (ceqb sys "R").
      * destruct (eph_at eph 7) as [x7|e]; cbn [bind]; [|discriminate]. destruct (eph_at eph 3) as [x3|e]; cbn [bind]; [|discriminate].
        intros H. apply ok_pair in H. destruct H as [_ <-]. destruct (feqb x3 fzero); reflexivity.
      * intros H. apply ok_pair in H. destruct H as [_ <-]. reflexivity.
    + destruct (existsb (exn_eqb e) arithmetic); [|discriminate]. intros H. apply ok_pair in H. destruct H as [_ <-]. reflexivity.
  - intros H. apply ok_pair in H. destruct H as [_ <-]. reflexivity.
Qed.
Lemma view_failures name sat nav site cur t : failures (view_says w name sat nav site cur t) =
  match cur with Some p => if is_arithmetic (compute_el_az (Fops (w_libm w)) (w_fuel w) site p) then 1 else 0 | None => 0 end.
Proof.
  unfold view_says, is_arithmetic. destruct cur as [p|]; [|reflexivity]. destruct (compute_el_az _ _ site p) as [[e a]|ex].
  - destruct (fltb e fzero); reflexivity.
  - destruct (existsb (exn_eqb ex) arithmetic); reflexivity.
Qed.
Lemma body_failures name xyzs lp k l s t sys n x : record_body w c xyzs lp k l s t sys n = Ok x ->
  failures (body_says w c name xyzs k l s t sys n) = record_errors w c xyzs k l s t sys n.
Proof.
  unfold record_body, body_says, record_errors. rewrite failures_app, nav_failures. destruct (nav_step w c k l t sys) as [[[k1 l1] go]|e]; cbn [bind]; [|discriminate].
  destruct go; cbn [negb]; [|reflexivity]. destruct (sat_step w k1 l1 t sys n) as [[k2 go2]|e] eqn:Es; cbn [bind]; [|discriminate].
  rewrite failures_app, (sat_failures k1 l1 name (s_sat s) t sys n k2 go2 Es). destruct go2; cbn [negb]; [|reflexivity].
  rewrite failures_app, site_failures. destruct (site_step w xyzs l1 s t) as [l2|e]; cbn [bind]; [|discriminate].
  destruct (dict_get sat_key_eqb _ (k_xyz k2)) as [cur|]; [|reflexivity]. intros _. rewrite failures_app, view_failures.
  assert (E : failures match view w c (l_xyz l2) cur sys with Ok (Some _) => row_says name s sys | _ => [] end = 0) by (destruct (view w c (l_xyz l2) cur sys) as [[v|]|]; [apply row_failures|reflexivity|reflexivity]).
  rewrite E. destruct cur as [p|]; [|reflexivity]. destruct (is_arithmetic _); reflexivity.
Qed.
Lemma accept_failures b t sys : failures (accept_says b t sys) = 0.
Proof. unfold accept_says. destruct (supports sys); [|reflexivity]. cbn [negb]. destruct (match b_date b with Some d => _ | None => _ end); reflexivity. Qed.
Definition said (ps : list part) : list message := concat (map p_says ps).
Lemma said_cons p ps : said (p :: ps) = p_says p ++ said ps.
Proof. reflexivity. Qed.
Lemma loop_failures b xyzs si : forall steps last k l st k' st' os, record_loop w c b xyzs si last k l st steps = (k', st', os, None) ->
  failures (said (loop_parts w c b xyzs si last k l st steps)) = loop_errors w c b xyzs si last k l st steps.
Proof.
  induction steps as [|s r IH]; intros last k l st k' st' os; cbn [record_loop loop_parts loop_errors].
  { intros _. destruct (b_end b) as [|[]]; reflexivity. }
  destruct (record_ident s) as [[[t sys] n]|e0]; [|discriminate]. destruct (accept (b_date b) si last t sys) as [last'|].
  - destruct (record_body _ _ _ _ _ _ _ _ _ _) as [[[k1 l1] ops]|e0] eqn:Eb; [|discriminate]. destruct (do_ops _ _ _) as [st1|e0]; [|discriminate].
    destruct (record_loop w c b xyzs si last' k1 l1 st1 r) as [[[k2 st2] os2] e2] eqn:El. intros H. apply pair4 in H. destruct H as [_ [_ [_ ->]]].
    rewrite said_cons, failures_app. cbn [p_says]. rewrite (body_failures (b_name b) _ _ _ _ _ _ _ _ _ Eb). f_equal. exact (IH _ _ _ _ _ _ _ El).
  - intros H. rewrite said_cons, failures_app. cbn [p_says]. rewrite accept_failures. exact (IH _ _ _ _ _ _ _ H).
Qed.
Lemma file_failures k f name k' f' os : file_step w c k f name = (k', f', os, None) -> failures (said (file_parts_of w c k f name)) = file_errors w c k f name.
Proof.
  unfold file_step, file_parts_of, file_errors. destruct (open_obs w name) as [b|e0]; [|destruct e0; try discriminate; reflexivity].
  destruct (file_start w c b) as [[[[[[xyzs si] l] iv] pos]|]|e0] eqn:Es; [| |discriminate].
  - destruct (do_op _ _ pos) as [st|e0]; [|discriminate]. destruct (record_loop w c b xyzs si None k l st (b_steps b)) as [[[k3 st3] os3] e3] eqn:Er.
    intros H. apply pair4 in H. destruct H as [_ [_ [_ ->]]]. rewrite said_cons, failures_app. cbn [p_says]. rewrite lbh_failures. exact (loop_failures _ _ _ _ _ _ _ _ _ _ _ Er).
  - intros _. unfold said. cbn [map concat p_says]. rewrite app_nil_r. unfold skip_says, time_errors. destruct (h_ver (b_hdr b)) as [[[rv ft] ss]|]; [|destruct (h_tofo (b_hdr b)) as [[t0 ts]|]; reflexivity].
    destruct (supports ss || ceqb ss "M"); cbn [negb andb]; [|destruct (h_tofo (b_hdr b)) as [[t0 ts]|]; reflexivity].
    destruct (h_tofo (b_hdr b)) as [[t0 ts]|]; [|reflexivity]. destruct (seqb ts (lit "GPS")); reflexivity.
Qed.
Lemma files_failures names : forall k f, snd (files_loop w c k f names) = None ->
  failures (concat (map (fun x => said (snd x)) (files_parts w c k f names))) = files_errors w c k f names.
Proof.
  induction names as [|nm r IH]; intros k f H; cbn [files_parts files_loop files_errors] in *; [reflexivity|].
  destruct (file_step w c k f nm) as [[[k1 f1] os] e] eqn:Ef. destruct e as [e|]; [discriminate H|].
  specialize (IH k1 f1). destruct (files_loop w c k1 f1 r) as [[f2 log] e2]. cbn [map snd concat]. rewrite failures_app, (file_failures _ _ _ _ _ _ Ef), (IH H). reflexivity.
Qed.
Lemma run_failures f : stopped_by w c f = None -> failures (main_says w c f) = main_errors w c f.
Proof.
  unfold stopped_by, main, main_says, main_parts, main_errors. destruct (sort_str _) as [|nm r]; [discriminate|]. apply files_failures.
Qed.
End Errors.

(** the failures are those counted *)
Lemma countb_failure m : countb m = true <-> failure m.
Proof. split; [destruct m; cbn [countb]; intros H; try (inversion H; fail); constructor|]. intros []; reflexivity. Qed.
Lemma chosen_failures ms : chosen failure ms (filter countb ms).
Proof.
  induction ms as [|m r IH]; [constructor|]. cbn [filter]. destruct (countb m) eqn:E.
  - apply ch_yes; [now apply countb_failure|exact IH].
  - apply ch_no; [|exact IH]. intros H. apply countb_failure in H. rewrite H in E. discriminate.
Qed.
Lemma run_count isdir w c f : dirs_exist isdir c -> let o := full_main false isdir w c f in o_exn o = None ->
  exists fs, chosen failure (main_says w c f) fs /\ length fs = o_errors o /\ Forall error_message fs.
Proof.
  intros Hd o. subst o. rewrite full_run by exact Hd. cbn [o_exn o_errors]. intros He. exists (filter countb (main_says w c f)). split; [apply chosen_failures|].
  split; [apply (run_failures w c f He)|]. apply Forall_forall. intros m Hm. apply filter_In in Hm. destruct Hm as [_ Hm]. apply countb_failure in Hm. destruct Hm; reflexivity.
Qed.
Lemma run_found isdir w c f : dirs_exist isdir c -> announces_errors (full_main false isdir w c f) = true -> In (c_level c) log_levels -> c_level c <> lit "CRITICAL" ->
  exists m, failure m /\ In m (main_log_file w c f).
Proof.
  intros Hd Ha Hl Hc. rewrite full_run in Ha by exact Hd. unfold announces_errors in Ha. cbn [o_exn o_errors] in Ha.
  destruct (snd (main w c f)) eqn:He; [discriminate|]. pose proof (run_failures w c f He) as Hf. unfold failures in Hf.
  destruct (filter countb (main_says w c f)) as [|m r] eqn:Ef; [cbn [length] in Hf; rewrite <- Hf in Ha; discriminate|].
  assert (Hm : In m (main_says w c f) /\ countb m = true) by (apply filter_In; rewrite Ef; now left). destruct Hm as [Hm Hb]. apply countb_failure in Hb.
  exists m. split; [exact Hb|]. unfold main_log_file, kept_messages. apply filter_In. split; [exact Hm|]. apply Nat.leb_le.
  assert (Hx : level_of m = 40) by (destruct Hb; reflexivity). rewrite Hx. clear -Hl Hc. unfold threshold.
  repeat (destruct Hl as [Hl|Hl]; [rewrite <- Hl in *; try (cbn; lia); now destruct Hc|]). destruct Hl.
Qed.
Lemma run_rest isdir w c f : dirs_exist isdir c -> let o := full_main false isdir w c f in o_exn o = None -> announces_errors o = false ->
  forall m, In m (main_says w c f) -> error_message m -> m = LNavError \/ m = LGeodetic.
Proof.
  intros Hd o He Ha m Hm Hl. destruct (run_count isdir w c f Hd He) as [fs [H1 [H2 _]]]. fold o in H2. unfold announces_errors in Ha. rewrite He in Ha.
  assert (Hf : length fs = 0) by (rewrite H2; destruct (o_errors o); [reflexivity|discriminate]).
  assert (Hn : ~ failure m).
  { clear -H1 Hf Hm. induction H1 as [|x l us Hx H1 IH|x l us Hx H1 IH]; [destruct Hm|cbn [length] in Hf; discriminate|]. destruct Hm as [->|Hm]; auto. }
  unfold error_message in Hl. destruct m; cbn [level_of] in Hl; try discriminate; try (exfalso; apply Hn; constructor); auto.
Qed.
