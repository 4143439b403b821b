(** The log of a run: records of another day. *)
From Verif Require Import Base PyStr PyFloat PyDate PyPath S_Time M_Common M_Header M_Obs2 M_Rec M_Text M_Cfg M_Label M_Names M_Xyz M_Nav M_NmUtils M_Num M_Tec M_Sat M_Main M_Run M_Log S_Main S_Fresh S_Run S_Log.
From Verif Require Import P_Str P_Date P_Nav P_Main1 P_Main3 P_Main5 P_Run3 P_Log1 P_Log2 P_Log3.
Open Scope nat_scope.

Definition dateb (m : message) : bool := match m with LDate _ _ _ => true | _ => false end.
Definition dates (ms : list message) : list message := filter dateb ms.
Lemma dates_app a b : dates (a ++ b) = dates a ++ dates b.
Proof. apply filter_app. Qed.
Lemma dateb_iff m : dateb m = true <-> date_message m.
Proof. split; [destruct m; cbn [dateb]; intros H; try (inversion H; fail); constructor|intros []; reflexivity]. Qed.
Lemma chosen_dates ms : chosen date_message ms (dates ms).
Proof.
  induction ms as [|m r IH]; [constructor|]. unfold dates. cbn [filter]. destruct (dateb m) eqn:E.
  - apply ch_yes; [now apply dateb_iff|exact IH].
  - apply ch_no; [|exact IH]. intros H. apply dateb_iff in H. rewrite H in E. discriminate.
Qed.
Section Days.
Context (w : world) (c : cfg).
Lemma nav_dates l t sys : dates (nav_says w c l t sys) = [].
Proof. unfold nav_says. destruct (dict_mem _ _ _); [reflexivity|]. destruct (load_navigation_message _ _ _ _ _ _) as [x|e]; [reflexivity|]. destruct e; reflexivity. Qed.
Lemma select_dates sys n l : dates (select_says sys n l) = [].
Proof. unfold select_says. destruct (dict_get ceqb sys l) as [[[|x r]|]|]; try reflexivity. destruct (dict_mem _ _ _); reflexivity. Qed.
Lemma lbh_dates p : dates (lbh_says w p) = [].
Proof. destruct p as [[x y] z]. unfold lbh_says. destruct (is_arithmetic _); reflexivity. Qed.
Lemma site_dates name xyzs l s t : dates (site_says w name xyzs l s t) = [].
Proof.
  unfold site_says. destruct (dict_get _ _ _) as [p|]; [rewrite dates_app, lbh_dates; reflexivity|].
  destruct (same_xyz _ _); [reflexivity|]. rewrite dates_app, lbh_dates. reflexivity.
Qed.
Lemma row_dates name s sys : dates (row_says name s sys) = [].
Proof. unfold row_says. destruct (s_types s sys) as [ty|e]; [|reflexivity]. destruct (record_validity _ _) as [v|e]; [reflexivity|]. destruct e; reflexivity. Qed.
Lemma sat_dates k l name sat t sys n : dates (sat_says w k l name sat t sys n) = [].
Proof.
  unfold sat_says. destruct (dict_mem _ _ _); [reflexivity|]. rewrite dates_app, select_dates. destruct (select_navigation_message _ _ _ _ _) as [[[dt eph]|]|e]; try reflexivity.
  destruct (get_sat_xyz w sys eph dt) as [p|e].
  - destruct (ceqb sys "R"); [|reflexivity]. destruct (eph_at eph 3) as [x|e]; [|reflexivity]. destruct (feqb x fzero); reflexivity.
  - destruct (existsb (exn_eqb e) arithmetic); reflexivity.
Qed.
Lemma view_dates name sat nav site cur t : dates (view_says w name sat nav site cur t) = [].
Proof.
  unfold view_says. destruct cur as [p|]; [|reflexivity]. destruct (compute_el_az _ _ site p) as [[e a]|ex].
  - destruct (fltb e fzero); reflexivity.
  - destruct (existsb (exn_eqb ex) arithmetic); reflexivity.
Qed.
Lemma body_dates name xyzs k l s t sys n : dates (body_says w c name xyzs k l s t sys n) = [].
Proof.
  unfold body_says. rewrite dates_app, nav_dates. destruct (nav_step w c k l t sys) as [[[k1 l1] [|]]|e]; try reflexivity.
  rewrite dates_app, sat_dates. destruct (sat_step w k1 l1 t sys n) as [[k2 [|]]|e]; try reflexivity.
  rewrite dates_app, site_dates. destruct (site_step w xyzs l1 s t) as [l2|e]; try reflexivity. destruct (dict_get sat_key_eqb _ (k_xyz k2)) as [cur|]; [|reflexivity].
  rewrite dates_app, view_dates. destruct (view w c (l_xyz l2) cur sys) as [[v|]|]; [apply row_dates|reflexivity|reflexivity].
Qed.
Lemma accept_dates b s t sys n : identifies s t sys n -> (another_day (b_date b) s t /\ dates (accept_says b t sys) = [LDate (b_name b) (dt_date t) (b_date b)]) \/
  ((forall t', ~ another_day (b_date b) s t') /\ dates (accept_says b t sys) = []).
Proof.
  intros Hi. assert (Hu : forall t', another_day (b_date b) s t' -> supports sys = true /\ b_date b <> Some (dt_date t)).
  { intros t' [sys' [n' [Hi' [Hs Hd]]]]. apply ident_iff in Hi, Hi'. rewrite Hi in Hi'. injection Hi' as <- <- <-. split; [now apply supports_iff|exact Hd]. }
  unfold accept_says. destruct (supports sys) eqn:Es; cbn [negb]; [|right; split; [intros t' H; apply Hu in H; destruct H; discriminate|reflexivity]].
  destruct (match b_date b with Some d => date_eqb (dt_date t) d | None => false end) eqn:Ed.
  - right. split; [|reflexivity]. intros t' H. apply Hu in H. destruct H as [_ H]. destruct (b_date b) as [d|]; [|discriminate]. apply date_eqb_eq in Ed. now subst d.
  - left. split; [|reflexivity]. exists sys, n. split; [exact Hi|]. split; [now apply supports_iff|]. intros E. rewrite E, date_eqb_refl in Ed. discriminate.
Qed.
Lemma loop_dates b xyzs si : forall steps last k l st k' st' os, record_loop w c b xyzs si last k l st steps = (k', st', os, None) ->
  exists others, chosen (fun s => exists t, another_day (b_date b) s t) steps others /\
    Forall2 (fun s m => exists t, another_day (b_date b) s t /\ m = LDate (b_name b) (dt_date t) (b_date b)) others (dates (said (loop_parts w c b xyzs si last k l st steps))).
Proof.
  induction steps as [|s r IH]; intros last k l st k' st' os; cbn [record_loop loop_parts].
  { intros _. exists []. split; [constructor|]. destruct (b_end b) as [|[]]; constructor. }
  destruct (record_ident s) as [[[t sys] n]|e0] eqn:Ei; [|discriminate]. apply ident_iff in Ei. destruct (accept (b_date b) si last t sys) as [last'|] eqn:Ea.
  - destruct (record_body _ _ _ _ _ _ _ _ _ _) as [[[k1 l1] ops]|e0] eqn:Eb; [|discriminate]. destruct (do_ops _ _ _) as [st1|e0]; [|discriminate].
    destruct (record_loop w c b xyzs si last' k1 l1 st1 r) as [[[k2 st2] os2] e2] eqn:El. intros H. apply pair4 in H. destruct H as [_ [_ [_ ->]]].
    rewrite said_cons, dates_app. cbn [p_says]. rewrite body_dates. destruct (IH _ _ _ _ _ _ _ El) as [others [H1 H2]]. exists others. split; [|exact H2].
    apply ch_no; [|exact H1]. intros [t' [sys' [n' [Hi' [_ Hd]]]]]. destruct (accept_usable _ _ _ _ _ _ _ _ Ei Ea) as [t2 [sys2 [n2 [Hi2 [_ Hd2]]]]].
    destruct Hi' as [X _], Hi2 as [Y _]. rewrite X in Y. apply some_inj in Y. subst t2. contradiction.
  - intros H. rewrite said_cons, dates_app. cbn [p_says]. destruct (IH _ _ _ _ _ _ _ H) as [others [H1 H2]].
    destruct (accept_dates b s t sys n Ei) as [[Ha ->]|[Ha ->]].
    + exists (s :: others). split; [apply ch_yes; [eauto|exact H1]|]. constructor; [eauto|exact H2].
    + exists others. split; [apply ch_no; [intros [t' X]; exact (Ha t' X)|exact H1]|exact H2].
Qed.
Lemma run_dates f name ps b : stopped_by w c f = None -> In (name, ps) (main_parts w c f) -> open_obs w name = Ok b -> suitable b ->
  exists others ms, chosen (fun s => exists t, another_day (b_date b) s t) (b_steps b) others /\ chosen date_message (concat (map p_says ps)) ms /\
    Forall2 (fun s m => exists t, another_day (b_date b) s t /\ m = LDate name (dt_date t) (b_date b)) others ms.
Proof.
  intros Hs Hin Ho Hsu. destruct (run_in w c f Hs) as [_ H]. destruct (H name ps Hin) as [k1 [f1 [k2 [f2 [os [G [Hf ->]]]]]]]. clear H Hin. revert Hf. unfold file_step, file_parts_of. rewrite Ho.
  destruct (file_start w c b) as [[[[[[xyzs si] l] iv] pos]|]|e0] eqn:Es; [| |discriminate].
  - destruct (do_op (out_of w c) (f1, new_writer name iv) pos) as [st|e0]; [|discriminate].
    destruct (record_loop w c b xyzs si None k1 l st (b_steps b)) as [[[k3 st3] os3] e3] eqn:Er. intros H. apply pair4 in H. destruct H as [_ [_ [_ ->]]].
    destruct (loop_dates _ _ _ _ _ _ _ _ _ _ _ Er) as [others [H1 H2]]. rewrite (open_name w name b Ho) in H2. exists others. eexists. split; [exact H1|]. split; [apply chosen_dates|].
    cbn [map concat p_says]. rewrite dates_app, lbh_dates. exact H2.
  - intros _. exfalso. apply (proj1 (start_suitable w c b _ Es)) in Hsu. now apply Hsu.
Qed.
End Days.
