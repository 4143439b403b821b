(** The count of errors. *)
From Coq Require Import ZifyBool ZifyNat.
From Verif Require Import Base PyStr PyFloat PyDate PyPath PyRegex S_Text S_Time S_Open2 M_Common M_Header M_Obs2 M_Obs3 M_Rec M_Text M_Cfg M_Label M_Names M_Xyz M_Nav M_NmUtils M_Num M_Tec M_Sat M_Main M_Run S_Names S_Xyz S_Main S_Fresh S_Run S_Out P_Str P_Date P_Label P_Main1 P_Main2 P_Main3 P_Main4 P_Main5 P_Main6 P_Main7 P_Main8 P_Main12.
Open Scope nat_scope.

Lemma ok_pair {A B} (a a' : A) (b b' : B) : Ok (a, b) = Ok (a', b') -> a = a' /\ b = b'.
Proof. intros H. injection H as -> ->. auto. Qed.
Lemma ok_triple {A B C} (a a' : A) (b b' : B) (d d' : C) : Ok (a, b, d) = Ok (a', b', d') -> a = a' /\ b = b' /\ d = d'.
Proof. intros H. injection H as -> -> ->. auto. Qed.
Section Errors.
Variables (w : world) (c : cfg).
(** no position in the cache stands for one that cannot be computed *)
Definition no_bad (k : caches) : Prop :=
  forall sys n t v, dict_get sat_key_eqb (sys, n, dt_date t, dt_time t) (k_xyz k) = Some v -> ~ incomputable w c t sys n.

Lemma located_fun t sys n p p' : located w c t sys n p -> located w c t sys n p' -> p = p'.
Proof.
  intros [dt [eph [He Hm]]] [dt' [eph' [He' Hm']]]. pose proof (ephemeris_fun w c _ _ _ _ _ He He') as E. apply some_inj in E. injection E as <- <-.
  rewrite Hm in Hm'. now injection Hm'.
Qed.
Lemma located_computable t sys n p : located w c t sys n p -> ~ incomputable w c t sys n.
Proof.
  intros [dt [eph [He Hm]]] [dt' [eph' [e [He' [Hm' _]]]]]. pose proof (ephemeris_fun w c _ _ _ _ _ He He') as E. apply some_inj in E. injection E as <- <-.
  rewrite Hm in Hm'. discriminate.
Qed.
Lemma unlocated_computable t sys n : unlocated w c t sys n -> ~ incomputable w c t sys n.
Proof. intros H [dt [eph [e [He _]]]]. pose proof (ephemeris_fun w c _ _ _ _ _ H He). discriminate. Qed.
Lemma unlocated_not t sys n p : unlocated w c t sys n -> ~ located w c t sys n p.
Proof. intros H [dt [eph [He _]]]. pose proof (ephemeris_fun w c _ _ _ _ _ H He). discriminate. Qed.
Lemma nav_step_xyz k l t sys k' l' go : nav_step w c k l t sys = Ok (k', l', go) -> k_xyz k' = k_xyz k.
Proof.
  unfold nav_step. cbv zeta. destruct (dict_mem _ _ _); [intros H; apply ok_triple in H; destruct H as [<- _]; reflexivity|].
  destruct (load_navigation_message _ _ _ _ _ _) as [[fn m]|e]; [intros H; apply ok_triple in H; destruct H as [<- _]; reflexivity|].
  destruct e; try discriminate; intros H; apply ok_triple in H; destruct H as [<- _]; reflexivity.
Qed.
Lemma sat_step_keys k l t sys n k' go : sat_step w k l t sys n = Ok (k', go) ->
  (k' = k /\ go = true /\ exists v, dict_get sat_key_eqb (sys, n, dt_date t, dt_time t) (k_xyz k) = Some v) \/
  dict_mem sat_key_eqb (sys, n, dt_date t, dt_time t) (k_xyz k) = false /\ exists v, k_xyz k' = dict_set sat_key_eqb (sys, n, dt_date t, dt_time t) v (k_xyz k).
Proof.
  unfold sat_step. destruct (dict_mem sat_key_eqb _ _) eqn:Em.
  { intros H. injection H as <- <-. left. split; [reflexivity|]. split; [reflexivity|]. unfold dict_mem in Em. destruct (dict_get _ _ _) as [v|]; [now exists v|discriminate]. }
  destruct (select_navigation_message _ _ _ _ _) as [[[dt eph]|]|e]; cbn [bind]; [| |discriminate].
  - destruct (get_sat_xyz _ _ _ _) as [p|e].
    + destruct (ceqb sys "R").
      * destruct (eph_at eph 7) as [a|e]; cbn [bind]; [|discriminate]. destruct (eph_at eph 3) as [a'|e]; cbn [bind]; [|discriminate].
        intros H. apply ok_pair in H. destruct H as [<- _]. right. split; [reflexivity|]. eexists. reflexivity.
      * intros H. apply ok_pair in H. destruct H as [<- _]. right. split; [reflexivity|]. eexists. reflexivity.
    + destruct (existsb _ _); [|discriminate]. intros H. apply ok_pair in H. destruct H as [<- _]. right. split; [reflexivity|]. eexists. reflexivity.
  - intros H. apply ok_pair in H. destruct H as [<- _]. right. split; [reflexivity|]. eexists. reflexivity.
Qed.
Lemma keys_no_bad k sys n t v k' : no_bad k -> ~ incomputable w c t sys n ->
  k_xyz k' = dict_set sat_key_eqb (sys, n, dt_date t, dt_time t) v (k_xyz k) -> no_bad k'.
Proof.
  intros Hk Hn E sys' n' t' v' Hg. rewrite E, (dict_get_set sat_key_eqb sat_key_eqb_eq) in Hg.
  destruct (sat_key_eqb _ _) eqn:Ek; [|exact (Hk _ _ _ _ Hg)].
  apply sat_key_eqb_eq in Ek. apply pair4 in Ek. destruct Ek as [-> [-> [Ed Et]]].
  rewrite <- (dt_of_parts t t'); auto.
Qed.
Lemma record_errors_spec xyzs lp k l s t sys n k' l' ops : good w c k -> loc_good w c (dt_date t) k l ->
  geodetic w (l_xyz l) (l_lbh l) -> identifies s t sys n -> record_body w c xyzs lp k l s t sys n = Ok (k', l', ops) ->
  (record_errors w c xyzs k l s t sys n <> 0 -> exists site, site_of xyzs s t site /\ no_view w c t sys n site) /\
  (record_errors w c xyzs k l s t sys n = 0 -> no_bad k -> no_bad k' /\ ~ forall site, site_of xyzs s t site -> no_view w c t sys n site).
Proof.
  intros G Gl Hg Hi. unfold record_body, record_errors.
  destruct (nav_step w c k l t sys) as [[[k1 l1] go]|e] eqn:En; cbn [bind]; [|discriminate].
  destruct (nav_step_ok w c k l t sys k1 l1 go G Gl En) as [G1 [Gl1 [Hx [Hb [Hmem [f [m [files [Hf [Hm [Hk1 [Hk2 Hgo]]]]]]]]]]]].
  pose proof (nav_step_xyz _ _ _ _ _ _ _ En) as Hxyz.
  assert (Hsite : exists site, site_of xyzs s t site).
  { destruct (dict_get dt_eqb t xyzs) as [p|] eqn:E; [exists p; left; exact E|]. exists (s_xyz s). right. split; [|apply same_place_refl].
    intros q Hq. unfold entry in Hq. rewrite E in Hq. discriminate. }
  destruct go; cbn [negb].
  2:{ intros H. apply ok_triple in H. destruct H as [<- [<- _]]. split; [intros X; now destruct X|]. intros _ Hn. split.
      { intros sys' n' t' v'. rewrite Hxyz. apply Hn. }
      destruct (proj1 Hgo eq_refl) as [-> _]. pose proof (fresh_nav_some w c _ _ _ _ Hf eq_refl) as ->.
      destruct (fresh_nav_spec w c _ _ _ _ Hf) as [d [Hd [_ Hd2]]]. destruct d as [d|]; [discriminate|].
      assert (Hu : unlocated w c t sys n) by (constructor; exact Hd).
      intros Hall. destruct Hsite as [site Hsite]. destruct (Hall site Hsite) as [Hi'|[pos [e [Hl _]]]]; [exact (unlocated_computable _ _ _ Hu Hi')|exact (unlocated_not _ _ _ _ Hu Hl)]. }
  destruct (sat_step w k1 l1 t sys n) as [[k2 go]|e] eqn:Es; cbn [bind]; [|discriminate].
  destruct (sat_step_ok w c k1 l1 t sys n m f k2 go G1 Hf Hm Es) as [G2 [Hn2 [Hgo1 Hgo2]]].
  pose proof (sat_step_keys _ _ _ _ _ _ _ Es) as Hkeys.
  destruct go; cbn [negb].
  2:{ intros H. apply ok_triple in H. destruct H as [<- [<- _]]. split.
      - intros _. destruct Hsite as [site Hsite]. exists site. split; [exact Hsite|]. left. exact (fresh_sat_spec w c _ _ _ _ _ _ Hf (Hgo1 eq_refl)).
      - intros X. discriminate. }
  destruct (Hgo2 eq_refl) as [cur [Hcur Hsat]].
  destruct (site_step w xyzs l1 s t) as [l2|e] eqn:Est; cbn [bind]; [|discriminate].
  destruct lp as [last|e]; cbn [bind]; [|discriminate]. rewrite Hcur. cbn [of_option bind].
  assert (Hg1 : geodetic w (l_xyz l1) (l_lbh l1)) by (rewrite Hx, Hb; exact Hg).
  destruct (site_step_spec w xyzs l1 s t l2 Hg1 Est) as [Hg2 Hs2].
  destruct (view w c (l_xyz l2) cur sys) as [v|e] eqn:Ev; cbn [bind]; [|discriminate].
  intros Hend. assert (Hk' : k' = k2).
  { destruct v as [v|]; [|apply ok_triple in Hend; destruct Hend as [<- _]; reflexivity]. rewrite Hn2, Hk1 in Hend. cbn [of_option bind] in Hend. rewrite Hk2 in Hend. cbn [of_option bind] in Hend.
    destruct (row_step _ _ _ _ _ _ _ _ _ _) as [r|e]; cbn [bind] in Hend; [apply ok_triple in Hend; destruct Hend as [<- _]; reflexivity|discriminate]. }
  subst k'. clear Hend. split.
  - intros Hne. exists (l_xyz l2). split; [exact Hs2|]. destruct cur as [p|]; [|now destruct Hne].
    destruct (compute_el_az (Fops (w_libm w)) (w_fuel w) (l_xyz l2) p) as [[el az]|e] eqn:Ec; [now destruct Hne|].
    cbn [is_arithmetic] in Hne. destruct (existsb (exn_eqb e) arithmetic) eqn:Ea; [|now destruct Hne]. apply arith_eqb in Ea.
    destruct Hsat as [[g [Hsat _]]|[X _]]; [|discriminate]. right. exists p, e. split; [|auto]. exact (proj1 (fresh_sat_spec w c _ _ _ _ _ _ Hf Hsat)).
  - intros Hz Hn. assert (Hn1 : no_bad k1) by (intros sys' n' t' v'; rewrite Hxyz; apply Hn).
    assert (Hcomp : ~ incomputable w c t sys n).
    { destruct Hkeys as [[_ [_ [v' Hv']]]|[Em _]]; [exact (Hn1 _ _ _ _ Hv')|]. destruct Hsat as [[g [Hsat _]]|[-> Hsat]].
      - pose proof (fresh_sat_spec w c _ _ _ _ _ _ Hf Hsat) as Hsp. destruct cur as [p|]; [exact (located_computable _ _ _ _ (proj1 Hsp))|exact (unlocated_computable _ _ _ Hsp)].
      - exfalso. revert Es Hsat. unfold sat_step.
        rewrite Em.
        unfold fresh_sat. rewrite (select_local _ _ _ _ _ _ Hm). destruct (select_navigation_message _ _ _ _ _) as [[[dt eph]|]|e]; cbn [bind]; [|intros _ X; discriminate|discriminate].
        rewrite motion_eq. destruct (motion w sys eph dt) as [p|e].
        * intros _ X. destruct (Ascii.eqb sys "R"); [|discriminate]. destruct (nth_error eph 7); cbn [of_option bind] in X; [|discriminate]. destruct (nth_error eph 3); cbn [of_option bind] in X; discriminate.
        * destruct (existsb _ _) eqn:Ea; [intros X; apply ok_pair in X; destruct X as [_ X]; discriminate|discriminate]. }
    split; [destruct Hkeys as [[-> _]|[_ [v' Hv']]]; [exact Hn1|exact (keys_no_bad _ _ _ _ _ _ Hn1 Hcomp Hv')]|].
    intros Hall. destruct (Hall _ Hs2) as [Hi'|[pos [e [Hl [Hc Ha]]]]]; [exact (Hcomp Hi')|].
    destruct Hsat as [[g [Hsat _]]|[_ Hsat]]; [|exact (Hcomp (fresh_sat_spec w c _ _ _ _ _ _ Hf Hsat))].
    pose proof (fresh_sat_spec w c _ _ _ _ _ _ Hf Hsat) as Hsp. destruct cur as [p|]; [|exact (unlocated_not _ _ _ _ Hsp Hl)].
    destruct Hsp as [Hsp _]. rewrite <- (located_fun _ _ _ _ _ Hl Hsp) in Hz. rewrite Hc in Hz. cbn [is_arithmetic] in Hz.
    rewrite (proj2 (arith_eqb e) Ha) in Hz. discriminate.
Qed.
End Errors.
