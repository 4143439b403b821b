(** The log of a run: what is said of a record that is left out. *)
From Verif Require Import Base PyStr PyFloat PyDate PyPath M_Common M_Header M_Obs2 M_Rec M_Text M_Cfg M_Label M_Names M_Xyz M_Nav M_NmUtils M_Num M_Tec M_Sat M_Main M_Run M_Log S_Main S_Fresh S_Run S_Log.
From Verif Require Import P_Str P_Date P_Nav P_Out P_Main1 P_Main3 P_Main4 P_Main5.
Open Scope nat_scope.

Lemma ok_pair {A B} (a a' : A) (b b' : B) : Ok (a, b) = Ok (a', b') -> a = a' /\ b = b'.
Proof. intros H. injection H. auto. Qed.
Lemma ok_triple {A B C} (a a' : A) (b b' : B) (d d' : C) : Ok (a, b, d) = Ok (a', b', d') -> a = a' /\ b = b' /\ d = d'.
Proof. intros H. injection H. auto. Qed.
Lemma ok_eq {A} (a a' : A) : Ok a = Ok a' -> a = a'.
Proof. intros H. injection H. auto. Qed.
Section Body.
Context (w : world) (c : cfg).

(** what becomes of the record *)
Lemma fresh_nav_data t sys f m : fresh_nav w c t sys = Ok (Some f, Some m) -> nav_data w c t sys (Some (f, m)).
Proof.
  unfold fresh_nav. destruct load_navigation_message as [[f' m']|e] eqn:E; [|destruct e; discriminate].
  intros H. injection H as -> Hm. eapply nav_found; eassumption.
Qed.
Lemma view_told name sat nav site cur t sys r : view w c site cur sys = Ok r ->
  match r with
  | Some _ => True
  | None => (cur = None /\ (c_ignore c = false \/ sys = "R"%char)) \/
            exists m, In m (view_says w name sat nav site cur t) /\ noticeable m /\ forall s n, s_sat s = sat -> about m name s t sys n
  end.
Proof.
  unfold view, view_says. destruct cur as [p|].
  - destruct (compute_el_az _ _ site p) as [[e a]|ex] eqn:E.
    + destruct (fltb e fzero) eqn:Ee; intros H; apply ok_eq in H; subst; [|exact I]. right. eexists. split; [left; reflexivity|]. split; [unfold noticeable; cbn; lia|].
      intros s n Hs. cbn. auto.
    + destruct (existsb (exn_eqb ex) arithmetic) eqn:Ea; intros H; [|discriminate]. injection H as <-. right. eexists. split; [left; reflexivity|].
      split; [unfold noticeable; cbn; lia|]. intros s n Hs. cbn. auto.
  - destruct (c_ignore c) eqn:Ec; cbn [negb].
    + destruct (ceqb sys "R") eqn:Er; intros H; apply ok_eq in H; subst; [|exact I]. left. split; [reflexivity|]. right. now apply ceqb_eq.
    + intros H. apply ok_eq in H. subst r. auto.
Qed.
Lemma row_told nav glo l s t sys n v r : row_step w c nav glo l s t sys n v = Ok r ->
  match r with
  | Some op => exists sd nav' q, op = WRow (s_sat s) sd nav' t q
  | None => forall name, exists m, In m (row_says name s sys) /\ noticeable m /\ about m name s t sys n
  end.
Proof.
  unfold row_step. destruct v as [[p e] a]. destruct (if ceqb sys "R" then _ else _) as [[[f1 f2] k]|ex]; cbn [bind]; [|discriminate].
  destruct (tec_columns _ _ _ _) as [tecs|ex]; cbn [bind]; [|discriminate]. destruct (s_types s sys) as [types|ex] eqn:Et; cbn [bind]; [|discriminate].
  destruct (record_validity types (s_rec s)) as [val|ex] eqn:Ev.
  - intros H. apply ok_eq in H. subst r. eauto.
  - destruct ex; try discriminate. intros H. apply ok_eq in H. subst r. intros name. exists (LCodes name). unfold row_says. rewrite Et, Ev.
    split; [now left|]. split; [unfold noticeable; cbn; lia|reflexivity].
Qed.
Lemma sat_told k l name s t sys n k' go f m : dict_get ceqb sys (l_nav l) = Some m -> fresh_nav w c t sys = Ok (f, m) ->
  dict_mem sat_key_eqb (sys, n, dt_date t, dt_time t) (k_xyz k) = false ->
  sat_step w k l t sys n = Ok (k', go) ->
  (go = true /\ exists p, dict_get sat_key_eqb (sys, n, dt_date t, dt_time t) (k_xyz k') = Some (Some p)) \/
  (exists x, In x (sat_says w k l name (s_sat s) t sys n) /\ noticeable x /\ about x name s t sys n) \/ far w c t sys n.
Proof.
  intros Hm Hf Hk. unfold sat_step, sat_says. rewrite Hk. destruct (select_navigation_message t sys n (l_nav l) true) as [sel|e] eqn:Es; cbn [bind]; [|discriminate].
  destruct sel as [[dt eph]|].
  - destruct (get_sat_xyz w sys eph dt) as [p|e] eqn:Eg.
    + assert (Hg : dict_get sat_key_eqb (sys, n, dt_date t, dt_time t) (dict_set sat_key_eqb (sys, n, dt_date t, dt_time t) (Some p) (k_xyz k)) = Some (Some p))
        by (apply dict_get_set_same; exact sat_key_eqb_eq).
      destruct (ceqb sys "R").
      * destruct (eph_at eph 7) as [x7|e]; cbn [bind]; [|discriminate]. destruct (eph_at eph 3) as [x3|e]; cbn [bind]; [|discriminate].
        intros H. apply ok_pair in H. destruct H as [<- <-]. left. split; [reflexivity|]. exists p. exact Hg.
      * intros H. apply ok_pair in H. destruct H as [<- <-]. left. split; [reflexivity|]. exists p. exact Hg.
    + destruct (existsb (exn_eqb e) arithmetic); intros H; [|discriminate]. apply ok_pair in H. destruct H as [<- <-]. right. left.
      eexists. split; [apply in_or_app; right; left; reflexivity|]. split; [unfold noticeable; cbn; lia|]. cbn. auto.
  - intros _. right. unfold select_says. rewrite Hm. destruct m as [sats|].
    + destruct sats as [|x sats]; [left; exists LNoMessage; split; [now left|]; split; [unfold noticeable; cbn; lia|exact I]|].
      destruct (dict_mem Z.eqb n (x :: sats)) eqn:En.
      * right. unfold dict_mem in En. destruct (dict_get Z.eqb n (x :: sats)) as [msgs|] eqn:Em; [|discriminate].
        destruct f as [f|]; [|pose proof (fresh_nav_some w c t sys None _ Hf eq_refl); discriminate].
        pose proof (fresh_nav_data t sys f _ Hf) as Hn. exists f, (x :: sats), msgs. split; [exact Hn|]. split; [exact Em|].
        eapply eph_chosen; [exact Hn|]. exact (eq_trans (eq_sym (select_local t sys n (l_nav l) (Some (x :: sats)) true Hm)) Es).
      * left. exists (LNoSatellite sys n). split; [now left|]. split; [unfold noticeable; cbn; lia|cbn; auto].
    + left. exists LNoMessage. split; [now left|]. split; [unfold noticeable; cbn; lia|exact I].
Qed.

Lemma body_told name xyzs lp k l s t sys n k' l' ops : good w c k -> loc_good w c (dt_date t) k l -> record_body w c xyzs lp k l s t sys n = Ok (k', l', ops) ->
  has_row s t ops \/ (exists m, In m (body_says w c name xyzs k l s t sys n) /\ noticeable m /\ about m name s t sys n) \/
  ((c_ignore c = false \/ sys = "R"%char) /\ (far w c t sys n \/ dict_mem sat_key_eqb (sys, n, dt_date t, dt_time t) (k_xyz k) = true)).
Proof.
  intros G Gl. unfold record_body, body_says. destruct (nav_step w c k l t sys) as [[[k1 l1] go]|e] eqn:En; cbn [bind]; [|discriminate].
  destruct (nav_step_ok w c k l t sys k1 l1 go G Gl En) as [G1 [Gl1 [Hx [_ [_ [f [m [files [Hf [Hm [_ [_ Hgo]]]]]]]]]]]].
  destruct go; cbn [negb].
  2:{ intros _. right. left. destruct (proj1 Hgo eq_refl) as [-> Hmem]. unfold nav_says. rewrite Hmem, prior_eq.
      unfold fresh_nav in Hf. destruct (load_navigation_message _ _ _ t sys (preferred c sys)) as [[f' m']|e]; [discriminate Hf|].
      destruct e; try discriminate Hf; (eexists; split; [apply in_or_app; left; left; reflexivity|split; [unfold noticeable; cbn; lia|cbn; auto]]). }
  assert (Hk1 : k_xyz k1 = k_xyz k).
  { clear -En. revert En. unfold nav_step. destruct (dict_mem ceqb sys (l_nav l)); [intros H; apply ok_triple in H; destruct H as [<- _]; reflexivity|]. cbv zeta.
    destruct (load_navigation_message _ _ _ t sys _) as [[f m]|e]; [intros H; apply ok_triple in H; destruct H as [<- _]; reflexivity|].
    destruct e; intros H; try discriminate H; apply ok_triple in H; destruct H as [<- _]; reflexivity. }
  destruct (sat_step w k1 l1 t sys n) as [[k2 go2]|e] eqn:Es; cbn [bind]; [|discriminate].
  intros Hb. pose proof Hb as Hb0. clear Hb0.
  (* without the satellite's position *)
  assert (Hcase : dict_mem sat_key_eqb (sys, n, dt_date t, dt_time t) (k_xyz k) = true \/
    (go2 = true /\ exists p, dict_get sat_key_eqb (sys, n, dt_date t, dt_time t) (k_xyz k2) = Some (Some p)) \/
    (exists x, In x (sat_says w k1 l1 name (s_sat s) t sys n) /\ noticeable x /\ about x name s t sys n) \/ far w c t sys n).
  { destruct (dict_mem sat_key_eqb (sys, n, dt_date t, dt_time t) (k_xyz k)) eqn:Ek; [now left|]. right. rewrite <- Hk1 in Ek.
    destruct (sat_told k1 l1 name s t sys n k2 go2 f m Hm Hf Ek Es) as [H|[H|H]]; auto. }
  assert (Hgo2 : dict_mem sat_key_eqb (sys, n, dt_date t, dt_time t) (k_xyz k) = true -> go2 = true).
  { rewrite <- Hk1. intros H. unfold sat_step in Es. rewrite H in Es. apply ok_pair in Es. symmetry. apply Es. }
  destruct Hcase as [Hc|[Hc|[[x [X1 X2]]|Hc]]].
  - (* kept from before *)
    rewrite (Hgo2 Hc) in *. cbn [negb] in Hb. destruct (site_step w xyzs l1 s t) as [l2|e] eqn:El; cbn [bind] in Hb; [|discriminate].
    destruct lp as [last|e]; cbn [bind] in Hb; [|discriminate]. cbv zeta in Hb.
    destruct (dict_get sat_key_eqb (sys, n, dt_date t, dt_time t) (k_xyz k2)) as [cur|] eqn:Ec; cbn [of_option bind] in Hb; [|discriminate].
    destruct (view w c (l_xyz l2) cur sys) as [v|e] eqn:Ev; cbn [bind] in Hb; [|discriminate].
    pose proof (view_told name (s_sat s) (nav_name k2 t sys) (l_xyz l2) cur t sys v Ev) as Hv. destruct v as [v|].
    + destruct (dict_get date_eqb (dt_date t) (k_nav k2)) as [fl|]; cbn [of_option bind] in Hb; [|discriminate].
      destruct (dict_get ceqb sys fl) as [nv|]; cbn [of_option bind] in Hb; [|discriminate].
      destruct (row_step w c nv _ l2 s t sys n v) as [r|e] eqn:Er; cbn [bind] in Hb; [|discriminate]. apply ok_triple in Hb; destruct Hb as [<- [<- <-]].
      pose proof (row_told _ _ _ _ _ _ _ _ _ Er) as Hr. destruct r as [op|].
      * left. destruct Hr as [sd [nav' [q ->]]]. exists sd, nav', q. apply in_or_app. right. now left.
      * right. left. destruct (Hr name) as [x [X1 X2]]. exists x. split; [|exact X2]. do 4 (apply in_or_app; right). exact X1.
    + destruct Hv as [[-> Hv]|[x [X1 [X2 X3]]]].
      * right. right. auto.
      * right. left. exists x. split; [|split; [exact X2|now apply X3]]. do 3 (apply in_or_app; right). apply in_or_app. now left.
  - (* located now *)
    destruct Hc as [-> [p Hp]]. cbn [negb] in Hb. destruct (site_step w xyzs l1 s t) as [l2|e] eqn:El; cbn [bind] in Hb; [|discriminate].
    destruct lp as [last|e]; cbn [bind] in Hb; [|discriminate]. cbv zeta in Hb. rewrite Hp in Hb |- *. cbn [of_option bind] in Hb.
    destruct (view w c (l_xyz l2) (Some p) sys) as [v|e] eqn:Ev; cbn [bind] in Hb; [|discriminate].
    pose proof (view_told name (s_sat s) (nav_name k2 t sys) (l_xyz l2) (Some p) t sys v Ev) as Hv. destruct v as [v|].
    + destruct (dict_get date_eqb (dt_date t) (k_nav k2)) as [fl|]; cbn [of_option bind] in Hb; [|discriminate].
      destruct (dict_get ceqb sys fl) as [nv|]; cbn [of_option bind] in Hb; [|discriminate].
      destruct (row_step w c nv _ l2 s t sys n v) as [r|e] eqn:Er; cbn [bind] in Hb; [|discriminate]. apply ok_triple in Hb; destruct Hb as [<- [<- <-]].
      pose proof (row_told _ _ _ _ _ _ _ _ _ Er) as Hr. destruct r as [op|].
      * left. destruct Hr as [sd [nav' [q ->]]]. exists sd, nav', q. apply in_or_app. right. now left.
      * right. left. destruct (Hr name) as [x [X1 X2]]. exists x. split; [|exact X2]. do 4 (apply in_or_app; right). exact X1.
    + destruct Hv as [[Hv _]|[x [X1 [X2 X3]]]]; [discriminate|]. right. left. exists x. split; [|split; [exact X2|now apply X3]].
      do 3 (apply in_or_app; right). apply in_or_app. now left.
  - right. left. exists x. split; [|exact X2]. apply in_or_app. right. apply in_or_app. now left.
  - destruct (c_ignore c) eqn:Ei; [|right; right; auto]. destruct (ceqb sys "R") eqn:Er; [right; right; split; [right; now apply ceqb_eq|now left]|].
    (* the absence is ignored *)
    destruct Hc as [f0 [sats [msgs [Hn [_ Hu]]]]].
    destruct go2; cbn [negb] in Hb.
    + destruct (site_step w xyzs l1 s t) as [l2|e] eqn:El; cbn [bind] in Hb; [|discriminate].
      destruct lp as [last|e]; cbn [bind] in Hb; [|discriminate]. cbv zeta in Hb.
      destruct (dict_get sat_key_eqb (sys, n, dt_date t, dt_time t) (k_xyz k2)) as [cur|] eqn:Ec; cbn [of_option bind] in Hb; [|discriminate].
      destruct (view w c (l_xyz l2) cur sys) as [v|e] eqn:Ev; cbn [bind] in Hb; [|discriminate].
      pose proof (view_told name (s_sat s) (nav_name k2 t sys) (l_xyz l2) cur t sys v Ev) as Hv. destruct v as [v|].
      * destruct (dict_get date_eqb (dt_date t) (k_nav k2)) as [fl|]; cbn [of_option bind] in Hb; [|discriminate].
        destruct (dict_get ceqb sys fl) as [nv|]; cbn [of_option bind] in Hb; [|discriminate].
        destruct (row_step w c nv _ l2 s t sys n v) as [r|e] eqn:Ero; cbn [bind] in Hb; [|discriminate]. apply ok_triple in Hb; destruct Hb as [<- [<- <-]].
        pose proof (row_told _ _ _ _ _ _ _ _ _ Ero) as Hr. destruct r as [op|].
        -- left. destruct Hr as [sd [nav' [q ->]]]. exists sd, nav', q. apply in_or_app. right. now left.
        -- right. left. destruct (Hr name) as [x [X1 X2]]. exists x. split; [|exact X2]. do 4 (apply in_or_app; right). exact X1.
      * destruct Hv as [[-> [Hv|Hv]]|[x [X1 [X2 X3]]]].
        -- congruence.
        -- subst sys. rewrite ceqb_refl in Er. discriminate.
        -- right. left. exists x. split; [|split; [exact X2|now apply X3]]. do 3 (apply in_or_app; right). apply in_or_app. now left.
    + (* not computed: said so *)
      right. left. unfold sat_step, sat_says in *. destruct (dict_mem sat_key_eqb (sys, n, dt_date t, dt_time t) (k_xyz k1)); [discriminate Es|].
      destruct (select_navigation_message t sys n (l_nav l1) true) as [[[dt eph]|]|e]; cbn [bind] in Es; try discriminate Es.
      destruct (get_sat_xyz w sys eph dt) as [p|e].
      * destruct (ceqb sys "R"); [destruct (eph_at eph 7) as [x7|e]; cbn [bind] in Es; [|discriminate Es]; destruct (eph_at eph 3) as [x3|e]; cbn [bind] in Es; discriminate Es|discriminate Es].
      * destruct (existsb (exn_eqb e) arithmetic); [|discriminate Es]. exists (LPosition (nav_name k1 t sys) name t). split; [|split; [unfold noticeable; cbn; lia|cbn; auto]].
        apply in_or_app. right. apply in_or_app. left. apply in_or_app. right. now left.
Qed.
(** the keys of the positions kept *)
Lemma body_keys xyzs lp k l s t sys n k' l' ops key : record_body w c xyzs lp k l s t sys n = Ok (k', l', ops) ->
  dict_mem sat_key_eqb key (k_xyz k') = true -> dict_mem sat_key_eqb key (k_xyz k) = true \/ key = (sys, n, dt_date t, dt_time t).
Proof.
  assert (Hset : forall v, dict_mem sat_key_eqb key (dict_set sat_key_eqb (sys, n, dt_date t, dt_time t) v (k_xyz k)) = true ->
    dict_mem sat_key_eqb key (k_xyz k) = true \/ key = (sys, n, dt_date t, dt_time t)).
  { intros v. unfold dict_mem. rewrite (dict_get_set sat_key_eqb sat_key_eqb_eq). destruct (sat_key_eqb key (sys, n, dt_date t, dt_time t)) eqn:E; [|auto]. intros _. right. now apply sat_key_eqb_eq. }
  intros Hb Hk. assert (Hx : exists k1, k_xyz k1 = k_xyz k /\ (k_xyz k' = k_xyz k1 \/ exists go, sat_step w k1 (mkLocal (l_nav l') (l_xyz l) (l_lbh l)) t sys n = Ok (k', go))).
  { revert Hb. unfold record_body. destruct (nav_step w c k l t sys) as [[[k1 l1] go]|e] eqn:En; cbn [bind]; [|discriminate].
    assert (Hk1 : k_xyz k1 = k_xyz k /\ l_xyz l1 = l_xyz l /\ l_lbh l1 = l_lbh l).
    { clear -En. revert En. unfold nav_step. destruct (dict_mem ceqb sys (l_nav l)); [intros H; apply ok_triple in H; destruct H as [<- [<- _]]; auto|]. cbv zeta.
      destruct (load_navigation_message _ _ _ t sys _) as [[f m]|e]; [intros H; apply ok_triple in H; destruct H as [<- [<- _]]; auto|].
      destruct e; intros H; try discriminate H; apply ok_triple in H; destruct H as [<- [<- _]]; auto. }
    destruct Hk1 as [Hk1 [Hl1 Hl2]]. exists k1. split; [exact Hk1|]. destruct go; cbn [negb] in Hb; [|cbn [negb] in *; left; congruence].
    cbn [negb] in *. destruct (sat_step w k1 l1 t sys n) as [[k2 go2]|e] eqn:Es; cbn [bind] in *; [|discriminate].
    assert (Hn : forall q, l_nav q = l_nav l1 -> sat_step w k1 (mkLocal (l_nav q) (l_xyz l) (l_lbh l)) t sys n = Ok (k2, go2)) by (intros q Hq; rewrite <- Es; unfold sat_step; cbn [l_nav]; rewrite Hq; reflexivity).
    destruct go2; cbn [negb] in *; [|apply ok_triple in Hb; destruct Hb as [<- [<- <-]]; right; exists false; now apply Hn].
    destruct (site_step w xyzs l1 s t) as [l2|e] eqn:El; cbn [bind] in *; [|discriminate].
    assert (Hl : l_nav l2 = l_nav l1).
    { clear -El. revert El. unfold site_step. destruct (dict_get dt_eqb t xyzs) as [p|]; [destruct (lbh_of w p); cbn [bind]; [|discriminate]; intros H; apply ok_eq in H; subst; reflexivity|].
      destruct (same_xyz _ _); [intros H; apply ok_eq in H; subst; reflexivity|]. destruct (lbh_of w _); cbn [bind]; [|discriminate]. intros H; apply ok_eq in H; subst; reflexivity. }
    destruct lp as [last|e]; cbn [bind] in *; [|discriminate]. cbv zeta in *.
    destruct (of_option KeyError (dict_get sat_key_eqb _ _)) as [cur|e]; cbn [bind] in *; [|discriminate].
    destruct (view w c _ cur sys) as [[v|]|e]; cbn [bind] in *; [|apply ok_triple in Hb; destruct Hb as [<- [<- <-]]; right; exists true; now apply Hn|discriminate].
    destruct (of_option KeyError (dict_get date_eqb _ _)) as [files|e]; cbn [bind] in *; [|discriminate].
    destruct (of_option KeyError (dict_get ceqb _ _)) as [nav|e]; cbn [bind] in *; [|discriminate].
    destruct (row_step w c nav _ _ s t sys n v) as [r|e]; cbn [bind] in *; [|discriminate]. apply ok_triple in Hb; destruct Hb as [<- [<- <-]]. right. exists true. now apply Hn. }
  destruct Hx as [k1 [E1 [E2|[go E2]]]]; [rewrite E2, E1 in Hk; now left|]. revert E2. unfold sat_step. cbn [l_nav].
  destruct (dict_mem sat_key_eqb (sys, n, dt_date t, dt_time t) (k_xyz k1)); [intros H; apply ok_pair in H; destruct H as [<- _]; rewrite E1 in Hk; now left|].
  destruct (select_navigation_message _ _ _ _ _) as [[[dt eph]|]|e]; cbn [bind]; [| |discriminate].
  - destruct (get_sat_xyz w sys eph dt) as [p|e].
    + destruct (ceqb sys "R").
      * destruct (eph_at eph 7) as [x7|e]; cbn [bind]; [|discriminate]. destruct (eph_at eph 3) as [x3|e]; cbn [bind]; [|discriminate].
        intros H. apply ok_pair in H. destruct H as [H _]. subst k'. cbn [k_xyz] in Hk. rewrite E1 in Hk. exact (Hset _ Hk).
      * intros H. apply ok_pair in H. destruct H as [H _]. subst k'. cbn [k_xyz] in Hk. rewrite E1 in Hk. exact (Hset _ Hk).
    + destruct (existsb (exn_eqb e) arithmetic); [|discriminate]. intros H. apply ok_pair in H. destruct H as [H _]. subst k'. cbn [k_xyz] in Hk. rewrite E1 in Hk. exact (Hset _ Hk).
  - intros H. apply ok_pair in H. destruct H as [H _]. subst k'. cbn [k_xyz] in Hk. rewrite E1 in Hk. exact (Hset _ Hk).
Qed.
End Body.
