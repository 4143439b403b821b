(** The run: the dictionaries kept over the run hold what is computed afresh. *)
From Coq Require Import ZifyBool ZifyNat.
From Verif Require Import Base PyStr PyFloat PyDate PyPath S_Time M_Common M_Header M_Obs2 M_Rec M_Text M_Cfg M_Label M_Names M_Xyz M_Nav M_NmUtils M_Num M_Tec M_Sat M_Main S_Main S_Fresh P_Str P_Date P_Nav P_Out.
Open Scope nat_scope.

Lemma sat_key_eqb_eq a b : sat_key_eqb a b = true <-> a = b.
Proof.
  destruct a as [[[s n] d] t], b as [[[s' n'] d'] t']. unfold sat_key_eqb. rewrite !andb_true_iff, ceqb_eq, Z.eqb_eq, date_eqb_eq, tod_eqb_eq.
  intuition congruence.
Qed.
Lemma glo_key_eqb_eq a b : glo_key_eqb a b = true <-> a = b.
Proof.
  destruct a as [[n d] t], b as [[n' d'] t']. unfold glo_key_eqb. rewrite !andb_true_iff, Z.eqb_eq, date_eqb_eq, tod_eqb_eq.
  intuition congruence.
Qed.
Section Dec.
  Context {K V : Type} (eqb : K -> K -> bool) (eqb_eq : forall a b, eqb a b = true <-> a = b).
  Lemma dict_get_set (k k' : K) (v : V) d :
    dict_get eqb k (dict_set eqb k' v d) = if eqb k k' then Some v else dict_get eqb k d.
  Proof.
    destruct (eqb k k') eqn:E.
    - apply eqb_eq in E. subst k'. apply dict_get_set_same; exact eqb_eq.
    - apply dict_get_set_other; [exact eqb_eq|]. intros ->. rewrite (proj2 (eqb_eq k' k') eq_refl) in E. discriminate.
  Qed.
End Dec.
Lemma pair3 {A B C} (a a' : A) (b b' : B) (d d' : C) : (a, b, d) = (a', b', d') -> a = a' /\ b = b' /\ d = d'.
Proof. now intros [= -> -> ->]. Qed.
Lemma pair4 {A B C D} (a a' : A) (b b' : B) (d d' : C) (e e' : D) : (a, b, d, e) = (a', b', d', e') -> a = a' /\ b = b' /\ d = d' /\ e = e'.
Proof. now intros [= -> -> -> ->]. Qed.
Lemma oks {A B} (a a' : A) (b b' : B) : Ok (Some (a, b)) = Ok (Some (a', b')) -> a = a' /\ b = b'.
Proof. now intros [= -> ->]. Qed.
Lemma some_inj {A} (a b : A) : Some a = Some b -> a = b.
Proof. now intros [= ->]. Qed.
Lemma dt_of_parts t u : dt_date t = dt_date u -> dt_time t = dt_time u -> t = u.
Proof. destruct t, u. unfold dt_date, dt_time; cbn. intros [= -> -> ->] [= -> -> -> ->]. reflexivity. Qed.
Lemma date_eqb_refl d : date_eqb d d = true.
Proof. now apply date_eqb_eq. Qed.
Lemma ceqb_refl a : ceqb a a = true.
Proof. now apply ceqb_eq. Qed.

(** loading depends on the day only *)
Lemma find_nav_day ls paths t u sys : dt_date t = dt_date u -> find_nav_files ls paths t sys = find_nav_files ls paths u sys.
Proof.
  intros H. unfold find_nav_files, compose_navigation_re, classic_nav, modern_nav, strf_j, strf_y, strf_Y.
  destruct t, u. unfold dt_date in H; cbn in *. injection H as -> -> ->. reflexivity.
Qed.
Lemma load_day ls content paths t u sys prio : dt_date t = dt_date u ->
  load_navigation_message ls content paths t sys prio = load_navigation_message ls content paths u sys prio.
Proof. intros H. unfold load_navigation_message. rewrite !(find_nav_day ls paths t u) by exact H. reflexivity. Qed.
Lemma fresh_nav_day w c t u sys : dt_date t = dt_date u -> fresh_nav w c t sys = fresh_nav w c u sys.
Proof. intros H. unfold fresh_nav. now rewrite (load_day _ _ _ t u). Qed.

Lemma ceqb_Ascii a b : ceqb a b = Ascii.eqb a b.
Proof. destruct (ceqb a b) eqn:E; symmetry; [apply Ascii.eqb_eq; now apply ceqb_eq|].
  apply Ascii.eqb_neq. intros ->. rewrite ceqb_refl in E. discriminate. Qed.
Lemma motion_eq w sys eph dt : get_sat_xyz w sys eph dt = motion w sys eph dt.
Proof. destruct sys as [[] [] [] [] [] [] [] []]; reflexivity. Qed.
Lemma select_local t sys n (l : list (ascii * option sys_message)) m b : dict_get ceqb sys l = Some m ->
  select_navigation_message t sys n l b = select_navigation_message t sys n [(sys, m)] b.
Proof. intros H. unfold select_navigation_message. rewrite H. cbn [dict_get]. now rewrite ceqb_refl. Qed.

Section Inv.
Variable (w : world) (c : cfg).

Definition nav_good (k : caches) : Prop :=
  forall d files sys v, dict_get date_eqb d (k_nav k) = Some files -> dict_get ceqb sys files = Some v ->
    forall t, dt_date t = d -> exists m, fresh_nav w c t sys = Ok (v, m).
Definition xyz_good (k : caches) : Prop :=
  forall sys n t v, dict_get sat_key_eqb (sys, n, dt_date t, dt_time t) (k_xyz k) = Some v ->
    exists f m, fresh_nav w c t sys = Ok (f, m) /\
      match v with
      | Some p => exists g, fresh_sat w t sys n m = Ok (Some (Some p, g)) /\
                            (sys = "R"%char -> dict_get glo_key_eqb (n, dt_date t, dt_time t) (k_glo k) = g)
      | None => fresh_sat w t sys n m = Ok (Some (None, None)) \/ fresh_sat w t sys n m = Ok None
      end.
Definition glo_good (k : caches) : Prop :=
  forall n t g, dict_get glo_key_eqb (n, dt_date t, dt_time t) (k_glo k) = Some g ->
    exists f m p, fresh_nav w c t "R" = Ok (f, m) /\ fresh_sat w t "R" n m = Ok (Some (Some p, Some g)).
Definition good (k : caches) : Prop := nav_good k /\ xyz_good k /\ glo_good k.
(** the messages of the file being read, of day [day] *)
Definition loc_good (day : date) (k : caches) (l : local) : Prop :=
  forall sys v, dict_get ceqb sys (l_nav l) = Some v -> forall t, dt_date t = day ->
    exists f files, fresh_nav w c t sys = Ok (f, v) /\ dict_get date_eqb day (k_nav k) = Some files /\ dict_get ceqb sys files = Some f.

Lemma good_none : good no_caches.
Proof. repeat split; intros ? **; discriminate. Qed.

Lemma prior_eq sys : priority_of c sys = preferred c sys.
Proof. unfold priority_of, preferred. destruct sys as [[] [] [] [] [] [] [] []]; reflexivity. Qed.
(** fresh_nav: the two results go together *)
Lemma fresh_nav_some t sys f m : fresh_nav w c t sys = Ok (f, m) -> (f = None -> m = None).
Proof.
  unfold fresh_nav. destruct load_navigation_message as [[f' m']|e]; [intros [= <- <-]; discriminate|].
  destruct e; intros [= <- <-]; reflexivity.
Qed.

Lemma nav_step_ok k l t sys k' l' go : good k -> loc_good (dt_date t) k l -> nav_step w c k l t sys = Ok (k', l', go) ->
  good k' /\ loc_good (dt_date t) k' l' /\ l_xyz l' = l_xyz l /\ l_lbh l' = l_lbh l /\
  (forall x, dict_mem ceqb x (l_nav l') = ceqb x sys || dict_mem ceqb x (l_nav l)) /\
  exists f m files, fresh_nav w c t sys = Ok (f, m) /\ dict_get ceqb sys (l_nav l') = Some m /\
    dict_get date_eqb (dt_date t) (k_nav k') = Some files /\ dict_get ceqb sys files = Some f /\
    (go = false <-> f = None /\ dict_mem ceqb sys (l_nav l) = false).
Proof.
  intros [Gn [Gx Gg]] Gl. unfold nav_step.
  set (nav := match dict_get date_eqb (dt_date t) (k_nav k) with Some _ => k_nav k | None => dict_set date_eqb (dt_date t) [] (k_nav k) end).
  assert (Hnav : forall d, dict_get date_eqb d nav = if date_eqb d (dt_date t) then Some (match dict_get date_eqb (dt_date t) (k_nav k) with Some x => x | None => [] end)
                                                    else dict_get date_eqb d (k_nav k)).
  { intros d. unfold nav. destruct (dict_get date_eqb (dt_date t) (k_nav k)) as [x|] eqn:E.
    - destruct (date_eqb d (dt_date t)) eqn:Ed; [apply date_eqb_eq in Ed; subst d; exact E|reflexivity].
    - rewrite (dict_get_set date_eqb date_eqb_eq). destruct (date_eqb d (dt_date t)); reflexivity. }
  assert (Gn' : nav_good (mkCaches nav (k_xyz k) (k_glo k))).
  { intros d files s v. cbn [k_nav]. rewrite Hnav. destruct (date_eqb d (dt_date t)) eqn:Ed.
    - apply date_eqb_eq in Ed. subst d. intros [= <-]. destruct (dict_get date_eqb (dt_date t) (k_nav k)) as [x|] eqn:E; [|discriminate].
      intros Hv. exact (Gn _ _ _ _ E Hv).
    - intros Hd Hv. exact (Gn _ _ _ _ Hd Hv). }
  destruct (dict_mem ceqb sys (l_nav l)) eqn:Em.
  - intros [= <- <- <-]. split; [split; [exact Gn'|split; [exact Gx|exact Gg]]|].
    assert (Gl' : loc_good (dt_date t) (mkCaches nav (k_xyz k) (k_glo k)) l).
    { intros s v Hv u Hu. destruct (Gl s v Hv u Hu) as [f [files [H1 [H2 H3]]]]. exists f, files. split; [exact H1|]. split; [|exact H3].
      cbn [k_nav]. rewrite Hnav, date_eqb_refl, H2. reflexivity. }
    split; [exact Gl'|]. split; [reflexivity|]. split; [reflexivity|]. split.
    { intros x. destruct (ceqb x sys) eqn:E; [|reflexivity]. apply ceqb_eq in E. subst x. now rewrite Em. }
    unfold dict_mem in Em. destruct (dict_get ceqb sys (l_nav l)) as [m|] eqn:Eg; [|discriminate].
    destruct (Gl' sys m Eg t eq_refl) as [f [files [H1 [H2 H3]]]]. exists f, m, files.
    repeat (split; [first [exact H1|exact H2|exact H3|exact Eg|reflexivity]|]). split; [discriminate|]. now intros [_ ?].
  - cbv zeta.
    set (files := match dict_get date_eqb (dt_date t) nav with Some x => x | None => [] end).
    assert (Hall : forall f m, fresh_nav w c t sys = Ok (f, m) ->
      let k' := mkCaches (dict_set date_eqb (dt_date t) (dict_set ceqb sys f files) nav) (k_xyz k) (k_glo k) in
      let l' := mkLocal (dict_set ceqb sys m (l_nav l)) (l_xyz l) (l_lbh l) in
      good k' /\ loc_good (dt_date t) k' l' /\ l_xyz l' = l_xyz l /\ l_lbh l' = l_lbh l /\
      (forall x, dict_mem ceqb x (l_nav l') = ceqb x sys || dict_mem ceqb x (l_nav l)) /\
      exists f0 m0 files0, fresh_nav w c t sys = Ok (f0, m0) /\ dict_get ceqb sys (l_nav l') = Some m0 /\
        dict_get date_eqb (dt_date t) (k_nav k') = Some files0 /\ dict_get ceqb sys files0 = Some f0 /\ f0 = f).
    { intros f m Hf. cbv zeta. split; [|split; [|split; [reflexivity|split; [reflexivity|split]]]].
      - split; [|split; [exact Gx|exact Gg]].
        intros d fs s v. cbn [k_nav]. rewrite (dict_get_set date_eqb date_eqb_eq). destruct (date_eqb d (dt_date t)) eqn:Ed.
        + apply date_eqb_eq in Ed. subst d. intros [= <-]. rewrite (dict_get_set ceqb ceqb_eq). destruct (ceqb s sys) eqn:Es.
          * apply ceqb_eq in Es. subst s. intros [= <-] u Hu. exists m. now rewrite (fresh_nav_day w c u t).
          * unfold files. intros Hv. destruct (dict_get date_eqb (dt_date t) nav) as [x|] eqn:E; [|discriminate].
            exact (Gn' _ _ _ _ E Hv).
        + intros Hd Hv. exact (Gn' _ _ _ _ Hd Hv).
      - intros s v. cbn [l_nav k_nav]. rewrite (dict_get_set ceqb ceqb_eq). destruct (ceqb s sys) eqn:Es.
        + apply ceqb_eq in Es. subst s. intros [= <-] u Hu. exists f, (dict_set ceqb sys f files).
          rewrite (dict_get_set date_eqb date_eqb_eq), date_eqb_refl. rewrite (dict_get_set ceqb ceqb_eq), ceqb_refl.
          rewrite (fresh_nav_day w c u t) by exact Hu. auto.
        + intros Hv u Hu. destruct (Gl s v Hv u Hu) as [f' [fs [H1 [H2 H3]]]]. exists f', (dict_set ceqb sys f files).
          rewrite (dict_get_set date_eqb date_eqb_eq), date_eqb_refl. rewrite (dict_get_set ceqb ceqb_eq), Es.
          split; [exact H1|]. split; [reflexivity|]. unfold files. rewrite Hnav, date_eqb_refl, H2. exact H3.
      - intros x. unfold dict_mem; cbn [l_nav]. rewrite (dict_get_set ceqb ceqb_eq). destruct (ceqb x sys); reflexivity.
      - exists f, m, (dict_set ceqb sys f files). cbn [l_nav k_nav]. rewrite (dict_get_set date_eqb date_eqb_eq), date_eqb_refl.
        rewrite !(dict_get_set ceqb ceqb_eq), ceqb_refl. auto. }
    unfold fresh_nav in Hall. rewrite prior_eq. destruct load_navigation_message as [[fn m]|e] eqn:El.
    + specialize (Hall _ _ eq_refl). cbv zeta in Hall. intros [= <- <- <-]. destruct Hall as [H1 [H2 [H3 [H4 [H5 [f0 [m0 [fs [H6 [H7 [H8 [H9 H10]]]]]]]]]]]].
      repeat (split; [assumption|]). exists f0, m0, fs. unfold fresh_nav. rewrite El. repeat (split; [assumption|]). subst f0.
      split; [discriminate|]. now intros [? _].
    + destruct e; try discriminate;
      (specialize (Hall _ _ eq_refl); cbv zeta in Hall; intros [= <- <- <-]; destruct Hall as [H1 [H2 [H3 [H4 [H5 [f0 [m0 [fs [H6 [H7 [H8 [H9 H10]]]]]]]]]]]];
       repeat (split; [assumption|]); exists f0, m0, fs; unfold fresh_nav; rewrite El; repeat (split; [assumption|]); subst f0; auto; split; auto).
Qed.
Lemma nav_step_err k l t sys e : loc_good (dt_date t) k l -> nav_step w c k l t sys = Err e -> fresh_nav w c t sys = Err e.
Proof.
  intros Gl. unfold nav_step, fresh_nav. rewrite prior_eq. destruct (dict_mem ceqb sys (l_nav l)); [discriminate|].
  destruct load_navigation_message as [[fn m]|e']; [discriminate|]. destruct e'; intros [= <-]; reflexivity.
Qed.

Lemma arith_eqb e : existsb (exn_eqb e) arithmetic = true <-> arith e.
Proof. unfold arith, arithmetic. destruct e; cbn; intuition congruence. Qed.

Lemma sat_step_ok k l t sys n m f k' go : good k -> fresh_nav w c t sys = Ok (f, m) -> dict_get ceqb sys (l_nav l) = Some m ->
  sat_step w k l t sys n = Ok (k', go) ->
  good k' /\ k_nav k' = k_nav k /\
  (go = false -> fresh_sat w t sys n m = Ok None) /\
  (go = true -> exists cur, dict_get sat_key_eqb (sys, n, dt_date t, dt_time t) (k_xyz k') = Some cur /\
     ((exists g, fresh_sat w t sys n m = Ok (Some (cur, g)) /\
         (sys = "R"%char -> cur <> None -> dict_get glo_key_eqb (n, dt_date t, dt_time t) (k_glo k') = g)) \/
      (cur = None /\ fresh_sat w t sys n m = Ok None))).
Proof.
  intros G Hf Hm. pose proof G as [Gn [Gx Gg]]. unfold sat_step.
  destruct (dict_mem sat_key_eqb (sys, n, dt_date t, dt_time t) (k_xyz k)) eqn:Em.
  { intros [= <- <-]. unfold dict_mem in Em. destruct (dict_get sat_key_eqb (sys, n, dt_date t, dt_time t) (k_xyz k)) as [v|] eqn:Ev; [|discriminate].
    split; [exact G|]. split; [reflexivity|]. split; [discriminate|]. intros _. exists v. split; [reflexivity|].
    destruct (Gx _ _ _ _ Ev) as [f' [m' [H1 H2]]]. rewrite Hf in H1. injection H1 as <- <-. destruct v as [p|].
    - destruct H2 as [g [H2 H3]]. left. exists g. auto.
    - destruct H2 as [H2|H2]; [left; exists None; split; [exact H2|congruence]|right; auto]. }
  rewrite (select_local _ _ _ _ m) by exact Hm.
  (* the dictionaries after setting the entry *)
  assert (Hset : forall p glo, glo_good (mkCaches (k_nav k) (k_xyz k) glo) ->
    (forall key g, dict_get glo_key_eqb key (k_glo k) = Some g -> dict_get glo_key_eqb key glo = Some g) ->
    match p with
    | Some p => exists g, fresh_sat w t sys n m = Ok (Some (Some p, g)) /\ (sys = "R"%char -> dict_get glo_key_eqb (n, dt_date t, dt_time t) glo = g)
    | None => fresh_sat w t sys n m = Ok (Some (None, None)) \/ fresh_sat w t sys n m = Ok None
    end ->
    let k' := mkCaches (k_nav k) (dict_set sat_key_eqb (sys, n, dt_date t, dt_time t) p (k_xyz k)) glo in
    good k' /\ dict_get sat_key_eqb (sys, n, dt_date t, dt_time t) (k_xyz k') = Some p).
  { intros p glo Hg Hext Hp. cbv zeta. cbn [k_xyz]. rewrite (dict_get_set sat_key_eqb sat_key_eqb_eq).
    rewrite (proj2 (sat_key_eqb_eq _ _) eq_refl). split; [|reflexivity]. split; [exact Gn|]. split; [|exact Hg].
    intros s i u v. cbn [k_xyz k_glo]. rewrite (dict_get_set sat_key_eqb sat_key_eqb_eq). destruct (sat_key_eqb (s, i, dt_date u, dt_time u) _) eqn:E.
    - apply sat_key_eqb_eq in E. apply pair4 in E. destruct E as [-> [-> [Ed Et]]]. intros [= <-]. rewrite (dt_of_parts u t Ed Et).
      exists f, m. split; [exact Hf|]. exact Hp.
    - intros Hv. destruct (Gx _ _ _ _ Hv) as [f' [m' [H1 H2]]]. exists f', m'. split; [exact H1|]. destruct v as [q|]; [|exact H2].
      destruct H2 as [g [H2 H3]]. exists g. split; [exact H2|]. intros Hs. specialize (H3 Hs).
      subst s. assert (exists g', g = Some g') as [g' ->].
      { revert H2. unfold fresh_sat. destruct select_navigation_message as [[[dt eph]|]|]; cbn [bind]; try discriminate.
        destruct motion as [p0|e]; [|destruct e; discriminate]. cbn [Ascii.eqb Bool.eqb].
        destruct (nth_error eph 7); cbn [of_option bind]; [|discriminate]. destruct (nth_error eph 3); cbn [of_option bind]; [|discriminate].
        intros E0. apply oks in E0. destruct E0 as [_ <-]. eauto. }
      exact (Hext _ _ H3). }
  unfold fresh_sat in Hset |- *. destruct (select_navigation_message t sys n [(sys, m)] true) as [[[dt eph]|]|e] eqn:Es; cbn [bind] in *; try discriminate.
  2:{ intros [= <- <-]. destruct (Hset None (k_glo k) Gg (fun _ _ H => H) (or_introl eq_refl)) as [H1 H2].
      split; [exact H1|]. split; [reflexivity|]. split; [discriminate|]. intros _. exists None. split; [exact H2|].
      left. exists None. split; [reflexivity|congruence]. }
  rewrite motion_eq. destruct (motion w sys eph dt) as [p|e] eqn:Ep.
  2:{ destruct (existsb (exn_eqb e) arithmetic) eqn:Ea; [|discriminate]. apply arith_eqb in Ea. intros [= <- <-].
      assert (Hn : match e with ZeroDivisionError | OverflowError => Ok None | e => Err e end = Ok (A := option (option xyz * option (float * float * float))) None).
      { destruct Ea as [-> | ->]; reflexivity. }
      destruct (Hset None (k_glo k) Gg (fun _ _ H => H) (or_intror Hn)) as [H1 H2].
      split; [exact H1|]. split; [reflexivity|]. split; [intros _; exact Hn|discriminate]. }
  change (Ascii.eqb sys "R") with (ceqb sys "R") in *. destruct (ceqb sys "R") eqn:Er.
  - apply ceqb_eq in Er. subst sys. unfold eph_at. destruct (nth_error eph 7) as [ch|] eqn:E7; cbn [of_option bind] in *; [|discriminate].
    destruct (nth_error eph 3) as [h|] eqn:E3; cbn [of_option bind] in *; [|discriminate].
    set (g := (glo_f1 (Fops (w_libm w)) ch, glo_f2 (Fops (w_libm w)) ch, ch)) in *.
    set (glo := if dict_mem glo_key_eqb (n, dt_date t, dt_time t) (k_glo k) then k_glo k
                else dict_set glo_key_eqb (n, dt_date t, dt_time t) g (k_glo k)).
    assert (Hfs : fresh_sat w t "R" n m = Ok (Some (Some p, Some g))).
    { unfold fresh_sat. rewrite Es. cbn [bind]. rewrite Ep. cbn [Ascii.eqb Bool.eqb]. rewrite E7. cbn [of_option bind]. rewrite E3. reflexivity. }
    assert (Hgl : forall key, dict_get glo_key_eqb key glo = if glo_key_eqb key (n, dt_date t, dt_time t) then Some g else dict_get glo_key_eqb key (k_glo k)).
    { intros key. unfold glo, dict_mem. destruct (dict_get glo_key_eqb (n, dt_date t, dt_time t) (k_glo k)) as [g'|] eqn:Eg.
      - destruct (Gg _ _ _ Eg) as [f' [m' [p' [H1 H2]]]]. rewrite Hf in H1. injection H1 as <- <-. rewrite Hfs in H2. apply oks in H2. destruct H2 as [_ E2]. assert (E9 : g = g') by (now apply some_inj in E2). clear E2. rewrite <- E9 in Eg.
        destruct (glo_key_eqb key _) eqn:E; [apply glo_key_eqb_eq in E; subst key; exact Eg|reflexivity].
      - apply (dict_get_set glo_key_eqb glo_key_eqb_eq). }
    intros [= <- <-].
    destruct (Hset (Some p) glo) as [H1 H2].
    + intros i u g'. cbn [k_glo]. rewrite Hgl. destruct (glo_key_eqb (i, dt_date u, dt_time u) _) eqn:E.
      * apply glo_key_eqb_eq in E. apply pair3 in E. destruct E as [-> [Ed Et]]. intros [= <-]. rewrite (dt_of_parts u t Ed Et). eauto.
      * apply Gg.
    + intros key g' Hk. rewrite Hgl. destruct (glo_key_eqb key _) eqn:E; [|exact Hk]. apply glo_key_eqb_eq in E. subst key.
      destruct (Gg _ _ _ Hk) as [f' [m' [p' [K1 K2]]]]. rewrite Hf in K1. injection K1 as <- <-. rewrite Hfs in K2. apply oks in K2. destruct K2 as [_ K2]. exact K2.
    + exists (Some g). split; [reflexivity|]. intros _. rewrite Hgl, (proj2 (glo_key_eqb_eq _ _) eq_refl). reflexivity.
    + split; [exact H1|]. split; [reflexivity|]. split; [discriminate|]. intros _. exists (Some p). split; [exact H2|].
      left. exists (Some g). split; [reflexivity|]. intros _ _. cbn [k_glo]. rewrite Hgl, (proj2 (glo_key_eqb_eq _ _) eq_refl). reflexivity.
  - intros [= <- <-]. destruct (Hset (Some p) (k_glo k) Gg (fun _ _ H => H)) as [H1 H2].
    + exists None. split; [reflexivity|]. intros ->. now rewrite ceqb_refl in Er.
    + split; [exact H1|]. split; [reflexivity|]. split; [discriminate|]. intros _. exists (Some p). split; [exact H2|].
      left. exists None. split; [reflexivity|]. intros ->. now rewrite ceqb_refl in Er.
Qed.
Lemma sat_step_err k l t sys n m e : dict_get ceqb sys (l_nav l) = Some m -> sat_step w k l t sys n = Err e -> fresh_sat w t sys n m = Err e.
Proof.
  intros Hm. unfold sat_step, fresh_sat. destruct (dict_mem _ _ (k_xyz k)); [discriminate|].
  rewrite (select_local _ _ _ _ m) by exact Hm.
  destruct (select_navigation_message t sys n [(sys, m)] true) as [[[dt eph]|]|e'] eqn:Es; cbn [bind]; try discriminate; [|congruence].
  rewrite motion_eq. destruct (motion w sys eph dt) as [p|e'] eqn:Ep.
  - change (Ascii.eqb sys "R") with (ceqb sys "R"). destruct (ceqb sys "R"); [|discriminate]. unfold eph_at.
    destruct (nth_error eph 7) as [ch|]; cbn [of_option bind]; [|congruence].
    destruct (nth_error eph 3) as [h|]; cbn [of_option bind]; [discriminate|congruence].
  - destruct (existsb (exn_eqb e') arithmetic) eqn:Ea; [discriminate|]. intros [= <-]. destruct e'; try reflexivity; discriminate.
Qed.
End Inv.
