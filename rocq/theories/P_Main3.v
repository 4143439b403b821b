(** The run: rows of a file; the program without dictionaries. *)
From Coq Require Import ZifyBool ZifyNat.
From Verif Require Import Base PyStr PyFloat PyDate PyPath S_Time M_Common M_Header M_Obs2 M_Rec M_Text M_Cfg M_Label M_Names M_Xyz M_Nav M_NmUtils M_Num M_Tec M_Sat M_Main S_Main S_Fresh P_Str P_Date P_Nav P_Out P_Main1 P_Main2.
Open Scope nat_scope.

(** ** records *)
Lemma ident_iff s t sys n : record_ident s = Ok (t, sys, n) <-> identifies s t sys n.
Proof.
  unfold record_ident, identifies. destruct (s_sat s) as [|a r] eqn:Es.
  - split; [discriminate|]. intros [_ [d [H _]]]. discriminate.
  - destruct (py_int r) as [z|e] eqn:Ei; cbn [bind].
    + destruct (s_epoch s) as [u|]; cbn [of_option bind].
      * split; [intros [= <- <- <-]; eauto|]. intros [[= ->] [d [[= -> <-] H]]]. rewrite Ei in H. now injection H as ->.
      * split; [discriminate|]. now intros [? _].
    + split; [discriminate|]. intros [_ [d [[= -> <-] H]]]. congruence.
Qed.
Lemma ident_err s e : record_ident s = Err e -> unreadable s.
Proof. intros H [t [sys [n Hi]]]. apply ident_iff in Hi. congruence. Qed.
Lemma supports_iff sys : supports sys = true <-> In sys systems.
Proof.
  unfold supports. rewrite existsb_exists. change supported with systems. split.
  - intros [x [H1 H2]]. apply ceqb_eq in H2. now subst x.
  - intros H. exists sys. split; [exact H|apply ceqb_refl].
Qed.
Lemma accept_some day si last t sys last' : accept day si last t sys = Some last' ->
  In sys systems /\ day = Some (dt_date t) /\ sample si last t = Some last'.
Proof.
  unfold accept. destruct (supports sys) eqn:Es; [|discriminate]. apply supports_iff in Es. cbn [negb].
  destruct day as [d|]; [|discriminate]. destruct (date_eqb (dt_date t) d) eqn:Ed; [|discriminate]. apply date_eqb_eq in Ed. subst d. auto.
Qed.
Lemma accept_usable day si last s t sys n last' : identifies s t sys n -> accept day si last t sys = Some last' -> usable day s.
Proof. intros Hi Ha. apply accept_some in Ha. destruct Ha as [H1 [H2 _]]. exists t, sys, n. auto. Qed.

(** ** fresh values meet the specification *)
Section Fresh.
Variable (w : world) (c : cfg).
Lemma fresh_nav_spec t sys f m : fresh_nav w c t sys = Ok (f, m) -> exists d, nav_data w c t sys d /\ f = option_map fst d /\ m = option_map snd d.
Proof.
  unfold fresh_nav. destruct load_navigation_message as [[fn msg]|e] eqn:El.
  - intros [= <- <-]. assert (exists sats, dict_get ceqb sys msg = Some sats) as [sats Hs].
    { revert El. unfold load_navigation_message.
      match goal with |- context [of_option NMError ?x] => destruct x as [fo|]; cbn [of_option bind]; [|discriminate] end.
      destruct (w_nav w fo) as [lns|e]; cbn [bind]; [|discriminate].
      destruct (nav_file fo lns) as [m0|e]; cbn [bind]; [|discriminate].
      destruct (dict_get ceqb sys m0) as [sats|] eqn:E; [|discriminate]. intros [= _ <-]. eauto. }
    exists (Some (fn, sats)). split; [eapply nav_found; eassumption|]. now rewrite Hs.
  - intros H. exists None. split; [|destruct e; try discriminate; injection H as <- <-; auto].
    eapply nav_missing; [exact El|]. destruct e; try discriminate; auto.
Qed.
Lemma ephemeris_of t sys n f m e : fresh_nav w c t sys = Ok (f, m) -> select_navigation_message t sys n [(sys, m)] true = Ok e ->
  ephemeris w c t sys n e.
Proof.
  intros Hf Hs. destruct (fresh_nav_spec _ _ _ _ Hf) as [d [Hd [-> ->]]]. destruct d as [[fn sats]|]; cbn [option_map fst snd] in *.
  - eapply eph_chosen; eassumption.
  - unfold select_navigation_message in Hs. cbn [dict_get] in Hs. rewrite ceqb_refl in Hs. injection Hs as <-. now apply eph_no_file.
Qed.
Lemma fresh_sat_spec t sys n f m got : fresh_nav w c t sys = Ok (f, m) -> fresh_sat w t sys n m = Ok got ->
  match got with
  | None => incomputable w c t sys n
  | Some (None, _) => unlocated w c t sys n
  | Some (Some p, g) => located w c t sys n p /\
     (sys = "R"%char -> exists k, channel w c t n k /\ g = Some (glo_f1 (Fops (w_libm w)) k, glo_f2 (Fops (w_libm w)) k, k))
  end.
Proof.
  intros Hf. unfold fresh_sat. destruct (select_navigation_message t sys n [(sys, m)] true) as [[[dt eph]|]|e] eqn:Es; cbn [bind]; [| |discriminate].
  2:{ intros H. injection H as <-. exact (ephemeris_of t sys n f m None Hf Es). }
  pose proof (ephemeris_of t sys n f m _ Hf Es) as He. destruct (motion w sys eph dt) as [p|e] eqn:Em.
  - destruct (Ascii.eqb sys "R") eqn:Er.
    + apply Ascii.eqb_eq in Er. subst sys. destruct (nth_error eph 7) as [k|] eqn:E7; cbn [of_option bind]; [|discriminate].
      destruct (nth_error eph 3) as [h|] eqn:E3; cbn [of_option bind]; [|discriminate].
      destruct got as [[cur g]|]; [|discriminate]. intros H. apply oks in H. destruct H as [<- <-].
      split; [exists dt, eph; auto|]. intros _. exists k. split; [exists dt, eph; auto|reflexivity].
    + destruct got as [[cur g]|]; [|discriminate]. intros H. apply oks in H. destruct H as [<- <-].
      split; [exists dt, eph; auto|]. intros ->. discriminate.
  - assert (arith e \/ ~ arith e) as [Ha|Ha] by (unfold arith; destruct e; (left; auto; fail) || (right; intuition discriminate)).
    + assert (Hn : match e with ZeroDivisionError | OverflowError => Ok None | e => Err e end = Ok (A := option (option xyz * option (float * float * float))) None).
      { destruct Ha as [-> | ->]; reflexivity. }
      rewrite Hn. intros [= <-]. exists dt, eph, e. auto.
    + intros H. exfalso. apply Ha. destruct e; try discriminate; [left|right]; reflexivity.
Qed.

Lemma same_num_spec a b : same_num a b = true -> a = b \/ feqb a b = true.
Proof. unfold same_num. intros H. apply orb_prop in H. destruct H as [H|H]; [auto|]. left. destruct a, b; try discriminate. reflexivity. Qed.
Lemma same_xyz_spec p q : same_xyz p q = true -> same_place p q.
Proof.
  destruct p as [[x y] z], q as [[u v] r]. unfold same_xyz, same_place. rewrite !andb_true_iff. intros [[H1 H2] H3].
  split; [now apply same_num_spec|]. split; now apply same_num_spec.
Qed.
Lemma same_place_refl p : same_place p p.
Proof. destruct p as [[x y] z]. unfold same_place. auto. Qed.
Lemma lbh_geodetic p q : lbh_of w p = Ok q <-> geodetic w p q.
Proof. destruct p as [[x y] z]. unfold lbh_of, geodetic. tauto. Qed.
Lemma site_step_spec xyzs l s t l' : geodetic w (l_xyz l) (l_lbh l) -> site_step w xyzs l s t = Ok l' ->
  geodetic w (l_xyz l') (l_lbh l') /\ site_of xyzs s t (l_xyz l').
Proof.
  intros Hg. unfold site_step, site_of, entry. destruct (dict_get dt_eqb t xyzs) as [p|] eqn:E.
  - destruct (lbh_of w p) as [q|e] eqn:El; cbn [bind]; [|discriminate]. intros [= <-]. cbn [l_xyz l_lbh].
    split; [now apply lbh_geodetic|auto].
  - destruct (same_xyz (l_xyz l) (s_xyz s)) eqn:Es.
    + intros [= <-]. split; [exact Hg|]. right. split; [discriminate|]. now apply same_xyz_spec.
    + destruct (lbh_of w (s_xyz s)) as [q|e] eqn:El; cbn [bind]; [|discriminate]. intros [= <-]. cbn [l_xyz l_lbh].
      split; [now apply lbh_geodetic|]. right. split; [discriminate|]. apply same_place_refl.
Qed.

Lemma site_step_nil xyzs x y s t l : site_step w xyzs (mkLocal [] x y) s t = Ok l -> l_nav l = [].
Proof.
  unfold site_step. destruct (dict_get dt_eqb t xyzs).
  - destruct lbh_of; cbn [bind]; [intros [= <-]; reflexivity|discriminate].
  - cbn [l_xyz]. destruct same_xyz; [intros [= <-]; reflexivity|]. destruct lbh_of; cbn [bind]; [intros [= <-]; reflexivity|discriminate].
Qed.

(** what [row_step] writes *)
Lemma row_step_spec nav g l s t sys n pos el az op : row_step w c nav g l s t sys n (pos, el, az) = Ok (Some op) ->
  (sys = "R"%char -> exists k, channel w c t n k /\ g = Some (glo_f1 (Fops (w_libm w)) k, glo_f2 (Fops (w_libm w)) k, k)) ->
  exists sd q, op = WRow (s_sat s) sd nav t q /\ shows_site q (l_xyz l) (l_lbh l) /\ shows_sat q pos el az /\
    names_sat w c t sys n (s_sat s) sd /\ shows_data w c s t sys n q.
Proof.
  unfold row_step. intros H Hg.
  destruct (if ceqb sys "R" then of_option KeyError g else Ok (fzero, fzero, fzero)) as [[[f1 f2] k0]|e] eqn:Ef; cbn [bind] in H; [|discriminate].
  destruct (tec_columns _ _ _ _) as [tecs|e] eqn:Et; cbn [bind] in H; [|discriminate].
  destruct (s_types s sys) as [types|e] eqn:Ety; cbn [bind] in H; [|discriminate].
  destruct (record_validity types (s_rec s)) as [v|e] eqn:Ev; [|destruct e; discriminate].
  apply (f_equal (fun x => match x with Ok (Some y) => y | _ => op end)) in H. cbn beta iota in H. subst op. eexists _, _. split; [reflexivity|].
  split. { destruct (l_xyz l) as [[x y] z], (l_lbh l) as [[a b] h]. unfold shows_site, column. cbn. repeat split; reflexivity. }
  split. { destruct pos as [[x y] z]. unfold shows_sat, column. cbn. repeat split; reflexivity. }
  split.
  - unfold names_sat. destruct (Ascii.eqb sys "R") eqn:Er.
    + apply Ascii.eqb_eq in Er. subst sys. destruct (Hg eq_refl) as [k [Hk ->]]. cbn [ceqb Ascii.eqb Bool.eqb of_option] in Ef.
      apply (f_equal (fun x => match x with Ok (_, y) => y | _ => k0 end)) in Ef. cbn beta iota in Ef. subst k0. exists k. split; [exact Hk|reflexivity].
    + destruct (Ascii.eqb sys "S") eqn:Es; [apply Ascii.eqb_eq in Es; subst sys; reflexivity|].
      unfold sat_def_of. destruct sys as [[] [] [] [] [] [] [] []]; try reflexivity; discriminate.
  - exists (f1, f2), tecs. split.
    { destruct (Ascii.eqb sys "R") eqn:Er.
      - right. apply Ascii.eqb_eq in Er. subst sys. destruct (Hg eq_refl) as [k [Hk ->]]. exists k. split; [exact Hk|].
        cbn [ceqb Ascii.eqb Bool.eqb of_option] in Ef.
        apply (f_equal (fun x => match x with Ok (y, _) => y | _ => (f1, f2) end)) in Ef. cbn beta iota in Ef. now symmetry.
      - left. intros ->. discriminate. }
    split; [exact Et|]. split. { intros name. cbn [chunk_of]. destruct (dict_get seqb (lit name) tecs) as [[x|]|]; reflexivity. }
    split. { exists types, v. auto. }
    intros name cl Hin. cbn [In] in Hin.
    repeat (destruct Hin as [E|Hin]; [injection E as <- <-; split; reflexivity|]). contradiction.
Qed.
(** what is written for a record *)
Lemma fresh_row_spec xyzs lp site s t sys n f m cur g site' ops : fresh_nav w c t sys = Ok (f, m) ->
  (fresh_sat w t sys n m = Ok (Some (cur, g)) \/ cur = None /\ g = None /\ fresh_sat w t sys n m = Ok None) ->
  geodetic w (fst site) (snd site) -> identifies s t sys n ->
  fresh_row w c xyzs lp site s t sys n f cur g = Ok (site', ops) ->
  geodetic w (fst site') (snd site') /\ site_of xyzs s t (fst site') /\
  (forall op, In op ops -> (exists p q, op = WPos t p q /\ p = fst site' /\ q = snd site') \/ row_for w c xyzs s op) /\
  (forall sat sd nav u q, In (WRow sat sd nav u q) ops -> sat = s_sat s /\ u = t).
Proof.
  intros Hf Hsat Hgeo Hid. unfold fresh_row. destruct (site_step w xyzs (mkLocal [] (fst site) (snd site)) s t) as [l|e] eqn:El; cbn [bind]; [|discriminate].
  destruct (site_step_spec xyzs (mkLocal [] (fst site) (snd site)) s t l Hgeo El) as [Hg1 Hg2].
  destruct lp as [last|e]; cbn [bind]; [|discriminate]. cbv zeta.
  destruct (view w c (l_xyz l) cur sys) as [[[[pos el] az]|]|e] eqn:Ev; cbn [bind]; [| |discriminate].
  - destruct (row_step w c f (Some (known g)) l s t sys n (pos, el, az)) as [r|e] eqn:Er; cbn [bind]; [|discriminate].
    intros H. injection H as <- <-. cbn [fst snd]. split; [exact Hg1|]. split; [exact Hg2|].
    assert (Hglo : sys = "R"%char -> exists k, channel w c t n k /\ g = Some (glo_f1 (Fops (w_libm w)) k, glo_f2 (Fops (w_libm w)) k, k)).
    { intros Hr. pose proof (view_some _ _ _ _ _ _ Ev Hr) as Hc. destruct Hsat as [Hs|[-> _]]; [|contradiction].
      pose proof (fresh_sat_spec t sys n f m _ Hf Hs) as Hsp. destruct cur as [p|]; [|contradiction]. exact (proj2 Hsp Hr). }
    assert (Hglo' : sys = "R"%char -> exists k, channel w c t n k /\ Some (known g) = Some (glo_f1 (Fops (w_libm w)) k, glo_f2 (Fops (w_libm w)) k, k)).
    { intros Hr. destruct (Hglo Hr) as [k [Hk ->]]. exists k. split; [exact Hk|reflexivity]. }
    assert (Hrow : forall op, r = Some op -> row_for w c xyzs s op /\ forall sat sd nav u q, op = WRow sat sd nav u q -> sat = s_sat s /\ u = t).
    { intros op ->. destruct (row_step_spec f (Some (known g)) l s t sys n pos el az op Er Hglo') as [sd [q [-> [H1 [H2 [H3 H4]]]]]].
      split; [|intros; now injection H as <- _ _ <- _].
      exists t, sys, n, (l_xyz l), (l_lbh l), pos, el, az, sd, f, q. split; [exact Hid|]. split; [reflexivity|]. split; [exact Hg2|]. split; [exact Hg1|].
      split; [exact H1|]. split; [|split; [exact H2|split; [|split; [exact H3|exact H4]]]].
      - unfold view in Ev. destruct cur as [p|].
        + destruct Hsat as [Hs|[? _]]; [|discriminate]. destruct (fresh_sat_spec t sys n f m _ Hf Hs) as [Hl _]. left.
          destruct (compute_el_az _ _ (l_xyz l) p) as [[el' az']|e] eqn:Ec; [|destruct (existsb _ _); discriminate].
          destruct (fltb el' fzero) eqn:Ez; [discriminate|]. injection Ev as <- <- <-. auto.
        + right. destruct (c_ignore c); cbn [negb] in Ev; [|discriminate]. destruct (ceqb sys "R") eqn:Er'; [discriminate|].
          injection Ev as <- <- <-. split; [reflexivity|]. split; [intros ->; discriminate|]. split; [|auto].
          destruct Hsat as [Hs|[_ [_ Hs]]]; [left|right]; exact (fresh_sat_spec t sys n f m _ Hf Hs).
      - destruct (fresh_nav_spec _ _ _ _ Hf) as [d [Hd [-> _]]]. exists d. auto. }
    split.
    + intros op Hin. apply in_app_or in Hin. destruct Hin as [Hin|Hin].
      * destruct (same_xyz (l_xyz l) last); [contradiction|]. destruct Hin as [<-|[]]. left. eauto.
      * destruct r as [op'|]; [|contradiction]. destruct Hin as [<-|[]]. right. now apply Hrow.
    + intros sat sd nav u q Hin. apply in_app_or in Hin. destruct Hin as [Hin|Hin].
      * destruct (same_xyz (l_xyz l) last); [contradiction|]. destruct Hin as [E|[]]. discriminate.
      * destruct r as [op'|]; [|contradiction]. destruct Hin as [E|[]]. exact (proj2 (Hrow op' eq_refl) _ _ _ _ _ E).
  - intros H. injection H as <- <-. cbn [fst snd]. split; [exact Hg1|]. split; [exact Hg2|]. split.
    + intros op Hin. destruct (same_xyz (l_xyz l) last); [contradiction|]. destruct Hin as [<-|[]]. left. eauto.
    + intros sat sd nav u q Hin. destruct (same_xyz (l_xyz l) last); [contradiction|]. destruct Hin as [E|[]]. discriminate.
Qed.
End Fresh.
