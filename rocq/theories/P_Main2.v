(** The run: one record, compared with the program without dictionaries. *)
From Coq Require Import ZifyBool ZifyNat.
From Verif Require Import Base PyStr PyFloat PyDate PyPath S_Time M_Common M_Header M_Obs2 M_Rec M_Text M_Cfg M_Label M_Names M_Xyz M_Nav M_NmUtils M_Num M_Tec M_Sat M_Main S_Main S_Fresh P_Str P_Date P_Nav P_Out P_Main1.
Open Scope nat_scope.

Lemma site_step_nav w xyzs l s t :
  site_step w xyzs l s t = do l1 <- site_step w xyzs (mkLocal [] (l_xyz l) (l_lbh l)) s t; Ok (mkLocal (l_nav l) (l_xyz l1) (l_lbh l1)).
Proof.
  unfold site_step. destruct (dict_get dt_eqb t xyzs) as [p|].
  - destruct (lbh_of w p); reflexivity.
  - cbn [l_xyz]. destruct (same_xyz (l_xyz l) (s_xyz s)); [destruct l; reflexivity|]. destruct (lbh_of w (s_xyz s)); reflexivity.
Qed.
Lemma row_step_local w c nav g l l' s t sys n v : l_xyz l = l_xyz l' -> l_lbh l = l_lbh l' ->
  row_step w c nav g l s t sys n v = row_step w c nav g l' s t sys n v.
Proof. intros H1 H2. unfold row_step. rewrite H1, H2. reflexivity. Qed.
Lemma row_step_glo w c nav g g' l s t sys n v : sys <> "R"%char -> row_step w c nav g l s t sys n v = row_step w c nav g' l s t sys n v.
Proof.
  intros H. unfold row_step. destruct (ceqb sys "R") eqn:E; [apply ceqb_eq in E; contradiction|reflexivity].
Qed.
Lemma view_some w c site cur v sys : view w c site cur sys = Ok (Some v) -> sys = "R"%char -> cur <> None.
Proof. unfold view. intros H -> ->. destruct (negb (c_ignore c)); cbn in H; discriminate. Qed.

Section Body.
Variable (w : world) (c : cfg).

Definition seen_rel (l : local) (seen : list ascii) : Prop := forall x, dict_mem ceqb x (l_nav l) = existsb (Ascii.eqb x) seen.

(** the part after the satellite's position is known *)
Lemma tail_rel xyzs lp (k : caches) l s t sys n cur f files g :
  dict_get sat_key_eqb (sys, n, dt_date t, dt_time t) (k_xyz k) = Some cur ->
  dict_get date_eqb (dt_date t) (k_nav k) = Some files -> dict_get ceqb sys files = Some f ->
  (sys = "R"%char -> cur <> None -> dict_get glo_key_eqb (n, dt_date t, dt_time t) (k_glo k) = Some (known g)) ->
  (do l <- site_step w xyzs l s t;
   do last <- lp;
   let pos := if same_xyz (l_xyz l) last then [] else [WPos t (l_xyz l) (l_lbh l)] in
   do cur <- of_option KeyError (dict_get sat_key_eqb (sys, n, dt_date t, dt_time t) (k_xyz k));
   do v <- view w c (l_xyz l) cur sys;
   match v with
   | None => Ok (k, l, pos)
   | Some v =>
     do files <- of_option KeyError (dict_get date_eqb (dt_date t) (k_nav k));
     do nav <- of_option KeyError (dict_get ceqb sys files);
     do r <- row_step w c nav (dict_get glo_key_eqb (n, dt_date t, dt_time t) (k_glo k)) l s t sys n v;
     Ok (k, l, pos ++ match r with Some op => [op] | None => [] end)
   end) =
  (do (site, ops) <- fresh_row w c xyzs lp (l_xyz l, l_lbh l) s t sys n f cur g;
   Ok (k, mkLocal (l_nav l) (fst site) (snd site), ops)).
Proof.
  intros Hc Hf1 Hf2 Hg. unfold fresh_row. rewrite site_step_nav. cbn [fst snd].
  destruct (site_step w xyzs (mkLocal [] (l_xyz l) (l_lbh l)) s t) as [l1|e]; cbn [bind]; [|reflexivity].
  destruct lp as [last|e]; cbn [bind]; [|reflexivity]. cbv zeta. cbn [l_xyz l_lbh]. rewrite Hc. cbn [of_option bind].
  destruct (view w c (l_xyz l1) cur sys) as [[v|]|e] eqn:Ev; cbn [bind]; [|reflexivity|reflexivity].
  rewrite Hf1. cbn [of_option bind]. rewrite Hf2. cbn [of_option bind].
  rewrite (row_step_local w c f _ (mkLocal (l_nav l) (l_xyz l1) (l_lbh l1)) l1) by reflexivity.
  assert (He : row_step w c f (dict_get glo_key_eqb (n, dt_date t, dt_time t) (k_glo k)) l1 s t sys n v = row_step w c f (Some (known g)) l1 s t sys n v).
  { destruct (ceqb sys "R") eqn:Er.
    - apply ceqb_eq in Er. now rewrite (Hg Er (view_some _ _ _ _ _ _ Ev Er)).
    - apply row_step_glo. intros ->. now rewrite ceqb_refl in Er. }
  rewrite He. destruct (row_step w c f (Some (known g)) l1 s t sys n v); reflexivity.
Qed.

(** the frequencies come with the position of a GLONASS satellite *)
Lemma fresh_sat_glo t sys n m cur g : fresh_sat w t sys n m = Ok (Some (cur, g)) -> sys = "R"%char -> cur <> None -> g = Some (known g).
Proof.
  unfold fresh_sat. intros H -> Hc. destruct (select_navigation_message _ _ _ _ _) as [[[dt eph]|]|e]; cbn [bind] in H; [| |discriminate].
  2:{ injection H as <- <-. contradiction. }
  destruct (motion w "R" eph dt) as [p|e]; [|destruct e; discriminate].
  change (Ascii.eqb "R" "R") with true in H. cbv iota in H.
  destruct (of_option IndexError (nth_error eph 7)) as [k|e]; cbn [bind] in H; [|discriminate].
  destruct (of_option IndexError (nth_error eph 3)) as [h|e]; cbn [bind] in H; [|discriminate].
  apply oks in H. destruct H as [_ <-]. reflexivity.
Qed.

Lemma body_rel xyzs lp k l s t sys n seen day : good w c k -> dt_date t = day -> loc_good w c day k l -> seen_rel l seen ->
  (forall k' l' ops, record_body w c xyzs lp k l s t sys n = Ok (k', l', ops) ->
     good w c k' /\ loc_good w c day k' l' /\
     exists seen', seen_rel l' seen' /\
     (fresh_body w c xyzs lp seen (l_xyz l, l_lbh l) s t sys n = Ok (seen', (l_xyz l', l_lbh l'), ops) \/
      exists f m, fresh_nav w c t sys = Ok (f, m) /\ fresh_sat w t sys n m = Ok None /\
        fresh_row w c xyzs lp (l_xyz l, l_lbh l) s t sys n f None None = Ok ((l_xyz l', l_lbh l'), ops))) /\
  (forall e, record_body w c xyzs lp k l s t sys n = Err e ->
     fresh_body w c xyzs lp seen (l_xyz l, l_lbh l) s t sys n = Err e \/
     exists f m, fresh_nav w c t sys = Ok (f, m) /\ fresh_sat w t sys n m = Ok None /\
        fresh_row w c xyzs lp (l_xyz l, l_lbh l) s t sys n f None None = Err e).
Proof.
  intros G Hday Gl Hs. subst day. unfold record_body.
  destruct (nav_step w c k l t sys) as [[[k1 l1] go]|e] eqn:En; cbn [bind].
  2:{ split; [discriminate|]. intros e' [= <-]. left. unfold fresh_body. now rewrite (nav_step_err w c k l t sys e Gl En). }
  destruct (nav_step_ok w c k l t sys k1 l1 go G Gl En) as [G1 [Gl1 [Hx [Hy [Hmem [f [m [files [Hn [Hm [Hf1 [Hf2 Hgo]]]]]]]]]]]].
  set (first := negb (existsb (Ascii.eqb sys) seen)).
  assert (Hfirst : dict_mem ceqb sys (l_nav l) = negb first). { unfold first. rewrite Hs. now rewrite negb_involutive. }
  set (seen' := if first then sys :: seen else seen).
  assert (Hs' : seen_rel l1 seen').
  { intros x. rewrite Hmem, Hs. unfold seen'. destruct first eqn:Ef; [reflexivity|]. unfold first in Ef. apply negb_false_iff in Ef.
    destruct (ceqb x sys) eqn:E; [|reflexivity]. apply ceqb_eq in E. subst x. rewrite Ef. reflexivity. }
  assert (Hfb : fresh_body w c xyzs lp seen (l_xyz l, l_lbh l) s t sys n =
    match f, first with
    | None, true => Ok (seen', (l_xyz l, l_lbh l), [])
    | _, _ => do got <- fresh_sat w t sys n m;
      match got with
      | None => Ok (seen', (l_xyz l, l_lbh l), [])
      | Some (cur, glo) => do (site, ops) <- fresh_row w c xyzs lp (l_xyz l, l_lbh l) s t sys n f cur glo; Ok (seen', site, ops)
      end
    end). { unfold fresh_body. rewrite Hn. reflexivity. }
  destruct go; cbn [negb].
  2:{ destruct (proj1 Hgo eq_refl) as [-> Hf]. rewrite Hfirst in Hf. apply negb_false_iff in Hf. split; [|discriminate].
      intros k' l' ops [= <- <- <-]. split; [exact G1|]. split; [exact Gl1|]. exists seen'. split; [exact Hs'|]. left. rewrite Hfb, Hf, Hx, Hy. reflexivity. }
  assert (Hfb' : fresh_body w c xyzs lp seen (l_xyz l, l_lbh l) s t sys n =
    do got <- fresh_sat w t sys n m;
      match got with
      | None => Ok (seen', (l_xyz l, l_lbh l), [])
      | Some (cur, glo) => do (site, ops) <- fresh_row w c xyzs lp (l_xyz l, l_lbh l) s t sys n f cur glo; Ok (seen', site, ops)
      end).
  { rewrite Hfb. destruct f; [reflexivity|]. destruct first eqn:Ef; [|reflexivity]. exfalso.
    assert (true = false); [|discriminate]. apply Hgo. split; [reflexivity|]. rewrite Hfirst. reflexivity. }
  clear Hfb. destruct (sat_step w k1 l1 t sys n) as [[k2 go]|e] eqn:Es; cbn [bind].
  2:{ split; [discriminate|]. intros e' [= <-]. left. rewrite Hfb', (sat_step_err w k1 l1 t sys n m e Hm Es). reflexivity. }
  destruct (sat_step_ok w c k1 l1 t sys n m f k2 go G1 Hn Hm Es) as [G2 [Hk [Hgf Hgt]]].
  assert (Gl2 : loc_good w c (dt_date t) k2 l1). { intros s' v Hv u Hu. rewrite Hk. exact (Gl1 s' v Hv u Hu). }
  destruct go; cbn [negb].
  2:{ split; [|discriminate]. intros k' l' ops [= <- <- <-]. split; [exact G2|]. split; [exact Gl2|]. exists seen'. split; [exact Hs'|]. left.
      rewrite Hfb', (Hgf eq_refl). cbn [bind]. now rewrite Hx, Hy. }
  destruct (Hgt eq_refl) as [cur [Hc Hcase]]. clear Hgf Hgt.
  assert (exists g, ((fresh_sat w t sys n m = Ok (Some (cur, g))) \/ (cur = None /\ g = None /\ fresh_sat w t sys n m = Ok None)) /\
     (sys = "R"%char -> cur <> None -> dict_get glo_key_eqb (n, dt_date t, dt_time t) (k_glo k2) = Some (known g))) as [g [Hg1 Hg2]].
  { destruct Hcase as [[g [H1 H2]]|[H1 H2]].
    { exists g. split; [auto|]. intros Hr Hc1. rewrite (H2 Hr Hc1). exact (fresh_sat_glo t sys n m cur g H1 Hr Hc1). }
    exists None. split; [auto|]. intros _ ?. contradiction. }
  rewrite <- Hk in Hf1. pose proof (tail_rel xyzs lp k2 l1 s t sys n cur f files g Hc Hf1 Hf2 Hg2) as Ht.
  match type of Ht with ?L = ?R => assert (Hall : forall X, X = R ->
    (forall k' l' ops, X = Ok (k', l', ops) ->
     good w c k' /\ loc_good w c (dt_date t) k' l' /\
     exists seen', seen_rel l' seen' /\
     (fresh_body w c xyzs lp seen (l_xyz l, l_lbh l) s t sys n = Ok (seen', (l_xyz l', l_lbh l'), ops) \/
      exists f m, fresh_nav w c t sys = Ok (f, m) /\ fresh_sat w t sys n m = Ok None /\
        fresh_row w c xyzs lp (l_xyz l, l_lbh l) s t sys n f None None = Ok ((l_xyz l', l_lbh l'), ops))) /\
    (forall e, X = Err e ->
     fresh_body w c xyzs lp seen (l_xyz l, l_lbh l) s t sys n = Err e \/
     exists f m, fresh_nav w c t sys = Ok (f, m) /\ fresh_sat w t sys n m = Ok None /\
        fresh_row w c xyzs lp (l_xyz l, l_lbh l) s t sys n f None None = Err e)) end; [|exact (Hall _ Ht)].
  clear Ht. intros X ->. rewrite Hx, Hy.
  destruct (fresh_row w c xyzs lp (l_xyz l, l_lbh l) s t sys n f cur g) as [[site ops]|e] eqn:Er; cbn [bind].
  - split; [|discriminate]. intros k' l' ops' [= <- <- <-]. split; [exact G2|]. split.
    { intros s' v Hv u Hu. cbn [l_nav] in Hv. exact (Gl2 s' v Hv u Hu). }
    exists seen'. split; [exact Hs'|]. cbn [l_xyz l_lbh]. destruct site as [x y]; cbn [fst snd].
    destruct Hg1 as [Hg1|[-> [-> Hg1]]].
    + left. rewrite Hfb', Hg1. cbn [bind]. rewrite Er. reflexivity.
    + right. exists f, m. auto.
  - split; [discriminate|]. intros e' [= <-]. destruct Hg1 as [Hg1|[-> [-> Hg1]]].
    + left. rewrite Hfb', Hg1. cbn [bind]. rewrite Er. reflexivity.
    + right. exists f, m. auto.
Qed.
End Body.
