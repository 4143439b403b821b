(** The run: the loops over records and files. *)
From Coq Require Import ZifyBool ZifyNat.
From Verif Require Import Base PyStr PyFloat PyDate PyPath S_Time M_Common M_Header M_Obs2 M_Rec M_Text M_Cfg M_Label M_Names M_Xyz M_Nav M_NmUtils M_Num M_Tec M_Sat M_Main S_Main S_Fresh P_Str P_Date P_Nav P_Out P_Main1 P_Main2 P_Main3.
Open Scope nat_scope.

Section Loops.
Variable (w : world) (c : cfg).

Lemma seen_keys l : seen_rel l (map fst (l_nav l)).
Proof.
  intros x. unfold dict_mem. destruct l as [nav p q]; cbn [l_nav]. induction nav as [|[a v] r IH]; cbn; [reflexivity|].
  change (ceqb x a) with (Ascii.eqb x a). destruct (Ascii.eqb x a); cbn; [reflexivity|exact IH].
Qed.

Lemma fresh_body_spec xyzs lp seen site s t sys n seen' site' ops :
  fresh_body w c xyzs lp seen site s t sys n = Ok (seen', site', ops) ->
  geodetic w (fst site) (snd site) -> identifies s t sys n ->
  geodetic w (fst site') (snd site') /\
  (forall op, In op ops -> (exists p q, op = WPos t p q /\ p = fst site' /\ q = snd site') \/ row_for w c xyzs s op) /\
  (forall sat sd nav u q, In (WRow sat sd nav u q) ops -> sat = s_sat s /\ u = t).
Proof.
  unfold fresh_body. intros H Hg Hi. destruct (fresh_nav w c t sys) as [[f m]|e] eqn:Ef; cbn [bind] in H; [|discriminate].
  assert (Hnil : Ok ((if negb (existsb (Ascii.eqb sys) seen) then sys :: seen else seen), site, []) = Ok (seen', site', ops) ->
    geodetic w (fst site') (snd site') /\
    (forall op, In op ops -> (exists p q, op = WPos t p q /\ p = fst site' /\ q = snd site') \/ row_for w c xyzs s op) /\
    (forall sat sd nav u q, In (WRow sat sd nav u q) ops -> sat = s_sat s /\ u = t)).
  { intros E. injection E as _ <- <-. split; [exact Hg|]. split; intros; contradiction. }
  assert (H' : (do got <- fresh_sat w t sys n m;
     match got with
     | None => Ok ((if negb (existsb (Ascii.eqb sys) seen) then sys :: seen else seen), site, [])
     | Some (cur, glo) => do (site, ops) <- fresh_row w c xyzs lp site s t sys n f cur glo;
        Ok ((if negb (existsb (Ascii.eqb sys) seen) then sys :: seen else seen), site, ops)
     end) = Ok (seen', site', ops) \/
     Ok ((if negb (existsb (Ascii.eqb sys) seen) then sys :: seen else seen), site, []) = Ok (seen', site', ops)).
  { cbv zeta in H. destruct f; [left; exact H|]. destruct (negb (existsb (Ascii.eqb sys) seen)); [right|left]; exact H. }
  clear H. destruct H' as [H|H]; [|exact (Hnil H)].
  destruct (fresh_sat w t sys n m) as [[[cur g]|]|e] eqn:Es; cbn [bind] in H; [|exact (Hnil H)|discriminate].
  destruct (fresh_row w c xyzs lp site s t sys n f cur g) as [[site1 ops1]|e] eqn:Er; cbn [bind] in H; [|discriminate].
  injection H as _ <- <-.
  destruct (fresh_row_spec w c xyzs lp site s t sys n f m cur g site1 ops1 Ef (or_introl Es) Hg Hi Er) as [H1 [_ [H2 H3]]]. auto.
Qed.
Lemma body_spec xyzs lp k l s t sys n k' l' ops day : good w c k -> dt_date t = day -> loc_good w c day k l ->
  geodetic w (l_xyz l) (l_lbh l) -> identifies s t sys n -> record_body w c xyzs lp k l s t sys n = Ok (k', l', ops) ->
  good w c k' /\ loc_good w c day k' l' /\ geodetic w (l_xyz l') (l_lbh l') /\
  (forall op, In op ops -> (exists p q, op = WPos t p q /\ p = l_xyz l' /\ q = l_lbh l') \/ row_for w c xyzs s op) /\
  (forall sat sd nav u q, In (WRow sat sd nav u q) ops -> sat = s_sat s /\ u = t).
Proof.
  intros G Hd Gl Hg Hi Hb.
  destruct (body_rel w c xyzs lp k l s t sys n _ day G Hd Gl (seen_keys l)) as [Hok _]. destruct (Hok _ _ _ Hb) as [G' [Gl' [seen' [_ Hf]]]].
  split; [exact G'|]. split; [exact Gl'|]. destruct Hf as [Hf|[f [m [Hf1 [Hf2 Hf3]]]]].
  - exact (fresh_body_spec xyzs lp _ (l_xyz l, l_lbh l) s t sys n _ (l_xyz l', l_lbh l') _ Hf Hg Hi).
  - destruct (fresh_row_spec w c xyzs lp (l_xyz l, l_lbh l) s t sys n f m None None (l_xyz l', l_lbh l') ops Hf1 (or_intror (conj eq_refl (conj eq_refl Hf2))) Hg Hi Hf3) as [H1 [_ [H2 H3]]].
    auto.
Qed.

(** ** what the loop over records keeps and writes *)
Lemma loop_spec b xyzs si steps : forall last k l st k' st' os e,
  good w c k -> (forall day, b_date b = Some day -> loc_good w c day k l) -> geodetic w (l_xyz l) (l_lbh l) ->
  record_loop w c b xyzs si last k l st steps = (k', st', os, e) ->
  (e = None -> good w c k') /\
  forall op, In op os -> exists s, In s steps /\ usable (b_date b) s /\
    ((exists t p q, op = WPos t p q /\ s_epoch s = Some t /\ geodetic w p q) \/ row_for w c xyzs s op).
Proof.
  induction steps as [|s r IH]; intros last k l st k' st' os e G Gl Hg; cbn [record_loop].
  { intros H. injection H as <- _ <- _. split; [auto|]. intros op []. }
  destruct (record_ident s) as [[[t sys] n]|e0] eqn:Ei.
  2:{ intros H. injection H as _ _ <- <-. split; [discriminate|]. intros op []. }
  apply ident_iff in Ei.
  destruct (accept (b_date b) si last t sys) as [last'|] eqn:Ea.
  2:{ intros H. destruct (IH _ _ _ _ _ _ _ _ G Gl Hg H) as [H1 H2]. split; [exact H1|]. intros op Hop. destruct (H2 op Hop) as [s' [Hs' Hr]].
      exists s'. split; [now right|exact Hr]. }
  pose proof (accept_usable _ _ _ _ _ _ _ _ Ei Ea) as Hu. apply accept_some in Ea. destruct Ea as [_ [Hday _]].
  destruct (record_body w c xyzs (latest (w_xyz (snd st))) k l s t sys n) as [[[k1 l1] ops]|e0] eqn:Eb.
  2:{ intros H. injection H as _ _ <- <-. split; [discriminate|]. intros op []. }
  destruct (body_spec xyzs _ k l s t sys n k1 l1 ops (dt_date t) G eq_refl (Gl _ Hday) Hg Ei Eb) as [G1 [Gl1 [Hg1 [Hops _]]]].
  destruct (do_ops (out_of w c) st ops) as [st1|e0].
  2:{ intros H. injection H as _ _ <- <-. split; [discriminate|]. intros op []. }
  destruct (record_loop w c b xyzs si last' k1 l1 st1 r) as [[[k2 st2] os2] e2] eqn:El.
  intros H. injection H as <- _ <- <-.
  assert (Gl1' : forall day, b_date b = Some day -> loc_good w c day k1 l1). { intros day Hd. rewrite Hday in Hd. injection Hd as <-. exact Gl1. }
  destruct (IH _ _ _ _ _ _ _ _ G1 Gl1' Hg1 El) as [H1 H2]. split; [exact H1|].
  intros op Hop. apply in_app_or in Hop. destruct Hop as [Hop|Hop].
  - exists s. split; [now left|]. split; [exact Hu|]. destruct (Hops op Hop) as [[p [q [-> [-> ->]]]]|Hr]; [left|right; exact Hr].
    exists t, (l_xyz l1), (l_lbh l1). split; [reflexivity|]. split; [exact (proj1 Ei)|exact Hg1].
  - destruct (H2 op Hop) as [s' [Hs' Hr]]. exists s'. split; [now right|exact Hr].
Qed.

(** ** the program without dictionaries does the same *)
Lemma loop_fresh b xyzs si steps : forall last k l st seen,
  good w c k -> (forall day, b_date b = Some day -> loc_good w c day k l) -> seen_rel l seen ->
  (forall s t sys n, In s steps -> identifies s t sys n -> In sys systems -> ~ incomputable w c t sys n) ->
  exists k', (snd (record_loop w c b xyzs si last k l st steps) = None -> good w c k') /\
    fst (fst (fst (record_loop w c b xyzs si last k l st steps))) = k' /\
    let '(k0, st', os, e) := record_loop w c b xyzs si last k l st steps in
    fresh_loop w c b xyzs si last seen (l_xyz l, l_lbh l) st steps = (st', os, e).
Proof.
  induction steps as [|s r IH]; intros last k l st seen G Gl Hs Hc; cbn [record_loop fresh_loop].
  { exists k. auto. }
  destruct (record_ident s) as [[[t sys] n]|e0] eqn:Ei.
  2:{ exists k. split; [discriminate|]. auto. }
  assert (Hc' : forall s' t sys n, In s' r -> identifies s' t sys n -> In sys systems -> ~ incomputable w c t sys n).
  { intros s' t' sys' n' Hin. apply Hc. now right. }
  destruct (accept (b_date b) si last t sys) as [last'|] eqn:Ea; [|exact (IH _ _ _ _ _ G Gl Hs Hc')].
  apply ident_iff in Ei. apply accept_some in Ea. destruct Ea as [Hsys [Hday _]].
  assert (Hno : forall f m, fresh_nav w c t sys = Ok (f, m) -> fresh_sat w t sys n m = Ok None -> False).
  { intros f m H1 H2. exact (Hc s t sys n (or_introl eq_refl) Ei Hsys (fresh_sat_spec w c t sys n f m None H1 H2)). }
  destruct (body_rel w c xyzs (latest (w_xyz (snd st))) k l s t sys n seen (dt_date t) G eq_refl (Gl _ Hday) Hs) as [Hok Herr].
  destruct (record_body w c xyzs (latest (w_xyz (snd st))) k l s t sys n) as [[[k1 l1] ops]|e0] eqn:Eb.
  2:{ destruct (Herr e0 eq_refl) as [->|[f [m [H1 [H2 _]]]]]; [|destruct (Hno f m H1 H2)]. exists k. split; [discriminate|]. auto. }
  destruct (Hok _ _ _ eq_refl) as [G1 [Gl1 [seen' [Hs1 [->|[f [m [H1 [H2 _]]]]]]]]]; [|destruct (Hno f m H1 H2)].
  destruct (do_ops (out_of w c) st ops) as [st1|e0].
  2:{ exists k1. split; [discriminate|]. auto. }
  assert (Gl1' : forall day, b_date b = Some day -> loc_good w c day k1 l1). { intros day Hd. rewrite Hday in Hd. injection Hd as <-. exact Gl1. }
  destruct (IH last' k1 l1 st1 seen' G1 Gl1' Hs1 Hc') as [k' [H1 [H2 H3]]].
  destruct (record_loop w c b xyzs si last' k1 l1 st1 r) as [[[k2 st2] os2] e2]. cbn [fst snd] in *. rewrite H3. exists k'. auto.
Qed.

(** ** files *)
Lemma xyz_data_spec name xyzs : xyz_data w c name = Ok xyzs -> coordinates w c name xyzs.
Proof.
  unfold xyz_data. destruct (find_files (w_ls w) (c_obsdir c) RE_XYZ) as [|x r] eqn:El; [intros H; injection H as <-; now apply co_nowhere|].
  destruct (find_xyz_file (w_there w) name) as [file|] eqn:Ef; [|intros H; injection H as <-; now apply co_none].
  intros H. apply (co_read w c name file); [rewrite El; discriminate|exact Ef|exact H].
Qed.
Lemma file_start_spec b xyzs si l iv pos : file_start w c b = Ok (Some (xyzs, si, l, iv, pos)) ->
  l_nav l = [] /\ geodetic w (l_xyz l) (l_lbh l) /\ l_xyz l = h_xyz (b_hdr b) /\ coordinates w c (b_name b) xyzs /\
  sampling_of c b = Ok si /\ h_interval (b_hdr b) = Some iv /\
  exists t0 ts, h_tofo (b_hdr b) = Some (t0, ts) /\ pos = WPos t0 (l_xyz l) (l_lbh l).
Proof.
  unfold file_start. destruct (h_ver (b_hdr b)) as [[[rv ft] ss]|]; cbn [of_option bind]; [|discriminate].
  destruct (negb (supports ss || ceqb ss "M")); [discriminate|].
  destruct (h_tofo (b_hdr b)) as [[t0 ts]|]; cbn [of_option bind]; [|discriminate].
  destruct (negb (seqb ts (lit "GPS"))); [discriminate|].
  destruct (lbh_of w (h_xyz (b_hdr b))) as [q|] eqn:El; cbn [bind]; [|discriminate].
  destruct (xyz_data w c (b_name b)) as [x|] eqn:Ex; cbn [bind]; [|discriminate].
  unfold interval_of. destruct (h_interval (b_hdr b)) as [i|] eqn:Ei; cbn [of_option bind]; [|discriminate].
  destruct (sampling_of c b) as [s|]; cbn [bind]; [|discriminate].
  intros H. injection H as <- <- <- <- <-. cbn [l_nav l_xyz l_lbh]. split; [reflexivity|]. split; [now apply lbh_geodetic|].
  split; [reflexivity|]. split; [now apply xyz_data_spec|]. repeat (split; [reflexivity|]). exists t0, ts. auto.
Qed.
Lemma loc_nil day k l : l_nav l = [] -> loc_good w c day k l.
Proof. intros H sys v Hv. rewrite H in Hv. discriminate. Qed.

Lemma file_step_spec k f name k' f' os e : good w c k -> file_step w c k f name = (k', f', os, e) ->
  (e = None -> good w c k') /\
  forall op, In op os -> exists b xyzs, open_obs w name = Ok b /\ coordinates w c (b_name b) xyzs /\
    ((exists t p q ts, op = WPos t p q /\ h_tofo (b_hdr b) = Some (t, ts) /\ p = h_xyz (b_hdr b) /\ geodetic w p q) \/
     exists s, In s (b_steps b) /\ usable (b_date b) s /\
       ((exists t p q, op = WPos t p q /\ s_epoch s = Some t /\ geodetic w p q) \/ row_for w c xyzs s op)).
Proof.
  intros G. unfold file_step.
  assert (Hnil : forall kx fx ex, (kx, fx, @nil wop, ex) = (k', f', os, e) -> (kx = k) -> (e = None -> good w c k') /\
    forall op, In op os -> exists b xyzs, open_obs w name = Ok b /\ coordinates w c (b_name b) xyzs /\
    ((exists t p q ts, op = WPos t p q /\ h_tofo (b_hdr b) = Some (t, ts) /\ p = h_xyz (b_hdr b) /\ geodetic w p q) \/
     exists s, In s (b_steps b) /\ usable (b_date b) s /\
       ((exists t p q, op = WPos t p q /\ s_epoch s = Some t /\ geodetic w p q) \/ row_for w c xyzs s op))).
  { intros kx fx ex H ->. injection H as <- _ <- _. split; [auto|]. intros op []. }
  destruct (open_obs w name) as [b|e0]; [|destruct e0; intros H; exact (Hnil _ _ _ H eq_refl)].
  destruct (file_start w c b) as [[[[[[xyzs si] l] iv] pos]|]|e0] eqn:Es; [|intros H; exact (Hnil _ _ _ H eq_refl)|intros H; exact (Hnil _ _ _ H eq_refl)].
  destruct (file_start_spec _ _ _ _ _ _ Es) as [Hn [Hg [Hx [Hd [_ [_ [t0 [ts [Ht ->]]]]]]]]].
  destruct (do_op (out_of w c) (f, new_writer name iv) _) as [st|e0]; [|intros H; exact (Hnil _ _ _ H eq_refl)].
  destruct (record_loop w c b xyzs si None k l st (b_steps b)) as [[[k1 st1] os1] e1] eqn:El.
  intros H. injection H as <- <- <- <-.
  destruct (loop_spec b xyzs si (b_steps b) None k l st _ _ _ _ G (fun day _ => loc_nil day k l Hn) Hg El) as [H1 H2].
  split; [exact H1|]. intros op [<-|Hop]; exists b, xyzs; (split; [reflexivity|]; split; [exact Hd|]).
  - left. exists t0, (l_xyz l), (l_lbh l), ts. auto.
  - right. destruct (H2 op Hop) as [s [Hs1 [Hs2 Hs3]]]. exists s. auto.
Qed.
Lemma files_spec names : forall k f name ops, good w c k -> In (name, ops) (snd (fst (files_loop w c k f names))) ->
  exists k1 f1 k2 f2 e, good w c k1 /\ file_step w c k1 f1 name = (k2, f2, ops, e).
Proof.
  induction names as [|nm r IH]; intros k f name ops G; cbn [files_loop]; [intros []|].
  destruct (file_step w c k f nm) as [[[k1 f1] os] e] eqn:Ef. destruct e as [e|].
  - cbn [fst snd In]. intros [E|[]]. injection E as <- <-. exists k, f, k1, f1, (Some e). auto.
  - destruct (file_step_spec k f nm k1 f1 os None G Ef) as [G1 _]. specialize (IH k1 f1 name ops (G1 eq_refl)).
    destruct (files_loop w c k1 f1 r) as [[f2 log] e2]. cbn [fst snd In] in *. intros [E|Hin]; [|exact (IH Hin)].
    injection E as <- <-. exists k, f, k1, f1, None. auto.
Qed.
Lemma written_file f name ops : written w c f name ops ->
  exists k1 f1 k2 f2 e, good w c k1 /\ file_step w c k1 f1 name = (k2, f2, ops, e).
Proof.
  unfold written, main. destruct (sort_str _) as [|nm r]; [intros []|]. apply files_spec. apply good_none.
Qed.

Lemma file_fresh k f name : good w c k -> (forall b s t sys n, open_obs w name = Ok b -> In s (b_steps b) -> identifies s t sys n ->
    In sys systems -> ~ incomputable w c t sys n) ->
  let '(k', f', os, e) := file_step w c k f name in (e = None -> good w c k') /\ fresh_file w c f name = (f', os, e).
Proof.
  intros G Hc. unfold file_step, fresh_file. destruct (open_obs w name) as [b|e0]; [|destruct e0; auto].
  destruct (file_start w c b) as [[[[[[xyzs si] l] iv] pos]|]|e0] eqn:Es; [|auto|auto].
  destruct (file_start_spec _ _ _ _ _ _ Es) as [Hn [Hg _]].
  destruct (do_op (out_of w c) (f, new_writer name iv) pos) as [st|e0]; [|auto].
  assert (Hs : seen_rel l []). { intros x. unfold dict_mem. now rewrite Hn. }
  destruct (loop_fresh b xyzs si (b_steps b) None k l st [] G (fun day _ => loc_nil day k l Hn) Hs) as [k' [H1 [H2 H3]]].
  { intros s t sys n Hin Hi Hy. exact (Hc b s t sys n eq_refl Hin Hi Hy). }
  destruct (record_loop w c b xyzs si None k l st (b_steps b)) as [[[k1 st1] os1] e1]. cbn [fst snd] in *. subst k'. rewrite H3. auto.
Qed.
Lemma files_fresh names : forall k f, good w c k -> always_computable w c -> files_loop w c k f names = fresh_files w c f names.
Proof.
  induction names as [|nm r IH]; intros k f G Hc; cbn [files_loop fresh_files]; [reflexivity|].
  pose proof (file_fresh k f nm G (fun b s t sys n Ho => Hc nm b s t sys n Ho)) as H.
  destruct (file_step w c k f nm) as [[[k1 f1] os] e]. destruct H as [H1 ->]. destruct e as [e|]; [reflexivity|].
  now rewrite (IH k1 f1 (H1 eq_refl) Hc).
Qed.
Lemma main_fresh f : always_computable w c -> main w c f = fresh_main w c f.
Proof. intros Hc. unfold main, fresh_main. destruct (sort_str _); [reflexivity|]. apply files_fresh; [apply good_none|exact Hc]. Qed.
End Loops.
