(** Runs over observation files from which the records of some systems are taken out. *)
From Coq Require Import ZifyBool ZifyNat Sorting.Permutation.
From Verif Require Import Base PyStr PyFloat PyDate PyPath PyRegex S_Text S_Time S_Open2 M_Common M_Header M_Obs2 M_Obs3 M_Rec M_Text M_Cfg M_Label M_Names M_Xyz M_Nav M_NmUtils M_Num M_Tec M_Sat M_Main M_Run S_Names S_Xyz S_Label S_Main S_Fresh S_Run S_Alone S_Out S_Systems P_Str P_Date P_Label P_Out P_Main1 P_Main2 P_Main3 P_Main4 P_Main5 P_Main6 P_Main7 P_Main8 P_Main9 P_Main10 P_Main12 P_Set1 P_Alone.
Open Scope nat_scope.

(** ** equal numbers *)
Lemma feqb_same a b : feqb a b = true -> a <> S754_zero true -> b <> S754_zero true -> a = b.
Proof.
  unfold feqb, SFeqb, SFcompare. destruct a as [[]|[]| |[] m e], b as [[]|[]| |[] n k]; try discriminate; try reflexivity;
    try (intros _ H1 H2; exfalso; (exact (H1 eq_refl) || exact (H2 eq_refl)));
    destruct (Z.compare_spec e k); try discriminate; destruct (Pos.compare_cont Eq m n) eqn:E; try discriminate;
    apply Pos.compare_eq in E; intros _ _ _; congruence.
Qed.
Lemma same_num_eq a b : same_num a b = true -> a <> S754_zero true -> b <> S754_zero true -> a = b.
Proof.
  unfold same_num. intros H H1 H2. apply orb_prop in H. destruct H as [H|H]; [exact (feqb_same a b H H1 H2)|]. destruct a, b; try discriminate. reflexivity.
Qed.
Lemma same_xyz_eq p q : same_xyz p q = true -> no_minus_zero p -> no_minus_zero q -> p = q.
Proof.
  destruct p as [[x y] z], q as [[u v] t]. cbn. intros H H1 H2. apply andb_prop in H. destruct H as [H H3]. apply andb_prop in H. destruct H as [H H4].
  rewrite (same_num_eq x u), (same_num_eq y v), (same_num_eq z t); auto.
Qed.

Section Sys.
Variables (keep : ascii -> bool) (w : world) (c : cfg) (o : str -> res (list str)).
Let w' := with_contents w o.

(** ** the writer *)
Definition wfine (iv : pynum) (wr : writer) : Prop := w_interval wr = iv /\ w_xyz wr <> [] /\ w_lbh wr <> [].
Lemma op_fine k iv op f wr st : do_op k (f, wr) op = Ok st -> wfine iv wr -> wfine iv (snd st) /\ rows_ok k iv [op].
Proof.
  destruct op as [t p l|sat sd nav t q]; cbn [do_op].
  - intros E [H1 _]. injection E as <-. split; [|intros s sd nav u q [H|[]]; discriminate]. split; [exact H1|]. split; apply dict_set_nonnil.
  - set (w1 := match dict_get seqb sat (w_sats wr) with Some _ => wr | None => _ end). intros E H.
    assert (H1 : wfine iv w1) by (unfold w1; destruct (dict_get seqb sat (w_sats wr)); exact H). clearbody w1. clear H.
    destruct H1 as [H1 [H2 H3]]. revert E. unfold write_data. cbv zeta. cbn [w_sats w_obs w_interval w_xyz w_lbh w_path].
    destruct (dict_get seqb sat (w_sats w1)) as [s|]; cbn [of_option bind]; [|discriminate].
    destruct (s_fout s) as [out|]; cbn [bind].
    + cbn [w_interval]. destruct (row_text (oc_format k) (oc_strftime k) (w_interval w1) t q) as [row|] eqn:Er; cbn [bind]; [|discriminate]. intros E. injection E as <-.
      split; [split; [exact H1|split; assumption]|]. intros s' sd' nav' t' q' [E|[]]. injection E as <- <- <- <- <-. exists row. now rewrite <- H1.
    + destruct (header_text _ _ _); cbn [bind]; [|discriminate]. cbn [w_interval].
      destruct (row_text (oc_format k) (oc_strftime k) (w_interval w1) t q) as [row|] eqn:Er; cbn [bind]; [|discriminate]. intros E. injection E as <-.
      split; [split; [exact H1|split; assumption]|]. intros s' sd' nav' t' q' [E|[]]. injection E as <- <- <- <- <-. exists row. now rewrite <- H1.
Qed.
Lemma ops_fine k iv os : forall st st', do_ops k st os = Ok st' -> wfine iv (snd st) -> wfine iv (snd st') /\ rows_ok k iv os.
Proof.
  induction os as [|op os IH]; intros [f wr] st'; cbn [do_ops].
  - intros E H. injection E as <-. split; [exact H|]. intros s sd nav t q [].
  - destruct (do_op k (f, wr) op) as [st1|] eqn:E1; cbn [bind]; [|discriminate]. intros E H. destruct (op_fine _ _ _ _ _ _ E1 H) as [H1 H2].
    destruct (IH _ _ E H1) as [H3 H4]. split; [exact H3|]. intros s sd nav t q [->|Hin]; [exact (H2 _ _ _ _ _ (or_introl eq_refl))|exact (H4 _ _ _ _ _ Hin)].
Qed.
Lemma ops_go k iv os st : wfine iv (snd st) -> rows_ok k iv os -> exists st', do_ops k st os = Ok st' /\ wfine iv (snd st').
Proof.
  destruct st as [f wr]. intros [H1 [H2 H3]] Hr. destruct (do_ops_total k iv os f wr H1 H2 H3 Hr) as [st' E]. exists st'. split; [exact E|].
  exact (proj1 (ops_fine k iv os _ _ E (conj H1 (conj H2 H3)))).
Qed.

(** ** the site *)
Definition plain_site (p : xyz * xyz) : Prop := lbh_of w (fst p) = Ok (snd p) /\ no_minus_zero (fst p).
Lemma site_det xyzs p p' s t l : plain_site p -> plain_site p' -> no_minus_zero (s_xyz s) -> (forall u q, entry xyzs u q -> no_minus_zero q) ->
  site_step w xyzs (mkLocal [] (fst p) (snd p)) s t = Ok l ->
  site_step w xyzs (mkLocal [] (fst p') (snd p')) s t = Ok l /\ plain_site (l_xyz l, l_lbh l).
Proof.
  intros [H1 H2] [H3 H4] Hs He. unfold site_step. cbn [l_nav l_xyz l_lbh]. destruct (dict_get dt_eqb t xyzs) as [q|] eqn:Eq.
  - destruct (lbh_of w q) as [g|] eqn:Eg; cbn [bind]; [|discriminate]. intros E. injection E as <-. split; [reflexivity|]. split; [exact Eg|exact (He _ _ Eq)].
  - destruct (same_xyz (fst p) (s_xyz s)) eqn:E1.
    + intros E. injection E as <-. apply same_xyz_eq in E1; [|assumption|assumption]. cbn [l_xyz l_lbh]. split; [|split; assumption].
      destruct (same_xyz (fst p') (s_xyz s)) eqn:E2.
      * apply same_xyz_eq in E2; [|assumption|assumption]. assert (Ep : fst p' = fst p) by congruence. rewrite Ep in H3 |- *. rewrite H1 in H3. injection H3 as ->. reflexivity.
      * rewrite <- E1, H1. reflexivity.
    + destruct (lbh_of w (s_xyz s)) as [g|] eqn:Eg; cbn [bind]; [|discriminate]. intros E. injection E as <-. cbn [l_xyz l_lbh]. split; [|split; [exact Eg|exact Hs]].
      destruct (same_xyz (fst p') (s_xyz s)) eqn:E2; [|reflexivity].
      apply same_xyz_eq in E2; [|assumption|assumption]. rewrite E2 in H3 |- *. rewrite Eg in H3. injection H3 as ->. reflexivity.
Qed.

(** ** one record *)
Definition agree (a b : list ascii) : Prop := forall sys, keep sys = true -> existsb (Ascii.eqb sys) a = existsb (Ascii.eqb sys) b.
Lemma filter_pos (os : list wop) : Forall (fun op => is_row op = false) os -> filter (row_of_kept keep) os = [] /\ rows_only os = [].
Proof.
  induction 1 as [|op os H _ [IH1 IH2]]; [split; reflexivity|]. destruct op as [t p l|sat sd nav t q]; [|discriminate]. unfold rows_only in *. cbn [filter is_row row_of_kept]. auto.
Qed.
Lemma row_step_sat k nav glo l s t sys n v r : row_step w k nav glo l s t sys n v = Ok (Some r) -> exists sd q, r = WRow (s_sat s) sd nav t q.
Proof.
  unfold row_step. destruct v as [[p el] az]. destruct (if ceqb sys "R" then _ else _) as [[[f1 f2] m]|]; cbn [bind]; [|discriminate].
  destruct (tec_columns _ _ _ _); cbn [bind]; [|discriminate]. destruct (s_types s sys); cbn [bind]; [|discriminate].
  destruct (record_validity _ _) as [v|e]; [|destruct e; discriminate]. intros E. injection E as <-. eauto.
Qed.
Lemma row_det xyzs lp lp' p p' s t sys n nav cur glo site ops num : plain_site p -> plain_site p' -> no_minus_zero (s_xyz s) ->
  (forall u q, entry xyzs u q -> no_minus_zero q) -> s_sat s = sys :: num -> fresh_row w c xyzs lp p s t sys n nav cur glo = Ok (site, ops) ->
  plain_site site /\ (keep sys = false -> filter (row_of_kept keep) ops = []) /\
  (keep sys = true -> (exists x, lp' = Ok x) -> exists ops', fresh_row w c xyzs lp' p' s t sys n nav cur glo = Ok (site, ops') /\
     rows_only ops' = filter (row_of_kept keep) ops /\ (forall k iv, rows_ok k iv ops -> rows_ok k iv ops')).
Proof.
  intros Hp Hp' Hs He Hsat. unfold fresh_row. destruct (site_step w xyzs (mkLocal [] (fst p) (snd p)) s t) as [l|] eqn:Es; cbn [bind]; [|discriminate].
  destruct (site_det _ _ _ _ _ _ Hp Hp' Hs He Es) as [-> Hl]. cbn [bind]. destruct lp as [last|]; cbn [bind]; [|discriminate]. cbv zeta.
  set (pos := if same_xyz (l_xyz l) last then [] else _).
  assert (Hpos : Forall (fun op => is_row op = false) pos) by (unfold pos; destruct (same_xyz _ _); repeat constructor). clearbody pos.
  destruct (view w c (l_xyz l) cur sys) as [v|]; cbn [bind]; [|discriminate].
  assert (Hpos' : forall last', Forall (fun op => is_row op = false) (if same_xyz (l_xyz l) last' then [] else [WPos t (l_xyz l) (l_lbh l)])) by (intros; destruct (same_xyz _ _); repeat constructor).
  destruct v as [v|].
  - destruct (row_step w c nav (Some (known glo)) l s t sys n v) as [r|] eqn:Er; cbn [bind]; [|discriminate]. intros E. injection E as <- <-. split; [exact Hl|].
    assert (Hr : forall op, r = Some op -> exists sd q, op = WRow (s_sat s) sd nav t q) by (intros op ->; exact (row_step_sat _ _ _ _ _ _ _ _ _ _ Er)).
    split.
    + intros Hk. rewrite filter_app, (proj1 (filter_pos _ Hpos)). destruct r as [op|]; [|reflexivity]. destruct (Hr _ eq_refl) as [sd [q ->]]. cbn. rewrite Hsat, Hk. reflexivity.
    + intros Hk [last' ->]. cbn [bind]. eexists. split; [reflexivity|]. unfold rows_only in *. rewrite !filter_app, (proj1 (filter_pos _ Hpos)), (proj2 (filter_pos _ (Hpos' last')) : filter is_row _ = []).
      destruct r as [op|].
      * destruct (Hr _ eq_refl) as [sd [q ->]]. split; [cbn; rewrite Hsat, Hk; reflexivity|]. intros k iv H s0 sd0 nav0 t0 q0 Hin. apply in_app_or in Hin. destruct Hin as [Hin|Hin].
        -- apply (proj1 (Forall_forall _ _) (Hpos' last')) in Hin. discriminate.
        -- apply (H s0 sd0 nav0 t0 q0). apply in_or_app. right. exact Hin.
      * split; [reflexivity|]. intros k iv H s0 sd0 nav0 t0 q0 Hin. rewrite app_nil_r in Hin. apply (proj1 (Forall_forall _ _) (Hpos' last')) in Hin. discriminate.
  - intros E. injection E as <- <-. split; [exact Hl|]. split; [intros _; exact (proj1 (filter_pos _ Hpos))|]. intros _ [last' ->]. cbn [bind]. eexists. split; [reflexivity|].
    rewrite (proj1 (filter_pos _ Hpos)), (proj2 (filter_pos _ (Hpos' last'))). split; [reflexivity|].
    intros k iv H s0 sd0 nav0 t0 q0 Hin. apply (proj1 (Forall_forall _ _) (Hpos' last')) in Hin. discriminate.
Qed.

Lemma body_det xyzs lp lp' seen seen' p p' s t sys n num seen1 site ops : plain_site p -> plain_site p' -> no_minus_zero (s_xyz s) ->
  (forall u q, entry xyzs u q -> no_minus_zero q) -> s_sat s = sys :: num -> agree seen seen' -> fresh_body w c xyzs lp seen p s t sys n = Ok (seen1, site, ops) ->
  plain_site site /\ (keep sys = false -> agree seen1 seen' /\ filter (row_of_kept keep) ops = []) /\
  (keep sys = true -> (exists x, lp' = Ok x) -> exists seen1' site' ops', fresh_body w c xyzs lp' seen' p' s t sys n = Ok (seen1', site', ops') /\
     agree seen1 seen1' /\ plain_site site' /\ rows_only ops' = filter (row_of_kept keep) ops /\ (forall k iv, rows_ok k iv ops -> rows_ok k iv ops')).
Proof.
  intros Hp Hp' Hs He Hsat Ha. unfold fresh_body. destruct (fresh_nav w c t sys) as [[nav m]|]; cbn [bind]; [|discriminate].
  set (first := negb (existsb (Ascii.eqb sys) seen)). set (first' := negb (existsb (Ascii.eqb sys) seen')).
  assert (Hf : keep sys = true -> first' = first) by (intros Hk; unfold first, first'; now rewrite (Ha sys Hk)).
  assert (Hg : keep sys = true -> agree (if first then sys :: seen else seen) (if first' then sys :: seen' else seen')).
  { intros Hk. rewrite (Hf Hk). destruct first; [|exact Ha]. intros x Hx. cbn [existsb]. now rewrite (Ha x Hx). }
  assert (Hh : keep sys = false -> agree (if first then sys :: seen else seen) seen').
  { intros Hk. destruct first; [|exact Ha]. intros x Hx. cbn [existsb]. destruct (Ascii.eqb_spec x sys) as [->|_]; [congruence|]. exact (Ha x Hx). }
  assert (Hnil : forall k iv, rows_ok k iv []) by (intros k iv s0 sd nv u q []).
  assert (Hgo : forall seen1 site ops,
    (do got <- fresh_sat w t sys n m; match got with None => Ok (if first then sys :: seen else seen, p, []) | Some (cur, glo) =>
       do (site, ops) <- fresh_row w c xyzs lp p s t sys n nav cur glo; Ok (if first then sys :: seen else seen, site, ops) end) = Ok (seen1, site, ops) ->
    plain_site site /\ (keep sys = false -> agree seen1 seen' /\ filter (row_of_kept keep) ops = []) /\
    (keep sys = true -> (exists x, lp' = Ok x) -> exists seen1' site' ops',
       (do got <- fresh_sat w t sys n m; match got with None => Ok (if first' then sys :: seen' else seen', p', []) | Some (cur, glo) =>
         do (site, ops) <- fresh_row w c xyzs lp' p' s t sys n nav cur glo; Ok (if first' then sys :: seen' else seen', site, ops) end) = Ok (seen1', site', ops') /\
       agree seen1 seen1' /\ plain_site site' /\ rows_only ops' = filter (row_of_kept keep) ops /\ (forall k iv, rows_ok k iv ops -> rows_ok k iv ops'))).
  { clear seen1 site ops. intros seen1 site ops. destruct (fresh_sat w t sys n m) as [[[cur glo]|]|]; cbn [bind]; [| |discriminate].
    - destruct (fresh_row w c xyzs lp p s t sys n nav cur glo) as [[site2 ops2]|] eqn:Er; cbn [bind]; [|discriminate]. intros E. injection E as <- <- <-.
      destruct (row_det _ _ lp' _ _ _ _ _ _ _ _ _ _ _ _ Hp Hp' Hs He Hsat Er) as [H1 [H2 H3]]. split; [exact H1|]. split; [auto|].
      intros Hk Hlp. destruct (H3 Hk Hlp) as [ops' [-> [H4 H5]]]. cbn [bind]. eexists _, _, _. split; [reflexivity|]. auto.
    - intros E. injection E as <- <- <-. split; [exact Hp|]. split; [auto|]. intros Hk _. eexists _, _, _. split; [reflexivity|]. auto. }
  destruct nav as [nav|]; [exact (Hgo seen1 site ops)|].
  destruct first eqn:Ef.
  - intros E. injection E as <- <- <-. split; [exact Hp|]. split; [auto|]. intros Hk _. rewrite (Hf Hk) in *. eexists _, _, _. split; [reflexivity|]. auto.
  - intros E. destruct (Hgo _ _ _ E) as [H1 [H2 H3]]. split; [exact H1|]. split; [exact H2|]. intros Hk Hlp. specialize (H3 Hk Hlp). rewrite (Hf Hk) in *. exact H3.
Qed.

(** ** the records of a file *)
Lemma record_sat s t sys n : record_ident s = Ok (t, sys, n) -> exists num, s_sat s = sys :: num.
Proof.
  unfold record_ident. destruct (s_sat s) as [|a num]; [discriminate|]. destruct (py_int num); cbn [bind]; [|discriminate]. destruct (s_epoch s); cbn [of_option bind]; [|discriminate].
  intros E. injection E as _ <- _. eauto.
Qed.
Lemma latest_fine iv wr : wfine iv wr -> exists x, latest (w_xyz wr) = Ok x.
Proof. intros [_ [H _]]. exact (latest_total _ H). Qed.
Lemma loop_det b b' xyzs iv steps steps' : without_systems keep steps steps' -> b_date b' = b_date b -> b_end b' = b_end b ->
  (forall s, In s steps -> no_minus_zero (s_xyz s)) -> (forall u q, entry xyzs u q -> no_minus_zero q) ->
  forall seen seen' p p' st st' st1 os, agree seen seen' -> plain_site p -> plain_site p' -> wfine iv (snd st) -> wfine iv (snd st') ->
  fresh_loop w c b xyzs None None seen p st steps = (st1, os, None) ->
  exists st1' os', fresh_loop w' c b' xyzs None None seen' p' st' steps' = (st1', os', None) /\ rows_only os' = filter (row_of_kept keep) os.
Proof.
  intros Hw Hbd Hbe. induction Hw as [|s sys0 num r r' Hsat Hk Hw IH|s sys0 num r r' Hsat Hk Hw IH]; intros Hs He seen seen' p p' st st' st1 os Ha Hp Hp' Hf Hf'; cbn [fresh_loop].
  - rewrite Hbe. destruct (b_end b) as [|[]]; intros E; try discriminate; injection E as <- <-; eexists _, _; split; reflexivity.
  - destruct (record_ident s) as [[[t sys] n]|] eqn:Ei; [|discriminate]. destruct (record_sat _ _ _ _ Ei) as [num' Hsat']. assert (sys0 = sys) by congruence. subst sys0. rewrite Hbd.
    assert (Hs' : forall s, In s r -> no_minus_zero (s_xyz s)) by (intros x Hx; apply Hs; right; exact Hx).
    destruct (accept (b_date b) None None t sys) as [last|] eqn:Eac; [|intros E; exact (IH Hs' He _ _ _ _ _ _ _ _ Ha Hp Hp' Hf Hf' E)].
    assert (last = None).
    { revert Eac. unfold accept. destruct (negb _); [discriminate|]. destruct (b_date b) as [d|]; [|discriminate]. destruct (negb _); [discriminate|]. cbn. congruence. }
    subst last. destruct (fresh_body w c xyzs (latest (w_xyz (snd st))) seen p s t sys n) as [[[seen1 site] ops]|] eqn:Eb; [|discriminate].
    destruct (body_det _ _ (latest (w_xyz (snd st'))) _ _ _ _ _ _ _ _ _ _ _ _ Hp Hp' (Hs s (or_introl eq_refl)) He Hsat Ha Eb) as [H1 [_ H3]].
    destruct (H3 Hk (latest_fine _ _ Hf')) as [seen1' [site' [ops' [Eb' [H4 [H5 [H6 H7]]]]]]].
    change (fresh_body w' c) with (fresh_body w c). change (out_of w' c) with (out_of w c). rewrite Eb'.
    destruct (do_ops (out_of w c) st ops) as [st2|] eqn:Ed; [|discriminate]. destruct (ops_fine _ iv _ _ _ Ed Hf) as [Hf2 Hr].
    destruct (ops_go (out_of w c) iv ops' st' Hf' (H7 _ _ Hr)) as [st2' [-> Hf2']].
    destruct (fresh_loop w c b xyzs None None seen1 site st2 r) as [[st3 os3] e3] eqn:El. intros E. injection E as <- <- ->.
    destruct (IH Hs' He _ _ _ _ _ _ _ _ H4 H1 H5 Hf2 Hf2' El) as [st3' [os3' [-> H8]]]. eexists _, _. split; [reflexivity|].
    unfold rows_only in *. rewrite !filter_app, H6, H8. reflexivity.
  - destruct (record_ident s) as [[[t sys] n]|] eqn:Ei; [|discriminate]. destruct (record_sat _ _ _ _ Ei) as [num' Hsat']. assert (sys0 = sys) by congruence. subst sys0.
    assert (Hs' : forall s, In s r -> no_minus_zero (s_xyz s)) by (intros x Hx; apply Hs; right; exact Hx).
    destruct (accept (b_date b) None None t sys) as [last|] eqn:Eac; [|intros E; exact (IH Hs' He _ _ _ _ _ _ _ _ Ha Hp Hp' Hf Hf' E)].
    assert (last = None).
    { revert Eac. unfold accept. destruct (negb _); [discriminate|]. destruct (b_date b) as [d|]; [|discriminate]. destruct (negb _); [discriminate|]. cbn. congruence. }
    subst last. destruct (fresh_body w c xyzs (latest (w_xyz (snd st))) seen p s t sys n) as [[[seen1 site] ops]|] eqn:Eb; [|discriminate].
    destruct (body_det _ _ (latest (w_xyz (snd st'))) _ _ _ _ _ _ _ _ _ _ _ _ Hp Hp' (Hs s (or_introl eq_refl)) He Hsat Ha Eb) as [H1 [H2 _]]. destruct (H2 Hk) as [H3 H4].
    destruct (do_ops (out_of w c) st ops) as [st2|] eqn:Ed; [|discriminate]. destruct (ops_fine _ iv _ _ _ Ed Hf) as [Hf2 _].
    destruct (fresh_loop w c b xyzs None None seen1 site st2 r) as [[st3 os3] e3] eqn:El. intros E. injection E as <- <- ->.
    destruct (IH Hs' He _ _ _ _ _ _ _ _ H3 H1 Hp' Hf2 Hf' El) as [st3' [os3' [E3 H8]]]. exists st3', os3'. split; [exact E3|].
    rewrite filter_app, H4. exact H8.
Qed.

(** ** the files *)
Lemma open_named v name b : open_obs v name = Ok b -> b_name b = name.
Proof.
  unfold open_obs. destruct (expand_plan name); cbn [bind]; [|discriminate]. cbv zeta. destruct (w_content v name); cbn [bind]; [|discriminate]. destruct (obs_class _) as [u|]; cbn [bind]; [|discriminate].
  destruct (ver_lt3 u); [destruct (open2 _ _) as [r|]|destruct (open3 _ _ _) as [r|]]; cbn [bind]; try discriminate;
    [destruct (records2 u r) as [[ys ge] q]|destruct (records3 u r) as [[ys ge] q]]; intros E; injection E as <-; reflexivity.
Qed.
Lemma start_same b b' : b_name b' = b_name b -> b_hdr b' = b_hdr b -> file_start w' c b' = file_start w c b.
Proof. intros H1 H2. change (file_start w' c) with (file_start w c). unfold file_start, interval_of, sampling_of. rewrite H1, H2. reflexivity. Qed.
Hypothesis Hcont : contents_of keep w c o.
Hypothesis Hplain : plain_positions w c.
Hypothesis Hsamp : no_sampling w c.
Let found name := In name (find_files (w_ls w) (c_obsdir c) RE_OBS).
Lemma file_det f f' name g ops : found name -> fresh_file w c f name = (g, ops, None) ->
  exists g' ops', fresh_file w' c f' name = (g', ops', None) /\ rows_only ops' = filter (row_of_kept keep) ops.
Proof.
  intros Hn. pose proof (Hcont name Hn) as Hc. pose proof (Hplain name) as Hp. pose proof (Hsamp name) as Hk. unfold fresh_file. fold w' in Hc.
  destruct (open_obs w name) as [b|e] eqn:Eo, (open_obs w' name) as [b'|e'] eqn:Eo'; try contradiction.
  - destruct Hc as [H1 [H2 [H3 [H4 H5]]]]. rewrite (start_same b b' H1 H3).
    destruct (file_start w c b) as [[[[[[xyzs si] l] iv] pos]|]|] eqn:Es; [| |discriminate].
    + destruct (file_start_spec w c _ _ _ _ _ _ Es) as [G1 [G2 [G3 [G4 [G5 [G6 [t0 [ts [G7 G8]]]]]]]]].
      rewrite (keeps_sampling c b (Hk b Hn eq_refl)) in G5. injection G5 as <-. rewrite (open_named _ _ _ Eo) in G4.
      destruct (Hp b Hn eq_refl) as [P1 [P2 P3]]. rewrite G8. cbn [do_op].
      change (out_of w' c) with (out_of w c).
      destruct (fresh_loop w c b xyzs None None [] _ _ (b_steps b)) as [[st os] e] eqn:El. intros E. injection E as <- <- ->.
      assert (Hl : plain_site (l_xyz l, l_lbh l)).
      { split; cbn [fst snd]; [|rewrite G3; exact P1]. revert G2. unfold geodetic, lbh_of. destruct (l_xyz l) as [[x y] z]. auto. }
      assert (Hw : forall h : fs, wfine iv (snd (h, update_lbh (update_xyz (new_writer name iv) t0 (l_xyz l)) t0 (l_lbh l)))) by (intros h; split; [reflexivity|split; discriminate]).
      destruct (loop_det b b' xyzs iv _ _ H5 H2 H4 P2 (fun u q Hu => P3 xyzs u q G4 Hu) [] [] _ _ _ _ _ _ (fun _ _ => eq_refl) Hl Hl (Hw f) (Hw f') El) as [st' [os' [E' Hr]]].
      rewrite E'. eexists _, _. split; [reflexivity|]. exact Hr.
    + intros E. injection E as <- <-. eexists _, _. split; reflexivity.
  - subst e'. destruct e; intros E; try discriminate; injection E as <- <-; eexists _, _; split; reflexivity.
Qed.
Lemma files_det names : (forall nm, In nm names -> found nm) -> forall f f' g log, fresh_files w c f names = (g, log, None) ->
  exists g' log', fresh_files w' c f' names = (g', log', None) /\ Forall2 (rows_kept keep) log log'.
Proof.
  induction names as [|nm r IH]; intros Hf f f' g log; cbn [fresh_files].
  - intros E. injection E as <- <-. eexists _, _. split; [reflexivity|constructor].
  - destruct (fresh_file w c f nm) as [[f1 os] [e|]] eqn:E1; [discriminate|]. destruct (file_det f f' nm f1 os (Hf nm (or_introl eq_refl)) E1) as [f1' [os' [-> Hr]]].
    destruct (fresh_files w c f1 r) as [[f2 log2] e2] eqn:E2. intros E. injection E as <- <- ->.
    destruct (IH (fun n Hn => Hf n (or_intror Hn)) f1 f1' _ _ E2) as [f2' [log2' [-> Hl]]]. eexists _, _. split; [reflexivity|]. constructor; [split; [reflexivity|exact Hr]|exact Hl].
Qed.
Lemma taken_in steps steps' s : without_systems keep steps steps' -> In s steps' -> In s steps.
Proof. induction 1 as [|x y z r r' _ _ _ IH|x y z r r' _ _ _ IH]; cbn [In]; intuition auto. Qed.
Lemma with_incomputable t sys n : incomputable w' c t sys n -> incomputable w c t sys n.
Proof.
  intros [dt [eph [e [H1 [H2 H3]]]]]. exists dt, eph, e. split; [|split; [exact H2|exact H3]].
  assert (Hd : forall d, nav_data w' c t sys d -> nav_data w c t sys d).
  { intros d Hd. inversion Hd; subst; [apply nav_found with (m := m); assumption|apply nav_missing with (e := e0); assumption]. }
  inversion H1; subst. apply eph_chosen with (f := f) (sats := sats); [apply Hd; assumption|assumption].
Qed.
Hypothesis Hcomp : computable_files w c.
Lemma comp_with name : found name -> comp w' c name.
Proof.
  intros Hn b' s t sys n Ho Hin Hi Hy Hx. pose proof (Hcont name Hn) as Hc. fold w' in Hc. rewrite Ho in Hc. destruct (open_obs w name) as [b|] eqn:Eo; [|contradiction].
  destruct Hc as [_ [_ [_ [_ Hw]]]]. exact (Hcomp name b s t sys n Hn Eo (taken_in _ _ _ Hw Hin) Hi Hy (with_incomputable _ _ _ Hx)).
Qed.
Lemma main_det f f' : stopped_by w c f = None ->
  stopped_by w' c f' = None /\ Forall2 (rows_kept keep) (snd (fst (main w c f))) (snd (fst (main w' c f'))).
Proof.
  unfold stopped_by, main. change (w_ls w') with (w_ls w).
  assert (Hin : forall nm, In nm (sort_str (find_files (w_ls w) (c_obsdir c) RE_OBS)) -> found nm) by (intros nm H; exact (Permutation_in nm (Permutation_sym (sort_perm _)) H)).
  destruct (sort_str (find_files (w_ls w) (c_obsdir c) RE_OBS)) as [|n0 r0]; [discriminate|].
  rewrite (comp_files w c (n0 :: r0) no_caches f (good_none w c)) by (intros nm Hn b s t sys n; exact (Hcomp nm b s t sys n (Hin nm Hn))).
  rewrite (comp_files w' c (n0 :: r0) no_caches f' (good_none w' c)) by (intros nm Hn; exact (comp_with nm (Hin nm Hn))).
  destruct (fresh_files w c f (n0 :: r0)) as [[g log] e] eqn:E. cbn [fst snd]. intros ->.
  destruct (files_det _ Hin f f' _ _ E) as [g' [log' [-> Hl]]]. split; [reflexivity|exact Hl].
Qed.

(** the contents of the result files *)
Lemma rows_of_kept sat ops : rows_of sat (rows_only ops) = rows_of sat ops.
Proof.
  unfold rows_only. induction ops as [|[t p l|s sd nav t q] r IH]; [reflexivity|exact IH|]. cbn [filter is_row rows_of]. rewrite IH. reflexivity.
Qed.
Lemma rows_of_filter sys num ops : keep sys = true -> rows_of (sys :: num) (filter (row_of_kept keep) ops) = rows_of (sys :: num) ops.
Proof.
  intros Hk. induction ops as [|[t p l|s sd nav t q] r IH]; [reflexivity|exact IH|]. cbn [filter row_of_kept rows_of].
  destruct s as [|a s]; [exact IH|]. destruct (keep a) eqn:Ea; cbn [rows_of]; [rewrite IH; reflexivity|]. rewrite IH.
  destruct (seqb (a :: s) (sys :: num)) eqn:E; [apply seqb_eq in E; congruence|]. destruct (seqb (sys :: num) (a :: s)) eqn:E'; [apply seqb_eq in E'; congruence|]. reflexivity.
Qed.
Lemma files_split log log' name ops pre post : Forall2 (rows_kept keep) log log' -> log = pre ++ (name, ops) :: post ->
  exists pre' ops' post', log' = pre' ++ (name, ops') :: post' /\ rows_only ops' = filter (row_of_kept keep) ops /\ Forall2 (rows_kept keep) post post'.
Proof.
  intros H. revert pre. induction H as [|a b l l' Hab Hl IH]; intros pre E; [destruct pre; discriminate|]. destruct pre as [|p pre]; cbn [app] in E; injection E as -> E.
  - subst l. destruct b as [nm os]. destruct Hab as [Hn Hr]. cbn [fst snd] in *. subst nm. exists [], os, l'. split; [reflexivity|]. split; [exact Hr|exact Hl].
  - destruct (IH pre E) as [pre' [ops' [post' [-> H2]]]]. exists (b :: pre'), ops', post'. split; [reflexivity|exact H2].
Qed.
Lemma results_det f f' pre name ops post sys num : stopped_by w c f = None -> snd (fst (main w c f)) = pre ++ (name, ops) :: post ->
  keep sys = true -> rows_of (sys :: num) ops <> [] ->
  (forall name' ops', In (name', ops') post -> rows_of (sys :: num) ops' <> [] -> marker_of name' <> marker_of name \/ get_rinex_date name' <> get_rinex_date name) ->
  exists d head head' body, get_rinex_date name = Some d /\ comments head /\ comments head' /\
    fs_get (result_file (c_outdir c) (marker_of name) (sys :: num) d) (fst (fst (main w c f))) = Some (head ++ body) /\
    fs_get (result_file (c_outdir c) (marker_of name) (sys :: num) d) (fst (fst (main w' c f'))) = Some (head' ++ body).
Proof.
  intros Hs Hlog Hk Hr Hpost. destruct (main_det f f' Hs) as [Hs' Hl]. destruct (files_split _ _ _ _ _ _ Hl Hlog) as [pre' [ops' [post' [Hlog' [Ho Hp]]]]].
  assert (Hsame : forall a b, rows_only b = filter (row_of_kept keep) a -> rows_of (sys :: num) b = rows_of (sys :: num) a).
  { intros a b E. rewrite <- rows_of_kept, E. exact (rows_of_filter sys num a Hk). }
  destruct (run_files w c f pre name ops post (sys :: num) Hs Hlog Hr Hpost) as [b [iv [d [content [B1 [B2 [B3 [B4 [h [rs [B5 [B6 B7]]]]]]]]]]]].
  assert (Hr' : rows_of (sys :: num) ops' <> []) by (rewrite (Hsame _ _ Ho); exact Hr).
  assert (Hpost' : forall name' os, In (name', os) post' -> rows_of (sys :: num) os <> [] -> marker_of name' <> marker_of name \/ get_rinex_date name' <> get_rinex_date name).
  { clear -Hp Hpost Hsame. induction Hp as [|x y l l' [Hx1 Hx2] Hl IH]; [intros ? ? []|]. intros nm os [E|Hin] Hne.
    - subst y. cbn [fst snd] in *. destruct x as [nx ox]. cbn [fst snd] in *. subst nm. apply (Hpost nx ox (or_introl eq_refl)). rewrite <- (Hsame _ _ Hx2). exact Hne.
    - exact (IH (fun n a Ha => Hpost n a (or_intror Ha)) nm os Hin Hne). }
  destruct (run_files w' c f' pre' name ops' post' (sys :: num) Hs' Hlog' Hr' Hpost') as [b' [iv' [d' [content' [C1 [C2 [C3 [C4 [h' [rs' [C5 [C6 C7]]]]]]]]]]]].
  rewrite B3 in C3. injection C3 as <-.
  assert (Hn : found name).
  { unfold stopped_by, main in Hs, Hlog. destruct (sort_str (find_files (w_ls w) (c_obsdir c) RE_OBS)) as [|n0 r0] eqn:En; [discriminate|].
    destruct (files_loop w c no_caches f (n0 :: r0)) as [[g log] e] eqn:El. cbn [fst snd] in Hs, Hlog. subst e.
    assert (Hg : In name (map fst log)) by (rewrite Hlog, map_app; apply in_or_app; right; left; reflexivity).
    apply (Permutation_in name (Permutation_sym (sort_perm _))). rewrite En. rewrite (comp_files w c (n0 :: r0) no_caches f (good_none w c)) in El.
    - clear -El Hg. revert f g log El Hg. induction (n0 :: r0) as [|nm r IH]; intros f g log; cbn [fresh_files]; [intros E; injection E as <- <-; intros []|].
      destruct (fresh_file w c f nm) as [[f1 os] [e|]]; [discriminate|]. destruct (fresh_files w c f1 r) as [[f2 l2] e2] eqn:E2. intros E. injection E as <- <- ->. intros [<-|H]; [left; reflexivity|right; exact (IH f1 f2 l2 E2 H)].
    - intros nm Hm b1 s t sy n. exact (Hcomp nm b1 s t sy n (Permutation_in nm (Permutation_sym (sort_perm _)) (eq_ind_r (fun l => In nm l) Hm En))). }
  assert (Hiv : iv' = iv).
  { pose proof (Hcont name Hn) as Hc. fold w' in Hc. rewrite B1, C1 in Hc. destruct Hc as [_ [_ [E _]]]. rewrite E, B2 in C2. congruence. }
  subst iv'. rewrite (Hsame _ _ Ho) in C7. change (out_of w' c) with (out_of w c) in C7.
  assert (Hrs : rs' = rs).
  { clear -B7 C7. revert rs' C7. induction B7 as [|x y l l' H Hl IH]; intros rs' C7; inversion C7; subst; [reflexivity|]. f_equal; [congruence|apply IH; assumption]. }
  subst rs'. exists d, h, h', (concat rs). split; [exact B3|]. split; [exact B6|]. split; [exact C6|]. split; [rewrite B4, B5; reflexivity|rewrite C4, C5; reflexivity].
Qed.
End Sys.
