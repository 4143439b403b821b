(** A sampling interval leaves rows out and changes none. *)
From Coq Require Import ZifyBool ZifyNat Sorting.Permutation.
From Verif Require Import Base PyStr PyFloat PyDate PyPath PyRegex PyStrftime S_Text S_Time S_Open2 M_Common M_Header M_Obs2 M_Obs3 M_Rec M_Text M_Cfg M_Label M_Names M_Xyz M_Nav M_NmUtils M_Num M_Tec M_Sat M_Main M_Run S_Names S_Xyz S_Label S_Main S_Fresh S_Run S_Alone S_Out S_Systems S_Sample P_Str P_Date P_Label P_Out P_Main1 P_Main2 P_Main3 P_Main4 P_Main5 P_Main6 P_Main7 P_Main8 P_Main9 P_Main10 P_Main12 P_Set1 P_Alone P_Systems.
Open Scope nat_scope.

Lemma left_app {A} (a a' b b' : list A) : left_out a a' -> left_out b b' -> left_out (a ++ b) (a' ++ b').
Proof. intros H Hb. induction H; cbn [app]; [exact Hb|now constructor|now constructor]. Qed.
Lemma left_all {A} (a : list A) : left_out a [].
Proof. induction a; now constructor. Qed.
Lemma left_refl {A} (a : list A) : left_out a a.
Proof. induction a; now constructor. Qed.

Section Sample.
Variables (w : world) (c : cfg) (iv : option Z).
Let c' := with_sampling c iv.
Let any (sys : ascii) : bool := true.
Definition fewer (a b : list ascii) : Prop := forall sys, existsb (Ascii.eqb sys) a = true -> existsb (Ascii.eqb sys) b = true.

Lemma body_fewer xyzs lp lp' seen seen' p p' s t sys n num seen1 site ops : plain_site w p -> plain_site w p' -> no_minus_zero (s_xyz s) ->
  (forall u q, entry xyzs u q -> no_minus_zero q) -> s_sat s = sys :: num -> fewer seen' seen -> (exists x, lp' = Ok x) ->
  fresh_body w c xyzs lp seen p s t sys n = Ok (seen1, site, ops) ->
  plain_site w site /\ fewer seen' seen1 /\
  exists seen1' site' ops', fresh_body w c xyzs lp' seen' p' s t sys n = Ok (seen1', site', ops') /\
     fewer seen1' seen1 /\ plain_site w site' /\ left_out (rows_only ops) (rows_only ops') /\ (forall k j, rows_ok k j ops -> rows_ok k j ops').
Proof.
  intros Hp Hp' Hs He Hsat Ha Hlp. unfold fresh_body. destruct (fresh_nav w c t sys) as [[nav m]|]; cbn [bind]; [|discriminate].
  set (first := negb (existsb (Ascii.eqb sys) seen)). set (first' := negb (existsb (Ascii.eqb sys) seen')).
  assert (Hf : first = true -> first' = true).
  { unfold first, first'. intros H. destruct (existsb (Ascii.eqb sys) seen') eqn:E; [|reflexivity]. rewrite (Ha sys E) in H. exact H. }
  assert (Hg : fewer (if first' then sys :: seen' else seen') (if first then sys :: seen else seen)).
  { intros x. unfold first, first'. pose proof (Ha x) as H1. pose proof (Ha sys) as H2. destruct (existsb (Ascii.eqb sys) seen') eqn:E1, (existsb (Ascii.eqb sys) seen) eqn:E2; cbn [negb existsb];
      try (exact H1); try (exfalso; assert (X := H2 eq_refl); discriminate).
    - destruct (Ascii.eqb_spec x sys) as [->|_]; cbn [orb]; [intros _; exact E2|exact H1].
    - destruct (Ascii.eqb_spec x sys) as [->|_]; cbn [orb]; [auto|exact H1]. }
  assert (Hh : fewer seen' (if first then sys :: seen else seen)).
  { intros x Hx. destruct first; [cbn [existsb]; rewrite (Ha x Hx); apply orb_true_r|exact (Ha x Hx)]. }
  assert (Hnil : forall k j, rows_ok k j []) by (intros k j s0 sd nv u q []).
  assert (Hgo : forall seen1 site ops,
    (do got <- fresh_sat w t sys n m; match got with None => Ok (if first then sys :: seen else seen, p, []) | Some (cur, glo) =>
       do (site, ops) <- fresh_row w c xyzs lp p s t sys n nav cur glo; Ok (if first then sys :: seen else seen, site, ops) end) = Ok (seen1, site, ops) ->
    seen1 = (if first then sys :: seen else seen) /\ plain_site w site /\
    exists seen1' site' ops',
       (do got <- fresh_sat w t sys n m; match got with None => Ok (if first' then sys :: seen' else seen', p', []) | Some (cur, glo) =>
         do (site, ops) <- fresh_row w c xyzs lp' p' s t sys n nav cur glo; Ok (if first' then sys :: seen' else seen', site, ops) end) = Ok (seen1', site', ops') /\
       seen1' = (if first' then sys :: seen' else seen') /\ plain_site w site' /\ rows_only ops' = rows_only ops /\ (forall k j, rows_ok k j ops -> rows_ok k j ops')).
  { clear seen1 site ops. intros seen1 site ops. destruct (fresh_sat w t sys n m) as [[[cur glo]|]|]; cbn [bind]; [| |discriminate].
    - destruct (fresh_row w c xyzs lp p s t sys n nav cur glo) as [[site2 ops2]|] eqn:Er; cbn [bind]; [|discriminate]. intros E. injection E as <- <- <-.
      destruct (row_det any _ _ _ _ lp' _ _ _ _ _ _ _ _ _ _ _ _ Hp Hp' Hs He Hsat Er) as [H1 [_ H3]].
      assert (Hself : exists x, lp = Ok x).
      { revert Er. unfold fresh_row. destruct (site_step _ _ _ _ _); cbn [bind]; [|discriminate]. destruct lp; cbn [bind]; [eauto|discriminate]. }
      destruct (row_det any _ _ _ _ lp _ _ _ _ _ _ _ _ _ _ _ _ Hp Hp Hs He Hsat Er) as [_ [_ H2]]. destruct (H2 eq_refl Hself) as [ops0 [E0 [H4 _]]]. rewrite Er in E0. injection E0 as <-.
      destruct (H3 eq_refl Hlp) as [ops' [-> [H5 H6]]]. cbn [bind]. split; [reflexivity|]. split; [exact H1|]. eexists _, _, _. split; [reflexivity|]. split; [reflexivity|].
      split; [exact H1|]. split; [congruence|exact H6].
    - intros E. injection E as <- <- <-. split; [reflexivity|]. split; [exact Hp|]. eexists _, _, _. split; [reflexivity|]. auto. }
  assert (Hdo : forall seen1 site ops,
    (do got <- fresh_sat w t sys n m; match got with None => Ok (if first then sys :: seen else seen, p, []) | Some (cur, glo) =>
       do (site, ops) <- fresh_row w c xyzs lp p s t sys n nav cur glo; Ok (if first then sys :: seen else seen, site, ops) end) = Ok (seen1, site, ops) ->
    plain_site w site /\ fewer seen' seen1 /\
    exists seen1' site' ops',
       (do got <- fresh_sat w t sys n m; match got with None => Ok (if first' then sys :: seen' else seen', p', []) | Some (cur, glo) =>
         do (site, ops) <- fresh_row w c xyzs lp' p' s t sys n nav cur glo; Ok (if first' then sys :: seen' else seen', site, ops) end) = Ok (seen1', site', ops') /\
       fewer seen1' seen1 /\ plain_site w site' /\ left_out (rows_only ops) (rows_only ops') /\ (forall k j, rows_ok k j ops -> rows_ok k j ops')).
  { clear seen1 site ops. intros seen1 site ops E. destruct (Hgo _ _ _ E) as [-> [H1 [a [b [d [H2 [-> [H3 [H4 H5]]]]]]]]]. split; [exact H1|]. split; [exact Hh|].
    eexists _, b, d. split; [exact H2|]. split; [exact Hg|]. split; [exact H3|]. split; [rewrite H4; apply left_refl|exact H5]. }
  destruct nav as [nav|]; [exact (Hdo seen1 site ops)|].
  destruct first eqn:Ef.
  - intros E. injection E as <- <- <-. rewrite (Hf eq_refl) in *. split; [exact Hp|]. split; [exact Hh|]. eexists _, _, _. split; [reflexivity|]. split; [exact Hg|]. split; [exact Hp'|]. split; [constructor|auto].
  - intros E. destruct first' eqn:Ef'; [|exact (Hdo seen1 site ops E)]. destruct (Hgo _ _ _ E) as [-> [H1 _]]. split; [exact H1|]. split; [exact Ha|].
    eexists _, _, _. split; [reflexivity|]. split; [exact Hg|]. split; [exact Hp'|]. split; [apply left_all|]. intros k j _. exact (Hnil k j).
Qed.

Lemma loop_fewer b xyzs j steps si : (forall s, In s steps -> no_minus_zero (s_xyz s)) -> (forall u q, entry xyzs u q -> no_minus_zero q) ->
  forall last' seen seen' p p' st st' st1 os, fewer seen' seen -> plain_site w p -> plain_site w p' -> wfine j (snd st) -> wfine j (snd st') ->
  fresh_loop w c b xyzs None None seen p st steps = (st1, os, None) ->
  exists st1' os', fresh_loop w c' b xyzs si last' seen' p' st' steps = (st1', os', None) /\ left_out (rows_only os) (rows_only os').
Proof.
  intros Hs He. induction steps as [|s r IH]; intros last' seen seen' p p' st st' st1 os Ha Hp Hp' Hf Hf'; cbn [fresh_loop].
  - destruct (b_end b) as [|[]]; intros E; try discriminate; injection E as <- <-; eexists _, _; (split; [reflexivity|constructor]).
  - destruct (record_ident s) as [[[t sys] n]|] eqn:Ei; [|discriminate]. destruct (record_sat _ _ _ _ Ei) as [num Hsat].
    assert (Hs' : forall s, In s r -> no_minus_zero (s_xyz s)) by (intros x Hx; apply Hs; right; exact Hx). specialize (IH Hs').
    unfold accept. destruct (negb (supports sys)); [intros E; exact (IH _ _ _ _ _ _ _ _ _ Ha Hp Hp' Hf Hf' E)|].
    destruct (b_date b) as [d|]; [|intros E; exact (IH _ _ _ _ _ _ _ _ _ Ha Hp Hp' Hf Hf' E)].
    destruct (negb (date_eqb (dt_date t) d)); [intros E; exact (IH _ _ _ _ _ _ _ _ _ Ha Hp Hp' Hf Hf' E)|]. cbn [sample].
    destruct (fresh_body w c xyzs (latest (w_xyz (snd st))) seen p s t sys n) as [[[seen1 site] ops]|] eqn:Eb; [|discriminate].
    destruct (body_fewer _ _ (latest (w_xyz (snd st'))) _ _ _ _ _ _ _ _ _ _ _ _ Hp Hp' (Hs s (or_introl eq_refl)) He Hsat Ha (latest_fine _ _ Hf') Eb) as [H1 [H2 [seen1' [site' [ops' [Eb' [H4 [H5 [H6 H7]]]]]]]]].
    destruct (do_ops (out_of w c) st ops) as [st2|] eqn:Ed; [|discriminate]. destruct (ops_fine _ j _ _ _ Ed Hf) as [Hf2 Hr].
    destruct (fresh_loop w c b xyzs None None seen1 site st2 r) as [[st3 os3] e3] eqn:El. intros E. injection E as <- <- ->.
    destruct (sample si last' t) as [last2|].
    + change (fresh_body w c') with (fresh_body w c). rewrite Eb'.
      assert (Hr' : rows_ok (out_of w c') j ops') by exact (H7 _ _ Hr).
      destruct (ops_go (out_of w c') j ops' st' Hf' Hr') as [st2' [-> Hf2']].
      destruct (IH last2 _ _ _ _ _ _ _ _ H4 H1 H5 Hf2 Hf2' El) as [st3' [os3' [-> H8]]]. eexists _, _. split; [reflexivity|].
      unfold rows_only in *. rewrite !filter_app. apply left_app; assumption.
    + destruct (IH last' _ _ _ _ _ _ _ _ H2 H1 Hp' Hf2 Hf' El) as [st3' [os3' [-> H8]]]. eexists _, _. split; [reflexivity|].
      unfold rows_only in *. rewrite filter_app. exact (left_app _ [] _ _ (left_all _) H8).
Qed.

Lemma start_sampled b xyzs si l j pos : file_start w c b = Ok (Some (xyzs, si, l, j, pos)) -> exists si', file_start w c' b = Ok (Some (xyzs, si', l, j, pos)).
Proof.
  unfold file_start. destruct (of_option _ _) as [[[rv ft] ss]|]; cbn [bind]; [|discriminate]. destruct (negb _); [discriminate|].
  destruct (of_option _ _) as [[t0 ts]|]; cbn [bind]; [|discriminate]. destruct (negb _); [discriminate|]. cbv zeta. destruct (lbh_of _ _); cbn [bind]; [|discriminate].
  change (xyz_data w c') with (xyz_data w c). destruct (xyz_data w c _); cbn [bind]; [|discriminate].
  unfold interval_of. destruct (h_interval (b_hdr b)) as [i|] eqn:Ei; cbn [of_option bind]; [|discriminate].
  assert (Hsi : exists x, sampling_of c' b = Ok x).
  { unfold sampling_of. rewrite Ei. destruct (c_sampling c') as [v|]; [|eauto]. destruct (v =? 0)%Z; eauto. }
  destruct Hsi as [x ->]. destruct (sampling_of c b); cbn [bind]; [|discriminate]. intros E. injection E as <- _ <- <- <-. eauto.
Qed.
Lemma start_skipped b : file_start w c b = Ok None -> file_start w c' b = Ok None.
Proof.
  unfold file_start. destruct (of_option _ _) as [[[rv ft] ss]|]; cbn [bind]; [|discriminate]. destruct (negb _); [auto|].
  destruct (of_option _ _) as [[t0 ts]|]; cbn [bind]; [|discriminate]. destruct (negb _); [auto|]. cbv zeta. destruct (lbh_of _ _); cbn [bind]; [|discriminate].
  destruct (xyz_data w c _); cbn [bind]; [|discriminate]. destruct (interval_of b); cbn [bind]; [|discriminate]. destruct (sampling_of c b); cbn [bind]; discriminate.
Qed.
Hypothesis Hplain : plain_positions w c.
Hypothesis Hsamp : no_sampling w c.
Hypothesis Hcomp : computable_files w c.
Let found name := In name (find_files (w_ls w) (c_obsdir c) RE_OBS).
Lemma file_fewer f f' name g ops : found name -> fresh_file w c f name = (g, ops, None) ->
  exists g' ops', fresh_file w c' f' name = (g', ops', None) /\ left_out (rows_only ops) (rows_only ops').
Proof.
  intros Hn. pose proof (Hplain name) as Hp. pose proof (Hsamp name) as Hk. unfold fresh_file.
  destruct (open_obs w name) as [b|e] eqn:Eo.
  - destruct (file_start w c b) as [[[[[[xyzs si] l] j] pos]|]|] eqn:Es; [| |discriminate].
    + destruct (start_sampled _ _ _ _ _ _ Es) as [si' ->].
      destruct (file_start_spec w c _ _ _ _ _ _ Es) as [G1 [G2 [G3 [G4 [G5 [G6 [t0 [ts [G7 G8]]]]]]]]].
      rewrite (keeps_sampling c b (Hk b Hn eq_refl)) in G5. injection G5 as <-. rewrite (open_named _ _ _ Eo) in G4.
      destruct (Hp b Hn eq_refl) as [P1 [P2 P3]]. rewrite G8. cbn [do_op].
      destruct (fresh_loop w c b xyzs None None [] _ _ (b_steps b)) as [[st os] e] eqn:El. intros E. injection E as <- <- ->.
      assert (Hl : plain_site w (l_xyz l, l_lbh l)).
      { split; cbn [fst snd]; [|rewrite G3; exact P1]. revert G2. unfold geodetic, lbh_of. destruct (l_xyz l) as [[x y] z]. auto. }
      assert (Hw : forall h : fs, wfine j (snd (h, update_lbh (update_xyz (new_writer name j) t0 (l_xyz l)) t0 (l_lbh l)))) by (intros h; split; [reflexivity|split; discriminate]).
      destruct (loop_fewer b xyzs j _ si' P2 (fun u q Hu => P3 xyzs u q G4 Hu) None [] [] _ _ _ _ _ _ (fun _ H => H) Hl Hl (Hw f) (Hw f') El) as [st' [os' [E' Hr]]].
      rewrite E'. eexists _, _. split; [reflexivity|]. exact Hr.
    + rewrite (start_skipped _ Es). intros E. injection E as <- <-. eexists _, _. split; [reflexivity|constructor].
  - destruct e; intros E; try discriminate; injection E as <- <-; eexists _, _; (split; [reflexivity|constructor]).
Qed.
Lemma files_fewer names : (forall nm, In nm names -> found nm) -> forall f f' g log, fresh_files w c f names = (g, log, None) ->
  exists g' log', fresh_files w c' f' names = (g', log', None) /\ Forall2 rows_left_out log log'.
Proof.
  induction names as [|nm r IH]; intros Hf f f' g log; cbn [fresh_files].
  - intros E. injection E as <- <-. eexists _, _. split; [reflexivity|constructor].
  - destruct (fresh_file w c f nm) as [[f1 os] [e|]] eqn:E1; [discriminate|]. destruct (file_fewer f f' nm f1 os (Hf nm (or_introl eq_refl)) E1) as [f1' [os' [-> Hr]]].
    destruct (fresh_files w c f1 r) as [[f2 log2] e2] eqn:E2. intros E. injection E as <- <- ->.
    destruct (IH (fun n Hn => Hf n (or_intror Hn)) f1 f1' _ _ E2) as [f2' [log2' [-> Hl]]]. eexists _, _. split; [reflexivity|]. constructor; [split; [reflexivity|exact Hr]|exact Hl].
Qed.
Lemma sampled_incomputable t sys n : incomputable w c' t sys n -> incomputable w c t sys n.
Proof.
  intros [dt [eph [e [H1 [H2 H3]]]]]. exists dt, eph, e. split; [|split; [exact H2|exact H3]].
  assert (Hd : forall d, nav_data w c' t sys d -> nav_data w c t sys d).
  { intros d Hd. inversion Hd; subst; [apply nav_found with (m := m); assumption|apply nav_missing with (e := e0); assumption]. }
  inversion H1; subst. apply eph_chosen with (f := f) (sats := sats); [apply Hd; assumption|assumption].
Qed.
Lemma main_fewer f f' : stopped_by w c f = None ->
  stopped_by w c' f' = None /\ Forall2 rows_left_out (snd (fst (main w c f))) (snd (fst (main w c' f'))).
Proof.
  unfold stopped_by, main. change (c_obsdir c') with (c_obsdir c).
  assert (Hin : forall nm, In nm (sort_str (find_files (w_ls w) (c_obsdir c) RE_OBS)) -> found nm) by (intros nm H; exact (Permutation_in nm (Permutation_sym (sort_perm _)) H)).
  destruct (sort_str (find_files (w_ls w) (c_obsdir c) RE_OBS)) as [|n0 r0]; [discriminate|].
  rewrite (comp_files w c (n0 :: r0) no_caches f (good_none w c)) by (intros nm Hn b s t sys n; exact (Hcomp nm b s t sys n (Hin nm Hn))).
  rewrite (comp_files w c' (n0 :: r0) no_caches f' (good_none w c')) by (intros nm Hn b s t sys n Ho Hs Hi Hy Hx; exact (Hcomp nm b s t sys n (Hin nm Hn) Ho Hs Hi Hy (sampled_incomputable _ _ _ Hx))).
  destruct (fresh_files w c f (n0 :: r0)) as [[g log] e] eqn:E. cbn [fst snd]. intros ->.
  destruct (files_fewer _ Hin f f' _ _ E) as [g' [log' [-> Hl]]]. split; [reflexivity|exact Hl].
Qed.

(** the contents of the result files *)
Lemma files_split2 log log' pre' name ops' post' : Forall2 rows_left_out log log' -> log' = pre' ++ (name, ops') :: post' ->
  exists pre ops post, log = pre ++ (name, ops) :: post /\ left_out (rows_only ops) (rows_only ops') /\ Forall2 rows_left_out post post'.
Proof.
  intros H. revert pre'. induction H as [|a b l l' Hab Hl IH]; intros pre' E; [destruct pre'; discriminate|]. destruct pre' as [|p pre']; cbn [app] in E; injection E as -> E.
  - subst l'. destruct a as [nm os]. destruct Hab as [Hn Hr]. cbn [fst snd] in *. subst nm. exists [], os, l. split; [reflexivity|]. split; [exact Hr|exact Hl].
  - destruct (IH pre' E) as [pre [ops [post [-> H2]]]]. exists (a :: pre), ops, post. split; [reflexivity|exact H2].
Qed.
Lemma rows_of_left sat l l' : left_out l l' -> left_out (rows_of sat l) (rows_of sat l').
Proof.
  intros H. induction H as [|x l l' H IH|x l l' H IH]; [constructor| |].
  - destruct x as [t p a|s sd nav t q]; cbn [rows_of]; [exact IH|]. apply left_app; [apply left_refl|exact IH].
  - destruct x as [t p a|s sd nav t q]; cbn [rows_of]; [exact IH|]. apply (left_app _ []); [apply left_all|exact IH].
Qed.
Lemma left_texts {A B} (R : A -> B -> Prop) rows rows' : (forall x a b, R x a -> R x b -> a = b) -> left_out rows rows' -> forall rs rs',
  Forall2 R rows rs -> Forall2 R rows' rs' -> left_out rs rs'.
Proof.
  intros HR H. induction H as [|x l l' H IH|x l l' H IH]; intros rs rs' H1 H2.
  - inversion H1; inversion H2; subst. constructor.
  - inversion H1; inversion H2; subst. match goal with A1 : R x ?a, A2 : R x ?b |- _ => rewrite (HR x _ _ A1 A2) end. constructor. apply IH; assumption.
  - inversion H1; subst. constructor. apply IH; assumption.
Qed.
Lemma left_nil {A} (l : list A) : left_out [] l -> l = [].
Proof. intros H. inversion H. reflexivity. Qed.
Lemma results_fewer f f' pre' name ops' post' sat : stopped_by w c f = None -> snd (fst (main w c' f')) = pre' ++ (name, ops') :: post' ->
  rows_of sat ops' <> [] -> (forall name' os, In (name', os) post' -> marker_of name' <> marker_of name \/ get_rinex_date name' <> get_rinex_date name) ->
  exists d head head' rows rows', get_rinex_date name = Some d /\ comments head /\ comments head' /\ left_out rows rows' /\ rows' <> [] /\
    fs_get (result_file (c_outdir c) (marker_of name) sat d) (fst (fst (main w c f))) = Some (head ++ concat rows) /\
    fs_get (result_file (c_outdir c) (marker_of name) sat d) (fst (fst (main w c' f'))) = Some (head' ++ concat rows') /\
    exists ops b iv0, In (name, ops) (snd (fst (main w c f))) /\ open_obs w name = Ok b /\ h_interval (b_hdr b) = Some iv0 /\
      Forall2 (fun tq row => row_text (c_format c) (strftime (w_strftime w) (c_dtformat c)) iv0 (fst tq) (snd tq) = Ok row) (rows_of sat ops) rows.
Proof.
  intros Hs Hlog' Hr' Hpost'. destruct (main_fewer f f' Hs) as [Hs' Hl]. destruct (files_split2 _ _ _ _ _ _ Hl Hlog') as [pre [ops [post [Hlog [Ho Hp]]]]].
  assert (Hleft : left_out (rows_of sat ops) (rows_of sat ops')).
  { rewrite <- (rows_of_kept sat ops), <- (rows_of_kept sat ops'). exact (rows_of_left sat _ _ Ho). }
  assert (Hr : rows_of sat ops <> []) by (intros E; rewrite E in Hleft; exact (Hr' (left_nil _ Hleft))).
  assert (Hpost : forall name' os, In (name', os) post -> rows_of sat os <> [] -> marker_of name' <> marker_of name \/ get_rinex_date name' <> get_rinex_date name).
  { clear -Hp Hpost'. induction Hp as [|x y l l' [Hx1 Hx2] Hl IH]; [intros ? ? []|]. intros nm os [E|Hin] Hne.
    - subst x. destruct y as [ny oy]. cbn [fst snd] in *. subst ny. exact (Hpost' nm oy (or_introl eq_refl)).
    - exact (IH (fun n a Ha => Hpost' n a (or_intror Ha)) nm os Hin Hne). }
  destruct (run_files w c f pre name ops post sat Hs Hlog Hr Hpost) as [b [iv1 [d [content [B1 [B2 [B3 [B4 [h [rs [B5 [B6 B7]]]]]]]]]]]].
  destruct (run_files w c' f' pre' name ops' post' sat Hs' Hlog' Hr' (fun n o Hn _ => Hpost' n o Hn)) as [b' [iv' [d' [content' [C1 [C2 [C3 [C4 [h' [rs' [C5 [C6 C7]]]]]]]]]]]].
  rewrite B3 in C3. injection C3 as <-. rewrite B1 in C1. injection C1 as <-. rewrite B2 in C2. injection C2 as <-.
  exists d, h, h', rs, rs'. split; [exact B3|]. split; [exact B6|]. split; [exact C6|]. split.
  { refine (left_texts _ _ _ _ Hleft _ _ B7 C7). cbv beta. intros x u v H1 H2. congruence. }
  split.
  { intros ->. inversion C7 as [E|]. apply Hr'. symmetry. assumption. }
  split; [rewrite B4, B5; reflexivity|]. split; [change (c_outdir c) with (c_outdir c'); rewrite C4, C5; reflexivity|].
  exists ops, b, iv1. split; [rewrite Hlog; apply in_or_app; right; left; reflexivity|]. split; [exact B1|]. split; [exact B2|exact B7].
Qed.
End Sample.
