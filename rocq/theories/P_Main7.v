(** The run: the sampling interval, and statements about whole runs. *)
From Coq Require Import Reals Lra ZifyBool ZifyNat.
From Flocq Require Import Core IEEE754.Binary.
From Verif Require Import Base PyStr PyFloat PyDate PyPath S_Text S_Time S_Open2 M_Common M_Header M_Obs2 M_Obs3 M_Rec M_Text M_Cfg M_Label M_Names M_Xyz M_Nav M_NmUtils M_Num M_Tec M_Sat M_Main S_Main S_Fresh P_Str P_Float P_Date P_Open2 P_Open2b P_Prop2 P_Div P_Nav P_Out P_Main1 P_Main2 P_Main3 P_Main4 P_Main5 P_Main6.
Open Scope nat_scope.

Lemma seconds_lt d iv x : (Z.abs d < span)%Z -> (Z.abs iv < span)%Z -> seconds d x -> fltb x (total_seconds iv) = (d <? iv)%Z.
Proof.
  intros Hd Hi Hx. pose proof (total_seconds_nearest iv (span_big iv Hi)) as Hy. pose proof (nearest_good _ _ Hx) as Gx. pose proof (nearest_good _ _ Hy) as Gy.
  rewrite fltb_correct by assumption. pose proof (seconds_near d x Hd Hx) as Nx. pose proof (seconds_near iv _ Hi Hy) as Ny.
  apply Rabs_le_inv in Nx. apply Rabs_le_inv in Ny. unfold Rdiv in *. assert (H6 : (10 ^ 6 = 1000000)%R) by ring. rewrite H6 in *.
  destruct (Z.ltb_spec d iv) as [Hlt|Hge].
  - assert (IZR d + 1 <= IZR iv)%R by (rewrite <- plus_IZR; apply IZR_le; lia). apply Rlt_bool_true. lra.
  - apply Rlt_bool_false. destruct (Z.eq_dec d iv) as [->|Hne].
    + destruct Hx as [_ [_ Ex]], Hy as [_ [_ Ey]]. rewrite Ex, Ey. apply Rle_refl.
    + assert (IZR iv + 1 <= IZR d)%R by (rewrite <- plus_IZR; apply IZR_le; lia). lra.
Qed.
Lemma int_seconds n : (Z.abs (n * 1000000) < span)%Z -> seconds (n * 1000000) (float_of_Z n).
Proof.
  intros H. assert (Hn : (Z.abs n <= 2 ^ 1000)%Z). { apply Z.le_trans with (2 ^ 52)%Z; [unfold span in H; lia|apply Z.pow_le_mono_r; lia]. }
  unfold seconds, float_of_Z. replace (n * 1000000 <? 0)%Z with (n <? 0)%Z by lia. replace (Z.abs (n * 1000000)) with (Z.abs n * 1000000)%Z by lia.
  assert (E : dec_real (n <? 0)%Z (Z.abs n * 1000000) 6 = dec_real (n <? 0)%Z (Z.abs n) 0).
  { unfold dec_real. rewrite mult_IZR. cbn [pow]. destruct (n <? 0)%Z; field. }
  rewrite E. apply (b64_of_dec_nearest (n <? 0)%Z (Z.abs n) 0). split; [lia|exact Hn].
Qed.

Section Runs.
Variable (w : world) (c : cfg).

Lemma sampling_compare b d iv : interval_is b d -> c_sampling c = Some iv -> iv <> 0%Z -> (Z.abs iv < 2 ^ 52)%Z ->
  sampling_of c b = Ok (if (d <? iv)%Z then Some iv else None).
Proof.
  intros [Hd Hi] Hc Hn Hiv. unfold sampling_of. rewrite Hc. destruct (Z.eqb_spec iv 0); [contradiction|].
  destruct Hi as [[n0 [-> ->]]|[x [-> Hx]]].
  - rewrite (seconds_lt (n0 * 1000000) iv _ Hd Hiv (int_seconds n0 Hd)). reflexivity.
  - rewrite (seconds_lt d iv _ Hd Hiv Hx). reflexivity.
Qed.
Lemma keeps_sampling b : keeps_all c b -> sampling_of c b = Ok None.
Proof.
  intros [H|[H|[iv [d [H [Hb [Hi Hle]]]]]]]; [unfold sampling_of; now rewrite H|unfold sampling_of; now rewrite H|].
  destruct (Z.eq_dec iv 0) as [->|Hn]; [unfold sampling_of; now rewrite H|].
  rewrite (sampling_compare b d iv Hi H Hn Hb). destruct (Z.ltb_spec d iv); [lia|reflexivity].
Qed.
Lemma thins_sampling b iv : thins c b iv -> sampling_of c b = Ok (Some iv).
Proof.
  intros [H [Hn [Hb [d [Hi Hlt]]]]]. rewrite (sampling_compare b d iv Hi H Hn Hb). destruct (Z.ltb_spec d iv); [reflexivity|lia].
Qed.
(** which records are used is determined, for every file with an interval *)
Lemma used_exists b d : Forall dated (b_steps b) -> interval_is b d -> match c_sampling c with Some iv => (Z.abs iv < 2 ^ 52)%Z | None => True end ->
  exists kept, used c b kept.
Proof.
  intros Hd Hi Hc. destruct (c_sampling c) as [iv|] eqn:Ec.
  - destruct (Z.eq_dec iv 0) as [->|Hn]; [exists (b_steps b); left; split; [right; left; exact Ec|reflexivity]|].
    destruct (Z.ltb_spec d iv) as [Hlt|Hge].
    + destruct (thin_loop w c b [] iv (b_steps b) Hd None I) as [kept [Hk _]]. exists kept. right. exists iv. split; [|exact Hk].
      split; [exact Ec|]. split; [exact Hn|]. split; [exact Hc|]. exists d. split; [exact Hi|exact Hlt].
    + exists (b_steps b). left. split; [right; right; exists iv, d; auto|reflexivity].
  - exists (b_steps b). left. split; [left; exact Ec|reflexivity].
Qed.
Lemma used_unique b kept kept' : used c b kept -> used c b kept' -> kept = kept'.
Proof.
  intros [[H1 ->]|[iv [H1 Ht]]] [[H2 ->]|[iv' [H2 Ht']]].
  - reflexivity.
  - apply keeps_sampling in H1. apply thins_sampling in H2. rewrite H1 in H2. discriminate.
  - apply keeps_sampling in H2. apply thins_sampling in H1. rewrite H1 in H2. discriminate.
  - destruct H1 as [E1 _], H2 as [E2 _]. rewrite E1 in E2. injection E2 as <-. exact (thinned_unique _ _ _ _ _ Ht _ Ht').
Qed.

(** a file of which something was written *)
Lemma written_parts f name ops b : written w c f name ops -> open_obs w name = Ok b -> ops <> [] ->
  exists k xyzs si l pos st os k' st' e, good w c k /\ l_nav l = [] /\ geodetic w (l_xyz l) (l_lbh l) /\ coordinates w c name xyzs /\
    sampling_of c b = Ok si /\ ops = pos :: os /\ (forall sat sd nav t q, pos <> WRow sat sd nav t q) /\
    record_loop w c b xyzs si None k l st (b_steps b) = (k', st', os, e) /\ (stopped_by w c f = None -> e = None).
Proof.
  intros Hw Ho Hne.
  assert (exists k1 f1 k2 f2 e, good w c k1 /\ file_step w c k1 f1 name = (k2, f2, ops, e) /\ (stopped_by w c f = None -> e = None)) as H.
  { destruct (stopped_by w c f) as [x|] eqn:Es.
    - destruct (written_file w c f name ops Hw) as [k1 [f1 [k2 [f2 [e [G H]]]]]]. exists k1, f1, k2, f2, e. split; [exact G|]. split; [exact H|]. discriminate.
    - destruct (written_done w c f name ops Hw Es) as [k1 [f1 [k2 [f2 [G H]]]]]. exists k1, f1, k2, f2, None. auto. }
  destruct H as [k1 [f1 [k2 [f2 [e [G [H Hs]]]]]]].
  destruct (file_step_parts w c k1 f1 name k2 f2 ops e Hne H) as [b' [xyzs [si [l [iv [pos [st [os [st' [Ho' [Hst [Hops Hl]]]]]]]]]]]].
  rewrite Ho in Ho'. injection Ho' as <-. destruct (file_start_spec w c b xyzs si l iv pos Hst) as [H1 [H2 [H3 [H4 [H5 [H6 [t0 [ts [H7 H8]]]]]]]]].
  exists k1, xyzs, si, l, pos, st, os, k2, st', e. split; [exact G|]. split; [exact H1|]. split; [exact H2|].
  assert (Hn : b_name b = name).
  { revert Ho. unfold open_obs. destruct (expand_plan name); cbn [bind]; [|discriminate]. cbv zeta. destruct (w_content w name); cbn [bind]; [|discriminate]. destruct (obs_class _) as [v|]; cbn [bind]; [|discriminate].
    destruct (ver_lt3 v); [destruct (open2 _ _) as [r|]|destruct (open3 _ _ _) as [r|]]; cbn [bind]; try discriminate;
      [destruct (records2 v r) as [[ys ge] o]|destruct (records3 v r) as [[ys ge] o]]; intros E; injection E as <-; reflexivity. }
  rewrite Hn in H4. split; [exact H4|]. split; [exact H5|]. split; [exact Hops|]. split; [intros; rewrite H8; discriminate|]. auto.
Qed.
Lemma open_date name b : open_obs w name = Ok b -> b_date b = get_rinex_date name.
Proof.
  unfold open_obs. destruct (expand_plan name); cbn [bind]; [|discriminate]. cbv zeta. destruct (w_content w name); cbn [bind]; [|discriminate]. destruct (obs_class _) as [v|]; cbn [bind]; [|discriminate].
  destruct (ver_lt3 v); [destruct (open2 _ _) as [r|]|destruct (open3 _ _ _) as [r|]]; cbn [bind]; try discriminate;
    [destruct (records2 v r) as [[ys ge] o]|destruct (records3 v r) as [[ys ge] o]]; intros E; injection E as <-; reflexivity.
Qed.

Lemma record_loop_last b xyzs steps : forall last last2 k l st,
  record_loop w c b xyzs None last k l st steps = record_loop w c b xyzs None last2 k l st steps.
Proof.
  induction steps as [|s r IH]; intros last last2 k l st; cbn [record_loop]; [reflexivity|].
  destruct (record_ident s) as [[[t sys] n]|e]; [|reflexivity].
  assert (Ha : forall x, accept (b_date b) None x t sys = if supports sys then match b_date b with Some d => if date_eqb (dt_date t) d then Some x else None | None => None end else None).
  { intros x. unfold accept. destruct (supports sys); [|reflexivity]. cbn [negb]. destruct (b_date b); [|reflexivity]. destruct (date_eqb _ _); reflexivity. }
  rewrite (Ha last), (Ha last2). destruct (supports sys); [|apply IH]. destruct (b_date b) as [d|]; [|apply IH]. destruct (date_eqb (dt_date t) d); [|apply IH].
  destruct (record_body _ _ _ _ _ _ _ _ _ _) as [[[k' l'] os]|e]; [|reflexivity]. destruct (do_ops _ _ _) as [st'|e]; [|reflexivity].
  rewrite (IH last last2). reflexivity.
Qed.
(** the records used, as the loop sees them *)
Lemma used_loop b xyzs si kept last k l st : Forall dated (b_steps b) -> sampling_of c b = Ok si -> used c b kept ->
  record_loop w c b xyzs si None k l st (b_steps b) = record_loop w c b xyzs None last k l st kept.
Proof.
  intros Hd Hs [[H ->]|[iv [H Ht]]].
  - rewrite (keeps_sampling b H) in Hs. injection Hs as <-. apply record_loop_last.
  - rewrite (thins_sampling b iv H) in Hs. injection Hs as <-. destruct (thin_loop w c b xyzs iv (b_steps b) Hd None I) as [kept' [Hk Hl]].
    rewrite (thinned_unique _ _ _ _ _ Ht _ Hk). apply Hl.
Qed.

(** every row is of a record that is used *)
Lemma rows_used f name ops b kept : written w c f name ops -> open_obs w name = Ok b -> used c b kept ->
  forall sat sd nav t q, In (WRow sat sd nav t q) ops ->
  exists s xyzs, In s kept /\ usable (b_date b) s /\ coordinates w c name xyzs /\ row_for w c xyzs s (WRow sat sd nav t q).
Proof.
  intros Hw Ho Hu sat sd nav t q Hin. assert (Hne : ops <> []) by (intros ->; contradiction).
  destruct (written_parts f name ops b Hw Ho Hne) as [k [xyzs [si [l [pos [st [os [k' [st' [e [G [Hl [Hg [Hx [Hs [-> [Hp [Hr _]]]]]]]]]]]]]]]]]].
  rewrite (used_loop b xyzs si kept None k l st (open_obs_dated w name b Ho) Hs Hu) in Hr.
  destruct Hin as [E|Hin]; [exfalso; exact (Hp _ _ _ _ _ E)|].
  destruct (loop_spec w c b xyzs None kept None k l st k' st' os e G (fun day _ => loc_nil w c day k l Hl) Hg Hr) as [_ H].
  destruct (H _ Hin) as [s [Hi [Hus [[t' [p [q' [E _]]]]|Hrow]]]]; [discriminate|]. exists s, xyzs. auto.
Qed.
(** the rows of a run, without reference to the sampling *)
Lemma rows_fresh f name ops : written w c f name ops -> forall sat sd nav t q, In (WRow sat sd nav t q) ops ->
  exists b s xyzs, open_obs w name = Ok b /\ In s (b_steps b) /\ usable (b_date b) s /\ coordinates w c name xyzs /\
    row_for w c xyzs s (WRow sat sd nav t q).
Proof.
  intros Hw sat sd nav t q Hin. destruct (written_file w c f name ops Hw) as [k1 [f1 [k2 [f2 [e [G H]]]]]].
  destruct (file_step_spec w c k1 f1 name k2 f2 ops e G H) as [_ Hs].
  assert (Hne : ops <> []) by (intros ->; contradiction).
  destruct (Hs _ Hin) as [b [xyzs [Ho [_ Hcase]]]].
  destruct (written_parts f name ops b Hw Ho Hne) as [k [xyzs' [si [l [pos [st [os [k' [st' [e' [G' [Hl [Hg [Hx [_ [-> [Hp [Hr _]]]]]]]]]]]]]]]]]].
  destruct Hin as [E|Hin]; [exfalso; exact (Hp _ _ _ _ _ E)|].
  destruct (loop_spec w c b xyzs' si (b_steps b) None k l st k' st' os e' G' (fun day _ => loc_nil w c day k l Hl) Hg Hr) as [_ H'].
  destruct (H' _ Hin) as [s [Hi [Hus [[t' [p [q' [E _]]]]|Hrow]]]]; [discriminate|]. exists b, s, xyzs'. auto.
Qed.
(** every record used is written, or skipped for a reason *)
Lemma rows_complete f name ops b kept before s after t sys n : written w c f name ops -> ops <> [] -> stopped_by w c f = None ->
  open_obs w name = Ok b -> used c b kept -> kept = before ++ s :: after -> identifies s t sys n -> usable (b_date b) s ->
  exists xyzs, coordinates w c name xyzs /\
    ((exists op, In op ops /\ row_for w c xyzs s op) \/ skipped w c xyzs (b_date b) before s t sys n).
Proof.
  intros Hw Hne Hst Ho Hu -> Hi Hus.
  destruct (written_parts f name ops b Hw Ho Hne) as [k [xyzs [si [l [pos [st [os [k' [st' [e [G [Hl [Hg [Hx [Hs [-> [Hp [Hr He]]]]]]]]]]]]]]]]]].
  rewrite (He Hst) in Hr. rewrite (used_loop b xyzs si _ None k l st (open_obs_dated w name b Ho) Hs Hu) in Hr.
  exists xyzs. split; [exact Hx|].
  destruct (loop_complete w c b xyzs s after t sys n Hi Hus before [] None k l st k' st' os G (fun day _ => loc_nil w c day k l Hl) Hg) as [[op [H1 H2]]|H].
  - intros s' [].
  - exact Hr.
  - left. exists op. split; [right; exact H1|exact H2].
  - right. exact H.
Qed.
(** rows below each other *)
Lemma rows_spaced f name ops b iv : written w c f name ops -> open_obs w name = Ok b -> thins c b iv -> (0 <= iv)%Z ->
  forall s1 d1 n1 t1 q1 s2 d2 n2 t2 q2, above (WRow s1 d1 n1 t1 q1) (WRow s2 d2 n2 t2 q2) ops -> t1 = t2 \/ (instant t1 + iv <= instant t2)%Z.
Proof.
  intros Hw Ho Ht Hiv s1 d1 n1 t1 q1 s2 d2 n2 t2 q2 Ha.
  assert (Hne : ops <> []). { intros ->. destruct Ha as [x [y [z E]]]. destruct x; discriminate. }
  destruct (written_parts f name ops b Hw Ho Hne) as [k [xyzs [si [l [pos [st [os [k' [st' [e [G [Hl [Hg [Hx [Hs [-> [Hp [Hr He]]]]]]]]]]]]]]]]]].
  rewrite (thins_sampling b iv Ht) in Hs. injection Hs as <-.
  destruct (loop_spaced w c b xyzs iv (b_steps b) Hiv (open_obs_dated w name b Ho) None k l st k' st' os e I Hr) as [_ H].
  destruct Ha as [x [y [z E]]]. destruct x as [|h x]; cbn [app] in E.
  - injection E as E _. exfalso. exact (Hp _ _ _ _ _ E).
  - injection E as _ E. eapply H. exists x, y, z. exact E.
Qed.

(** ** navigation data are determined *)
Lemma nav_data_fun t sys d d' : nav_data w c t sys d -> nav_data w c t sys d' -> d = d'.
Proof.
  intros H H'. destruct H as [f m sats E1 E2|e E1 He]; destruct H' as [f' m' sats' E1' E2'|e' E1' He'].
  - rewrite E1 in E1'. injection E1' as <- <-. rewrite E2 in E2'. injection E2' as <-. reflexivity.
  - rewrite E1 in E1'. discriminate.
  - rewrite E1 in E1'. discriminate.
  - reflexivity.
Qed.
Lemma ephemeris_fun t sys n e e' : ephemeris w c t sys n e -> ephemeris w c t sys n e' -> e = e'.
Proof.
  intros H H'. destruct H as [H|f sats e H E]; destruct H' as [H'|f' sats' e' H' E'].
  - reflexivity.
  - pose proof (nav_data_fun _ _ _ _ H H'). discriminate.
  - pose proof (nav_data_fun _ _ _ _ H H'). discriminate.
  - pose proof (nav_data_fun _ _ _ _ H H') as X. injection X as <- <-. rewrite E in E'. now injection E'.
Qed.
Lemma identifies_fun s t sys n t' sys' n' : identifies s t sys n -> identifies s t' sys' n' -> t = t' /\ sys = sys' /\ n = n'.
Proof. intros H H'. apply ident_iff in H, H'. rewrite H in H'. injection H' as <- <- <-. auto. Qed.
(** a row of a satellite without ephemeris *)
Lemma absent_row f name ops : written w c f name ops -> forall sys digits n sd nav t q, In (WRow (sys :: digits) sd nav t q) ops -> py_int digits = Ok n ->
  unlocated w c t sys n -> c_ignore c = true /\ sys <> "R"%char /\ shows_sat q origin fzero fzero.
Proof.
  intros Hw sys digits n sd nav t q Hin Hn Hun. destruct (rows_fresh f name ops Hw _ _ _ _ _ Hin) as [b [s [xyzs [_ [_ [_ [_ Hrow]]]]]]].
  destruct Hrow as [t' [sys' [n' [site [lbh [pos [el [az [sd' [nav' [q' [Hi [E [_ [_ [_ [Hsee [Hsat _]]]]]]]]]]]]]]]]]].
  injection E as E1 -> -> -> ->. destruct Hi as [He [dg [Es Hd]]]. rewrite Es in E1. injection E1 as <- <-. rewrite Hn in Hd. injection Hd as <-.
  destruct Hsee as [[[dt [eph [Hl _]]] _]|[H1 [H2 [_ [-> [-> ->]]]]]].
  - pose proof (ephemeris_fun _ _ _ _ _ Hl Hun). discriminate.
  - auto.
Qed.
(** a record of a satellite without ephemeris, when the absence is to be ignored *)
Lemma absent_kept f name ops b kept before s after t sys n : written w c f name ops -> ops <> [] -> stopped_by w c f = None ->
  open_obs w name = Ok b -> used c b kept -> kept = before ++ s :: after -> identifies s t sys n -> usable (b_date b) s ->
  unlocated w c t sys n -> c_ignore c = true -> sys <> "R"%char ->
  (exists sd nav q, In (WRow (s_sat s) sd nav t q) ops /\ shows_sat q origin fzero fzero) \/
  (nav_data w c t sys None /\ forall s', In s' before -> usable (b_date b) s' -> hd_error (s_sat s') <> Some sys) \/
  (exists types, s_types s sys = Ok types /\ record_validity types (s_rec s) = Err LabelError).
Proof.
  intros Hw Hne Hst Ho Hu Hk Hi Hus Hun Hig Hr.
  destruct (rows_complete f name ops b kept before s after t sys n Hw Hne Hst Ho Hu Hk Hi Hus) as [xyzs [_ [[op [Hin Hrow]]|Hsk]]].
  - left. destruct Hrow as [t' [sys' [n' [site [lbh [pos [el [az [sd' [nav' [q' [Hi' [-> _]]]]]]]]]]]]].
    destruct (identifies_fun _ _ _ _ _ _ _ Hi Hi') as [<- [<- <-]]. exists sd', nav', q'. split; [exact Hin|].
    destruct Hi as [_ [dg [Es Hd]]]. rewrite Es in Hin. exact (proj2 (proj2 (absent_row f name ops Hw _ _ _ _ _ _ _ Hin Hd Hun))).
  - right. destruct Hsk as [H1 H2|H1 [H2|H2]|[dt [eph [e [H1 _]]]]|site pos el az [dt [eph [H1 _]]]|site pos e [dt [eph [H1 _]]]|types H1 H2].
    + left. auto.
    + congruence.
    + contradiction.
    + pose proof (ephemeris_fun _ _ _ _ _ H1 Hun). discriminate.
    + pose proof (ephemeris_fun _ _ _ _ _ H1 Hun). discriminate.
    + pose proof (ephemeris_fun _ _ _ _ _ H1 Hun). discriminate.
    + right. eauto.
Qed.
(** ** files that cannot be opened *)
Lemma files_skip names1 name names2 : (open_obs w name = Err RinexError \/ open_obs w name = Err UncompressError) -> forall k f,
  fst (fst (files_loop w c k f (names1 ++ name :: names2))) = fst (fst (files_loop w c k f (names1 ++ names2))) /\
  snd (files_loop w c k f (names1 ++ name :: names2)) = snd (files_loop w c k f (names1 ++ names2)) /\
  (exists a b, snd (fst (files_loop w c k f (names1 ++ names2))) = a ++ b /\
    (snd (fst (files_loop w c k f (names1 ++ name :: names2))) = a ++ (name, []) :: b \/
     snd (files_loop w c k f (names1 ++ names2)) <> None /\ snd (fst (files_loop w c k f (names1 ++ name :: names2))) = a ++ b)).
Proof.
  intros Ho. induction names1 as [|nm r IH]; intros k f.
  - cbn [app files_loop].
    assert (E : file_step w c k f name = (k, f, [], None)) by (unfold file_step; destruct Ho as [-> | ->]; reflexivity).
    rewrite E. destruct (files_loop w c k f names2) as [[f2 log] e]. cbn [fst snd]. split; [reflexivity|]. split; [reflexivity|].
    exists [], log. split; [reflexivity|]. left. reflexivity.
  - cbn [app files_loop]. destruct (file_step w c k f nm) as [[[k' f'] os] [e|]].
    + split; [reflexivity|]. split; [reflexivity|]. cbn [fst snd]. exists [(nm, os)], []. split; [reflexivity|]. right. split; [discriminate|reflexivity].
    + specialize (IH k' f'). destruct (files_loop w c k' f' (r ++ name :: names2)) as [[f1 l1] e1]. destruct (files_loop w c k' f' (r ++ names2)) as [[f2 l2] e2].
      cbn [fst snd] in *. destruct IH as [-> [-> [a [b [-> [->|[H ->]]]]]]]; (split; [reflexivity|]; split; [reflexivity|]).
      * exists ((nm, os) :: a), b. split; [reflexivity|]. left. reflexivity.
      * exists ((nm, os) :: a), b. split; [reflexivity|]. right. split; [exact H|reflexivity].
Qed.
End Runs.
