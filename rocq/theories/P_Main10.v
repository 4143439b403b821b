(** The run: consequences stated for the properties. *)
From Coq Require Import ZifyBool ZifyNat.
From Verif Require Import Base PyStr PyFloat PyDate PyPath PyRegex S_Text S_Time S_Open2 M_Common M_Header M_Obs2 M_Obs3 M_Rec M_Text M_Cfg M_Label M_Names M_Xyz M_Nav M_NmUtils M_Num M_Tec M_Sat M_Main S_Main S_Fresh S_Out P_Str P_Date P_Nav P_Out P_Main1 P_Main2 P_Main3 P_Main4 P_Main5 P_Main6 P_Main7 P_Main8 P_Main9.
Open Scope nat_scope.

Section Props.
Variable (w : world) (c : cfg).

(** the day and the system of a row *)
Lemma row_day f name ops : written w c f name ops -> forall sat sd nav t q, In (WRow sat sd nav t q) ops ->
  get_rinex_date name = Some (dt_date t) /\ exists sys digits, sat = sys :: digits /\ In sys systems.
Proof.
  intros Hw sat sd nav t q Hin. destruct (rows_fresh w c f name ops Hw _ _ _ _ _ Hin) as [b [s [xyzs [Ho [Hs [Hu [_ Hr]]]]]]].
  destruct Hr as [t' [sys' [n' [site [lbh [pos [el [az [sd' [nav' [q' [Hi [E _]]]]]]]]]]]]]. injection E as -> -> -> -> ->.
  destruct Hu as [t2 [sys2 [n2 [Hi2 [Hin2 Hd]]]]]. destruct (identifies_fun _ _ _ _ _ _ _ Hi Hi2) as [<- [<- <-]].
  rewrite (open_date w name b Ho) in Hd. split; [exact Hd|]. destruct Hi as [_ [dg [E _]]]. exists sys', dg. auto.
Qed.
Lemma no_day f name ops : written w c f name ops -> get_rinex_date name = None -> rows_only ops = [].
Proof.
  intros Hw Hn. destruct (rows_only ops) as [|op r] eqn:E; [reflexivity|]. exfalso.
  assert (Hin : In op (rows_only ops)) by (rewrite E; now left). apply rows_only_in in Hin. destruct Hin as [Hin Hr].
  destruct op as [|sat sd nav t q]; [discriminate|]. destruct (row_day f name ops Hw _ _ _ _ _ Hin) as [H _]. congruence.
Qed.
(** the site of a row *)
Lemma row_site f name ops : written w c f name ops -> forall sat sd nav t q, In (WRow sat sd nav t q) ops ->
  exists b s xyzs site lbh, open_obs w name = Ok b /\ In s (b_steps b) /\ s_sat s = sat /\ s_epoch s = Some t /\ coordinates w c name xyzs /\
    site_of xyzs s t site /\ geodetic w site lbh /\ shows_site q site lbh /\
    (exists sys n pos el az, identifies s t sys n /\ shows_sat q pos el az /\
      (el = fzero /\ az = fzero /\ ~ (exists p, located w c t sys n p) \/
       located w c t sys n pos /\ compute_el_az (Fops (w_libm w)) (w_fuel w) site pos = Ok (el, az))).
Proof.
  intros Hw sat sd nav t q Hin. destruct (rows_fresh w c f name ops Hw _ _ _ _ _ Hin) as [b [s [xyzs [Ho [Hs [_ [Hx Hr]]]]]]].
  destruct Hr as [t' [sys [n [site [lbh [pos [el [az [sd' [nav' [q' [Hi [E [H1 [H2 [H3 [H4 [H5 _]]]]]]]]]]]]]]]]]]. injection E as -> -> -> -> ->.
  exists b, s, xyzs, site, lbh. split; [exact Ho|]. split; [exact Hs|]. split; [reflexivity|]. split; [exact (proj1 Hi)|]. split; [exact Hx|].
  split; [exact H1|]. split; [exact H2|]. split; [exact H3|]. exists sys, n, pos, el, az. split; [exact Hi|]. split; [exact H5|].
  destruct H4 as [[Hl [Hc _]]|[_ [_ [Hu [_ [-> ->]]]]]]; [right; auto|]. left. split; [reflexivity|]. split; [reflexivity|].
  intros [p [dt [eph [He Hm]]]]. destruct Hu as [Hu|[dt' [eph' [e [He' [Hm' _]]]]]].
  - pose proof (ephemeris_fun w c _ _ _ _ _ He Hu). discriminate.
  - pose proof (ephemeris_fun w c _ _ _ _ _ He He') as X. injection X as <- <-. rewrite Hm in Hm'. discriminate.
Qed.
(** a file that cannot be opened among others *)
Lemma skip_file f names1 name names2 : sort_str (find_files (w_ls w) (c_obsdir c) RE_OBS) = names1 ++ name :: names2 ->
  (open_obs w name = Err RinexError \/ open_obs w name = Err UncompressError) ->
  let without := files_loop w c no_caches f (names1 ++ names2) in
  fst (fst (main w c f)) = fst (fst without) /\ stopped_by w c f = snd without /\
  (forall nm ops, ops <> [] -> written w c f nm ops <-> In (nm, ops) (snd (fst without))).
Proof.
  intros Hn Ho. cbv zeta. unfold stopped_by, written.
  assert (Hm : main w c f = files_loop w c no_caches f (names1 ++ name :: names2)).
  { unfold main. rewrite Hn. destruct (names1 ++ name :: names2) eqn:E; [destruct names1; discriminate|reflexivity]. }
  rewrite Hm. destruct (files_skip w c names1 name names2 Ho no_caches f) as [H1 [H2 [a [b [H3 H4]]]]].
  split; [exact H1|]. split; [exact H2|]. intros nm ops Hne. rewrite H3. destruct H4 as [-> |[_ ->]]; [|reflexivity].
  rewrite !in_app_iff. cbn [In]. split; [intros [H|[H|H]]; [now left|injection H as _ <-; contradiction|now right]|intros [H|H]; [now left|right; now right]].
Qed.
End Props.
