(** The run: the files after a run hold the rows of the run. *)
From Coq Require Import ZifyBool ZifyNat.
From Verif Require Import Base PyStr PyFloat PyDate PyPath PyRegex S_Text S_Time S_Open2 M_Common M_Header M_Obs2 M_Obs3 M_Rec M_Text M_Cfg M_Label M_Names M_Xyz M_Nav M_NmUtils M_Num M_Tec M_Sat M_Main S_Main S_Fresh S_Out P_Str P_Date P_Nav P_Out P_Main1 P_Main2 P_Main3 P_Main4 P_Main5 P_Main6 P_Main7.
Open Scope nat_scope.

(** satellite names with a number have no slash *)
Lemma lstrip_keep c s : is_space c = false -> In c s -> In c (lstrip s).
Proof.
  intros Hc. induction s as [|a s IH]; [intros []|]. cbn [lstrip]. destruct (is_space a) eqn:Ha; [|auto].
  intros [->|H]; [congruence|auto].
Qed.
Lemma rstrip_keep c s : is_space c = false -> In c s -> In c (rstrip s).
Proof.
  intros Hc Hin. destruct (rstrip_decomp s) as [x [E Hw]]. rewrite E in Hin. apply in_app_or in Hin. destruct Hin as [H|H]; [exact H|].
  apply Forall_forall with (x := c) in Hw; [|exact H]. congruence.
Qed.
Lemma drop_keep c : c <> "_"%char -> forall s prev t, drop_underscores prev s = Some t -> In c s -> In c t.
Proof.
  intros Hc s. induction s as [|a s IH]; intros prev t; cbn [drop_underscores]; [intros _ []|].
  destruct (ceqb a "_") eqn:Ea.
  - apply ceqb_eq in Ea. subst a. destruct s as [|d s']; [discriminate|]. destruct (prev && is_digit d); [|discriminate].
    intros H [E|Hin]; [congruence|]. exact (IH _ _ H Hin).
  - destruct (drop_underscores (is_digit a) s) as [r|] eqn:E; [|discriminate]. intros H [Eq|Hin]; injection H as <-; [left; exact Eq|right; exact (IH _ _ E Hin)].
Qed.
Lemma int_no_slash s n : py_int s = Ok n -> no_slash s.
Proof.
  unfold py_int, py_int_opt, no_slash. intros H Hin.
  assert (Hs : In "/"%char (strip s)) by (unfold strip; apply rstrip_keep; [reflexivity|]; apply lstrip_keep; [reflexivity|exact Hin]).
  destruct (drop_underscores false (strip s)) as [t|] eqn:E; [|discriminate].
  apply (drop_keep "/"%char ltac:(discriminate) _ _ _ E) in Hs. destruct (take_sign t) as [neg d] eqn:Et.
  assert (Hd : In "/"%char d).
  { destruct t as [|a t]; cbn in Et; [injection Et as _ <-; exact Hs|]. destruct (ceqb a "-") eqn:E1.
    - apply ceqb_eq in E1. subst a. injection Et as _ <-. destruct Hs as [X|X]; [discriminate|exact X].
    - destruct (ceqb a "+") eqn:E2; injection Et as _ <-; [|exact Hs]. apply ceqb_eq in E2. subst a. destruct Hs as [X|X]; [discriminate|exact X]. }
  destruct d as [|d0 d']; [contradiction|]. destruct (all_digits (d0 :: d')) eqn:Ea; [|discriminate].
  unfold all_digits in Ea. rewrite forallb_forall in Ea. specialize (Ea _ Hd). discriminate.
Qed.

(** the calls done one after the other *)
Lemma do_ops_app c os1 : forall st os2, do_ops c st (os1 ++ os2) = do st' <- do_ops c st os1; do_ops c st' os2.
Proof. induction os1 as [|o r IH]; intros st os2; cbn [app do_ops bind]; [reflexivity|]. destruct (do_op c st o); cbn [bind]; [apply IH|reflexivity]. Qed.

Lemma write_files_app c js1 : forall f js2, write_files c f (js1 ++ js2) = do f' <- write_files c f js1; write_files c f' js2.
Proof. induction js1 as [|[[n iv] os] r IH]; intros f js2; cbn [app write_files bind]; [reflexivity|]. destruct (write_file c f n iv os); cbn [bind]; [apply IH|reflexivity]. Qed.

Section Files.
Variable (w : world) (c : cfg).

Lemma loop_ops b xyzs si steps : forall last k l st k' st' os, record_loop w c b xyzs si last k l st steps = (k', st', os, None) ->
  do_ops (out_of w c) st os = Ok st'.
Proof.
  induction steps as [|s r IH]; intros last k l st k' st' os; cbn [record_loop].
  { intros H. injection H as _ <- <- _. reflexivity. }
  destruct (record_ident s) as [[[t sys] n]|e]; [|discriminate]. destruct (accept _ _ _ _ _) as [last'|]; [|apply IH].
  destruct (record_body _ _ _ _ _ _ _ _ _ _) as [[[k1 l1] ops]|e]; [|discriminate]. destruct (do_ops _ _ ops) as [st1|e] eqn:Ed; [|discriminate].
  destruct (record_loop _ _ _ _ _ _ _ _ _ r) as [[[k2 st2] os2] e2] eqn:Er. intros H. injection H as _ <- <- ->.
  rewrite do_ops_app, Ed. cbn [bind]. exact (IH _ _ _ _ _ _ _ Er).
Qed.
(** what one file leaves *)
Definition job_of (name : str) (ops : list wop) (iv : pynum) : Prop :=
  ops = [] \/ exists b, open_obs w name = Ok b /\ h_interval (b_hdr b) = Some iv.
Lemma file_ops k f name k' f' ops : file_step w c k f name = (k', f', ops, None) ->
  exists iv, job_of name ops iv /\ write_file (out_of w c) f name iv ops = Ok f'.
Proof.
  unfold file_step. intros H.
  assert (Hn : (k, f, @nil wop, @None exn) = (k', f', ops, None) -> exists iv, job_of name ops iv /\ write_file (out_of w c) f name iv ops = Ok f').
  { intros E. injection E as _ <- <-. exists (PInt 0). split; [now left|reflexivity]. }
  destruct (open_obs w name) as [b|e] eqn:Eo; [|destruct e; try discriminate; exact (Hn H)].
  destruct (file_start w c b) as [[[[[[xyzs si] l] iv] pos]|]|e] eqn:Es; [|exact (Hn H)|discriminate].
  destruct (file_start_spec w c b xyzs si l iv pos Es) as [_ [_ [_ [_ [_ [Hiv _]]]]]].
  destruct (do_op (out_of w c) (f, new_writer name iv) pos) as [st|e] eqn:Ed; [|discriminate].
  destruct (record_loop w c b xyzs si None k l st (b_steps b)) as [[[k1 st1] os] e] eqn:Er. injection H as _ <- <- ->.
  exists iv. split; [right; exists b; auto|]. unfold write_file. cbn [do_ops]. rewrite Ed. cbn [bind]. rewrite (loop_ops _ _ _ _ _ _ _ _ _ _ _ Er).
  cbn [bind]. destruct st1. reflexivity.
Qed.
Lemma files_ops names : forall k f f' log, files_loop w c k f names = (f', log, None) ->
  exists js, map (fun j => (fst (fst j), snd j)) js = log /\ Forall (fun j => job_of (fst (fst j)) (snd j) (snd (fst j))) js /\
    write_files (out_of w c) f js = Ok f'.
Proof.
  induction names as [|nm r IH]; intros k f f' log; cbn [files_loop].
  { intros H. injection H as <- <-. exists []. split; [reflexivity|]. split; [constructor|reflexivity]. }
  destruct (file_step w c k f nm) as [[[k1 f1] os] [e|]] eqn:Ef; [discriminate|].
  destruct (files_loop w c k1 f1 r) as [[f2 l2] e2] eqn:El. intros H. injection H as <- <- ->.
  destruct (IH k1 f1 f2 l2 El) as [js [<- [Hj Hw]]]. destruct (file_ops k f nm k1 f1 os Ef) as [iv [Hi Hv]].
  exists ((nm, iv, os) :: js). split; [reflexivity|]. split; [constructor; [exact Hi|exact Hj]|]. cbn [write_files]. rewrite Hv. exact Hw.
Qed.
Lemma open_base name b : open_obs w name = Ok b -> basename name <> [].
Proof.
  unfold open_obs, expand_plan. destruct (re_test RE_OBS (basename name)) eqn:E; cbn [negb]; [|discriminate]. intros _ H. rewrite H in E. vm_compute in E. discriminate.
Qed.
(** the jobs of a run are as the writer expects *)
Lemma run_job f name ops iv : written w c f name ops -> job_of name ops iv -> ops <> [] ->
  exists d, job_ok (name, iv, ops) d /\ (forall sat, rows_of sat ops <> [] -> get_rinex_date name = Some d).
Proof.
  intros Hw Hj Hne.
  assert (Hrow : forall sat sd nav t q, In (WRow sat sd nav t q) ops -> get_rinex_date name = Some (dt_date t) /\ no_slash sat /\ valid_datetime t).
  { intros sat sd nav t q Hin. destruct (rows_fresh w c f name ops Hw _ _ _ _ _ Hin) as [b [s [xyzs [Ho [Hs [Hu [_ Hr]]]]]]].
    destruct Hr as [t' [sys' [n' [site [lbh [pos [el [az [sd' [nav' [q' [Hi [E _]]]]]]]]]]]]]. injection E as -> -> -> -> ->.
    destruct Hu as [t2 [sys2 [n2 [Hi2 [Hin2 Hd]]]]]. destruct (identifies_fun _ _ _ _ _ _ _ Hi Hi2) as [<- [<- <-]].
    rewrite (open_date w name b Ho) in Hd. split; [exact Hd|]. split.
    - destruct Hi as [_ [dg [-> Hp]]]. pose proof (int_no_slash _ _ Hp) as Hns. intros [X|X]; [|exact (Hns X)]. subst sys'.
      cbn in Hin2. repeat (destruct Hin2 as [X|Hin2]; [discriminate|]). exact Hin2.
    - pose proof (open_obs_dated w name b Ho) as Hda. rewrite Forall_forall in Hda. exact (Hda s Hs t' (proj1 Hi)). }
  assert (Hb : basename name <> []). { destruct Hj as [H|[b [H _]]]; [contradiction|exact (open_base name b H)]. }
  assert (Hr : (exists sat sd nav t q, In (WRow sat sd nav t q) ops) \/ forall sat sd nav t q, ~ In (WRow sat sd nav t q) ops).
  { clear. induction ops as [|o ops IH]; [right; intros ? ? ? ? ? []|]. destruct o as [t p l|sat sd nav t q].
    - destruct IH as [[sat [sd [nav [t' [q H]]]]]|H].
      + left. exists sat, sd, nav, t', q. now right.
      + right. intros ? ? ? ? ? [E|Hin]; [discriminate|exact (H _ _ _ _ _ Hin)].
    - left. exists sat, sd, nav, t, q. now left. }
  destruct Hr as [[sat [sd [nav [t [q Hin]]]]]|Hno].
  - destruct (Hrow _ _ _ _ _ Hin) as [Hd [_ Hv]]. exists (dt_date t). split; [|intros _ _; exact Hd]. split; [exact (proj1 Hv)|]. split; [exact Hb|]. cbn [snd fst].
    split; [|intros s' sd' nav' t' q' H; exact (proj1 (proj2 (Hrow _ _ _ _ _ H)))].
    intros s' sd' nav' t' q' H. destruct (Hrow _ _ _ _ _ H) as [Hd' _]. rewrite Hd in Hd'. injection Hd' as E1 E2 E3. unfold dt_date. congruence.
  - exists (2000, 1, 1)%Z. split.
    + split; [vm_compute; intuition discriminate|]. split; [exact Hb|]. split; intros s' sd' nav' t' q' H; destruct (Hno _ _ _ _ _ H).
    + intros sat Hr. exfalso. apply Hr. clear -Hno. induction ops as [|o ops IH]; [reflexivity|]. cbn [rows_of]. destruct o as [t p l|s sd nav t q].
      * apply IH. intros sat' sd nav t' q Hin. apply (Hno sat' sd nav t' q). now right.
      * destruct (Hno s sd nav t q). now left.
Qed.
(** the file of a satellite is as the writer of the last observation file with rows of it left it *)
Lemma run_target f pre name ops post sat : stopped_by w c f = None -> snd (fst (main w c f)) = pre ++ (name, ops) :: post -> rows_of sat ops <> [] ->
  (forall name' ops', In (name', ops') post -> rows_of sat ops' <> [] -> marker_of name' <> marker_of name \/ get_rinex_date name' <> get_rinex_date name) ->
  exists b iv d f1 f2, open_obs w name = Ok b /\ h_interval (b_hdr b) = Some iv /\ get_rinex_date name = Some d /\ written w c f name ops /\
    job_ok (name, iv, ops) d /\ write_file (out_of w c) f1 name iv ops = Ok f2 /\
    fs_get (result_file (c_outdir c) (marker_of name) sat d) (fst (fst (main w c f))) = fs_get (result_file (c_outdir c) (marker_of name) sat d) f2.
Proof.
  intros Hs Hlog Hrow Hpost.
  assert (Hall : forall nm os, In (nm, os) (snd (fst (main w c f))) -> written w c f nm os) by (intros; assumption).
  assert (exists js, map (fun j => (fst (fst j), snd j)) js = snd (fst (main w c f)) /\ Forall (fun j => job_of (fst (fst j)) (snd j) (snd (fst j))) js /\
    write_files (out_of w c) f js = Ok (fst (fst (main w c f)))) as [js [Hjs [Hjob Hwf]]].
  { unfold stopped_by, main in *. destruct (sort_str _) as [|nm r]; [discriminate|].
    destruct (files_loop w c no_caches f (nm :: r)) as [[f' log] e] eqn:El. cbn [fst snd] in *. subst e. exact (files_ops _ _ _ _ _ El). }
  rewrite Hlog in Hjs. destruct (map_eq_app _ _ _ _ Hjs) as [js1 [js2 [-> [Hj1 Hj2]]]].
  destruct js2 as [|[[nm iv] os] js3]; [discriminate|]. cbn [map fst snd] in Hj2. injection Hj2 as -> -> Hj3.
  apply Forall_app in Hjob. destruct Hjob as [_ Hjob]. inversion Hjob as [|? ? Hj Hjob']; subst. cbn [fst snd] in Hj.
  assert (Hne : ops <> []) by (intros ->; apply Hrow; reflexivity).
  assert (Hwr : written w c f name ops) by (apply Hall; rewrite Hlog; apply in_or_app; right; now left).
  destruct (run_job f name ops iv Hwr Hj Hne) as [d [Hok Hd]]. specialize (Hd sat Hrow).
  destruct Hj as [?|[b [Ho Hiv]]]; [contradiction|]. exists b, iv, d.
  rewrite write_files_app in Hwf. destruct (write_files (out_of w c) f js1) as [f1|e]; cbn [bind] in Hwf; [|discriminate]. cbn [write_files] in Hwf.
  destruct (write_file (out_of w c) f1 name iv ops) as [f2|e] eqn:E2; cbn [bind] in Hwf; [|discriminate].
  exists f1, f2. split; [exact Ho|]. split; [exact Hiv|]. split; [exact Hd|]. split; [exact Hwr|]. split; [exact Hok|]. split; [exact E2|].
  destruct Hok as [K1 [K2 [K3 K4]]].
  assert (Hno : forall nm os, In (nm, os) (map (fun j => (fst (fst j), snd j)) js3) -> written w c f nm os).
  { intros nm os Hin. apply Hall. rewrite Hlog. apply in_or_app. right. right. exact Hin. }
  set (final := fst (fst (main w c f))) in *. clearbody final. clear Hlog Hjs Hs Hwr E2 Ho Hiv Hjob Hall. clear b.
  revert f2 Hwf Hjob' Hpost Hno. induction js3 as [|[[nm iv'] os] js3 IH]; intros f2 Hwf Hjob' Hpost Hno; cbn [write_files] in Hwf; [now injection Hwf as <-|].
  destruct (write_file (out_of w c) f2 nm iv' os) as [f3|e] eqn:E3; cbn [bind] in Hwf; [|discriminate].
  inversion Hjob' as [|? ? Hj Hjob'']; subst. cbn [fst snd map] in *.
  rewrite (IH f3 Hwf Hjob''); [|intros name' ops' Hin; apply Hpost; now right|intros nm' os' Hin; apply Hno; now right].
  destruct os as [|o os].
  { unfold write_file in E3. cbn in E3. now injection E3 as <-. }
  destruct (run_job f nm (o :: os) iv' (Hno _ _ (or_introl eq_refl)) Hj ltac:(discriminate)) as [d' [[L1 [L2 [L3 L4]]] Hd']].
  destruct (one_file (out_of w c) f2 nm iv' (o :: os) f3 d' L1 L2 L3 L4 E3) as [_ Hk]. apply Hk. intros sat' Hr' Eq.
  apply result_file_inj in Eq; [|exact K1|exact L1|apply marker_no_slash|apply marker_no_slash]. destruct Eq as [Em [Es Ed]].
  subst sat'. destruct (Hpost nm (o :: os) (or_introl eq_refl) Hr') as [X|X]; [congruence|]. apply X. rewrite (Hd' sat Hr'), Hd. congruence.
Qed.
Lemma run_files f pre name ops post sat : stopped_by w c f = None -> snd (fst (main w c f)) = pre ++ (name, ops) :: post -> rows_of sat ops <> [] ->
  (forall name' ops', In (name', ops') post -> rows_of sat ops' <> [] -> marker_of name' <> marker_of name \/ get_rinex_date name' <> get_rinex_date name) ->
  exists b iv d content, open_obs w name = Ok b /\ h_interval (b_hdr b) = Some iv /\ get_rinex_date name = Some d /\
    fs_get (result_file (c_outdir c) (marker_of name) sat d) (fst (fst (main w c f))) = Some content /\
    file_of_rows (out_of w c) iv (rows_of sat ops) content.
Proof.
  intros Hs Hlog Hrow Hpost. destruct (run_target f pre name ops post sat Hs Hlog Hrow Hpost) as [b [iv [d [f1 [f2 [Ho [Hiv [Hd [_ [[K1 [K2 [K3 K4]]] [E2 Ht]]]]]]]]]]].
  destruct (one_file (out_of w c) f1 name iv ops f2 d K1 K2 K3 K4 E2) as [Hc _]. destruct (Hc sat Hrow) as [content [G1 G2]].
  exists b, iv, d, content. split; [exact Ho|]. split; [exact Hiv|]. split; [exact Hd|]. split; [rewrite Ht; exact G1|exact G2].
Qed.
End Files.
