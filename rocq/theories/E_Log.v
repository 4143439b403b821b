(** The log of concrete runs: examples, and witnesses of the claims the code violates. *)
From Verif Require Import Base PyStr PyFloat PyDate PyPath PyRegex M_Common M_Header M_Obs2 M_Obs3 M_Label M_Rec M_Text M_Cfg M_Names M_Xyz M_Nav M_NmUtils M_Num M_Tec M_Sat M_Main M_Run M_Log.
From Verif Require Import S_Time S_Obs2 S_Out W_Obs2 E_Obs2 E_Obs3 S_Main S_Run S_Cfg S_Log E_Main E_Run P_Str P_Run8 P_Log1 P_Log2 P_Log3.
Open Scope nat_scope.

Definition pshow (p : part) : option (str * option datetime) * list message * list (str * Z * Z) :=
  (option_map (fun s => (s_sat s, s_epoch s)) (p_step p), p_says p, names (p_ops p)).
Definition parts_show (w : world) (c : cfg) := map (fun x => (fst x, map pshow (snd x))) (main_parts w c []).
Definition shows_part (st : option (str * option datetime)) (ms : list message) (ns : list (str * Z * Z)) := (st, ms, ns).
Definition rec_of (sat : string) (h m s : Z) : option (str * option datetime) := Some (lit sat, Some (t_at h m s 0)).

Lemma map_split {A B} (g : A -> B) : forall l a b c, map g l = a ++ b :: c -> exists x p y, l = x ++ p :: y /\ map g x = a /\ g p = b.
Proof.
  intros l a. revert l. induction a as [|e a IH]; intros [|h l] b c H; cbn [map app] in H; try (inversion H; fail).
  - injection H as H _. exists [], h, l. auto.
  - injection H as H1 H2. destruct (IH _ _ _ H2) as [x [p [y [-> [Hx Hp]]]]]. exists (h :: x), p, y. split; [reflexivity|]. split; [cbn [map]; now rewrite H1, Hx|exact Hp].
Qed.
(** a part of a run that is shown *)
Lemma shown_part w c a name u v z b : parts_show w c = a ++ (name, u ++ v :: z) :: b ->
  exists pre x p, part_of_run w c [] (parts_of pre ++ x) name p /\ pshow p = v /\ map pshow x = u /\ map (fun x => (fst x, map pshow (snd x))) pre = a.
Proof.
  intros H. unfold parts_show in H. apply map_split in H. destruct H as [pre [[nm ps] [post [H [Ha Hb]]]]]. cbn [fst snd] in Hb. injection Hb as -> Hb.
  apply map_split in Hb. destruct Hb as [x [p [y [-> [Hx Hp]]]]]. exists pre, x, p. split; [exists pre, x, y, post; auto|auto].
Qed.
Lemma shown_rec p sat t ms ns : pshow p = (Some (sat, Some t), ms, ns) -> exists s, p_step p = Some s /\ s_sat s = sat /\ s_epoch s = Some t /\ p_says p = ms /\ names (p_ops p) = ns.
Proof.
  unfold pshow. destruct (p_step p) as [s|]; cbn [option_map]; intros H; [|inversion H]. injection H as H1 H2 H3 H4. exists s. auto.
Qed.
Lemma no_names s t ops : names ops = [] -> ~ has_row s t ops.
Proof. intros H [sd [nav [q Hin]]]. apply names_in in Hin. rewrite H in Hin. exact Hin. Qed.

(** ** navigation messages that are too old *)
Definition w_far : world := e_world [("site0010.12o", ex_file (put_body [BData (t_at 0 20 0 0) 0 [r_sat 1]; BData (t_at 0 20 30 0) 0 [r_sat 1]]))]%string nav2.
Lemma far_show : parts_show w_far (e_cfg true None) = [] ++ (ok_name, [shows_part None [] []] ++ shows_part (rec_of "R01" 0 20 0) [] [] :: [shows_part (rec_of "R01" 0 20 30) [] []]) :: [].
Proof. vm_compute. reflexivity. Qed.
Lemma far_stop : stopped_by w_far (e_cfg true None) [] = None.
Proof. vm_compute. reflexivity. Qed.
Lemma far_silent : exists w c before name p s t sys n, verbose c /\ stopped_by w c [] = None /\ part_of_run w c [] before name p /\ p_step p = Some s /\
  identifies s t sys n /\ (forall s', ~ processed before s') /\ far w c t sys n /\ ~ has_row s t (p_ops p) /\ p_says p = [].
Proof.
  destruct (shown_part _ _ _ _ _ _ _ _ far_show) as [pre [x [p [Hp [Hs [Hx Hpre]]]]]]. apply map_eq_nil in Hpre. subst pre.
  apply shown_rec in Hs. destruct Hs as [s [H1 [H2 [H3 [H4 H5]]]]].
  exists w_far, (e_cfg true None), x, ok_name, p, s, (t_at 0 20 0 0), "R"%char, 1%Z. split; [right; reflexivity|]. split; [exact far_stop|]. split; [exact Hp|]. split; [exact H1|].
  assert (Hi : identifies s (t_at 0 20 0 0) "R"%char 1) by (split; [exact H3|]; exists (lit "01"); split; [exact H2|vm_compute; reflexivity]). split; [exact Hi|].
  assert (Hb : forall s', ~ processed x s').
  2:{ split; [exact Hb|]. split; [|split; [now apply no_names|exact H4]].
      destruct (run_reported _ _ _ _ _ _ _ _ _ _ Hp H1 Hi) as [X|[[m [X _]]|[_ [X|[s' [X _]]]]]]; [now apply (no_names s (t_at 0 20 0 0) (p_ops p)) in H5|rewrite H4 in X; destruct X|exact X|now apply Hb in X]. }
  intros s' [q [Hq Hq']]. destruct x as [|x0 [|]]; try (cbn [map] in Hx; inversion Hx; fail). destruct Hq as [->|[]]. cbn [map] in Hx. unfold pshow in Hx. rewrite Hq' in Hx. cbn [option_map] in Hx. inversion Hx.
Qed.

(** ** the same satellite and time in a second file *)
Definition w_again : world := e_world [("aaaa0010.12o", obs_g1); ("bbbb0010.12o", obs_g1)]%string [("brdc0010.12n", gps_nav (gps_msg " 2" " 5.150000000000D+03"))]%string.
Definition b_name : str := lit "/obs/bbbb0010.12o".
Lemma again_show : exists a b, parts_show w_again (e_cfg false None) =
  [(a_name, [shows_part None [] []; shows_part (rec_of "G01" 0 0 0) [LNoSatellite "G" 1] []; b])] ++
  (b_name, [shows_part None [] []] ++ shows_part (rec_of "G01" 0 0 0) [] [] :: [a]) :: [].
Proof. eexists _, _. vm_compute. reflexivity. Qed.
Lemma again_stop : stopped_by w_again (e_cfg false None) [] = None.
Proof. vm_compute. reflexivity. Qed.
Definition nav_of (w : world) (c : cfg) : bool :=
  match load_navigation_message (w_ls w) (w_nav w) (c_navdir c) (t_at 0 0 0 0) "G" (preferred c "G") with
  | Ok (f, m) => match dict_get ceqb "G"%char m with Some sats => negb (dict_mem Z.eqb 1%Z sats) | None => false end
  | _ => false
  end.
Lemma again_nav : nav_of w_again (e_cfg false None) = true.
Proof. vm_compute. reflexivity. Qed.
(** the run of the second file says nothing of the satellite, which the navigation file does not have *)
Lemma again_silent : exists w c before name p s t sys n f sats, verbose c /\ stopped_by w c [] = None /\ part_of_run w c [] before name p /\ p_step p = Some s /\
  identifies s t sys n /\ nav_data w c t sys (Some (f, sats)) /\ dict_get Z.eqb n sats = None /\ ~ has_row s t (p_ops p) /\ p_says p = [].
Proof.
  destruct again_show as [a [b Hsh]]. destruct (shown_part _ _ _ _ _ _ _ _ Hsh) as [pre [x [p [Hp [Hs _]]]]].
  apply shown_rec in Hs. destruct Hs as [s [H1 [H2 [H3 [H4 H5]]]]]. pose proof again_nav as Hn. unfold nav_of in Hn.
  destruct (load_navigation_message _ _ _ _ _ _) as [[f m]|] eqn:El; [|inversion Hn]. destruct (dict_get ceqb "G"%char m) as [sats|] eqn:Ed; [|inversion Hn].
  exists w_again, (e_cfg false None), (parts_of pre ++ x), b_name, p, s, (t_at 0 0 0 0), "G"%char, 1%Z, f, sats. split; [right; reflexivity|]. split; [exact again_stop|]. split; [exact Hp|]. split; [exact H1|].
  split; [split; [exact H3|]; exists (lit "01"); split; [exact H2|vm_compute; reflexivity]|]. split; [exact (nav_found _ _ _ _ f m sats El Ed)|].
  split; [|split; [now apply no_names|exact H4]]. unfold dict_mem in Hn. destruct (dict_get Z.eqb 1%Z sats); [inversion Hn|reflexivity].
Qed.

(** ** log levels *)
Definition with_level (c : cfg) (l : string) : cfg :=
  mkCfg (lit l) (c_format c) (c_obsdir c) (c_navdir c) (c_outdir c) (c_dtformat c) (c_gps c) (c_glo c) (c_geo c) (c_ignore c) (c_logfile c) (c_sampling c).
Definition c_crit : cfg := with_level (e_cfg true None) "CRITICAL".
Lemma crit_facts : stopped_by w_bad c_crit [] = None /\ main_errors w_bad c_crit [] = 2 /\ main_log_file w_bad c_crit [] = [].
Proof. vm_compute. auto. Qed.
Lemma every_dirs c : dirs_exist every c.
Proof. intros d _. reflexivity. Qed.
Lemma crit_empty : exists isdir w c f, dirs_exist isdir c /\ In (c_level c) log_levels /\ announces_errors (full_main false isdir w c f) = true /\ main_log_file w c f = [].
Proof.
  exists every, w_bad, c_crit, []. destruct crit_facts as [H1 [H2 H3]]. split; [apply every_dirs|]. split; [do 4 right; left; reflexivity|]. split; [|exact H3].
  rewrite full_run by apply every_dirs. unfold announces_errors. cbn [o_exn o_errors]. unfold stopped_by in H1. rewrite H1, H2. reflexivity.
Qed.
Lemma badnav_log : stopped_by w_badnav (e_cfg false None) [] = None /\ main_errors w_badnav (e_cfg false None) [] = 0 /\ main_log_file w_badnav (e_cfg false None) [] = [LNavError; LNoMessage].
Proof. vm_compute. auto. Qed.
Lemma badnav_silent : exists isdir w c f m, dirs_exist isdir c /\ In m (main_log_file w c f) /\ error_message m /\ stopped_by w c f = None /\ announces_errors (full_main false isdir w c f) = false.
Proof.
  exists every, w_badnav, (e_cfg false None), [], LNavError. destruct badnav_log as [H1 [H2 H3]]. split; [apply every_dirs|]. split; [rewrite H3; now left|]. split; [reflexivity|]. split; [exact H1|].
  rewrite full_run by apply every_dirs. unfold announces_errors. cbn [o_exn o_errors]. unfold stopped_by in H1. rewrite H1, H2. reflexivity.
Qed.

(** ** logs *)
Definition g_nav : str := lit "/nav/brdc0010.12g".
Definition other_day : message := LDate ok_name (dt_date (mkDT 2012 1 2 0 0 0 0)) (Some (dt_date (t_at 0 0 0 0))).
Definition angles1 : message := LAngles (Some g_nav) ok_name (t_at 0 1 0 0).
Lemma ok_log : main_log_file w_ok (e_cfg false None) [] = [LNoSatellite "G" 3; angles1; LNoSatellite "G" 3; other_day; other_day; other_day].
Proof. vm_compute. reflexivity. Qed.
Lemma bad_log : main_log_file w_bad (with_level (e_cfg true None) "ERROR") [] = [LOpen RinexError; angles1].
Proof. vm_compute. reflexivity. Qed.
Lemma ok_show : exists a b, parts_show w_ok (e_cfg false None) =
  [] ++ (ok_name, (shows_part None [] [] :: shows_part (rec_of "G01" 0 0 0) [] [n3 "G01" 0 0] :: [shows_part (rec_of "G02" 0 0 0) [] [n3 "G02" 0 0]]) ++
    shows_part (rec_of "G03" 0 0 0) [LNoSatellite "G" 3] [] :: shows_part (rec_of "R01" 0 0 0) [] [n3 "R01" 0 0] :: a) :: b.
Proof. eexists _, _. vm_compute. reflexivity. Qed.
(** a record that is left out with a message *)
Lemma ok_reported : exists before p s, part_of_run w_ok (e_cfg false None) [] before ok_name p /\ p_step p = Some s /\ identifies s (t_at 0 0 0 0) "G"%char 3 /\
  ~ has_row s (t_at 0 0 0 0) (p_ops p) /\ In (LNoSatellite "G" 3) (p_says p).
Proof.
  destruct ok_show as [a [b Hsh]]. destruct (shown_part _ _ _ _ _ _ _ _ Hsh) as [pre [x [p [Hp [Hs _]]]]].
  apply shown_rec in Hs. destruct Hs as [s [H1 [H2 [H3 [H4 H5]]]]]. exists (parts_of pre ++ x), p, s. split; [exact Hp|]. split; [exact H1|].
  split; [split; [exact H3|]; exists (lit "03"); split; [exact H2|vm_compute; reflexivity]|]. split; [now apply no_names|]. rewrite H4. now left.
Qed.
