(** Reading the numbers of comments and of coordinates.txt back. *)
From Coq Require Import ZifyBool ZifyNat.
From Verif Require Import Base PyStr PyFloat PyDate PyPath PyRegex S_Text S_Time S_Open2 M_Common M_Header M_Obs2 M_Obs3 M_Rec M_Text M_Cfg M_Label M_Names M_Xyz M_Nav M_NmUtils M_Num M_Tec M_Sat M_Main M_Run S_Names S_Xyz S_Main S_Fresh S_Out S_Run S_Show P_Str P_Date P_Nav P_Nav5 P_Out P_Out2 P_Errors2 P_Main1 P_Main2 P_Main3 P_Main4 P_Main5 P_Main6 P_Main7 P_Main8 P_Main12 P_Main13 P_Show1 P_Show2.
Open Scope nat_scope.

(** ** dictionaries whose values all have a property *)
Section Dict.
Context {K V : Type} (eqb : K -> K -> bool) (P : V -> Prop).
Definition all_vals (d : list (K * V)) : Prop := forall k v, In (k, v) d -> P v.
Lemma all_set k v d : all_vals d -> P v -> all_vals (dict_set eqb k v d).
Proof.
  intros Hd Hv. induction d as [|[k' v'] d IH]; cbn [dict_set].
  - intros a b [H|[]]. injection H as _ <-. exact Hv.
  - assert (Hd' : all_vals d) by (intros a b H; apply (Hd a b); now right). destruct (eqb k k').
    + intros a b [H|H]; [injection H as _ <-; exact Hv|exact (Hd' a b H)].
    + intros a b [H|H]; [exact (Hd a b (or_introl H))|exact (IH Hd' a b H)].
Qed.
Lemma all_get k v d : all_vals d -> dict_get eqb k d = Some v -> P v.
Proof.
  intros H. induction d as [|[u q] r IH]; cbn [dict_get]; [discriminate|]. destruct (eqb k u).
  - intros E. injection E as <-. exact (H u q (or_introl eq_refl)).
  - apply IH. intros a b Hin. apply (H a b). now right.
Qed.
End Dict.
Lemma all_get0 {K V} (eqb : K -> K -> bool) (P : list V -> Prop) k d : P [] -> all_vals P d -> P (get0 eqb k d).
Proof. intros H0 Hd. unfold get0. destruct (dict_get eqb k d) as [x|] eqn:E; [exact (all_get eqb P k x d Hd E)|exact H0]. Qed.

(** ** the numbers of an ephemeris *)
Definition sat_ok : sat_message -> Prop := all_vals (Forall is_b64).
Definition sys_ok : sys_message -> Prop := all_vals sat_ok.
Definition msg_ok : message -> Prop := all_vals sys_ok.
Lemma orbit_b64 s x : orbit_value s = Ok x -> is_b64 x.
Proof.
  unfold orbit_value. destruct s as [|c0 s]; [intros H; injection H as <-; reflexivity|]. destruct (py_float (c0 :: s)) as [f|] eqn:E; cbn [bind]; [|discriminate].
  intros H. injection H as <-. destruct (ftruth f); [exact (read_b64 _ _ E)|reflexivity].
Qed.
Lemma mapM_b64 l : forall r, mapM orbit_value l = Ok r -> Forall is_b64 r.
Proof.
  induction l as [|a l IH]; intros r; cbn [mapM]; [intros H; injection H as <-; constructor|].
  destruct (orbit_value a) as [x|] eqn:E; cbn [bind]; [|discriminate]. destruct (mapM orbit_value l) as [ys|]; cbn [bind]; [|discriminate].
  intros H. injection H as <-. constructor; [exact (orbit_b64 _ _ E)|exact (IH _ eq_refl)].
Qed.
Lemma orbits_b64 v ls : forall ns r, read_orbits v ls ns = Ok r -> Forall is_b64 r.
Proof.
  induction ls as [|l ls IH]; intros ns r; cbn [read_orbits]; [intros H; injection H as <-; constructor|].
  destruct ns as [|n ns]; [discriminate|]. unfold catch. destruct (orbit_values v n l) as [a|e] eqn:E; cbn [bind].
  - destruct (read_orbits v ls ns) as [b|] eqn:Er; cbn [bind]; [|discriminate]. intros H. injection H as <-. apply Forall_app. split; [exact (mapM_b64 _ _ E)|exact (IH _ _ Er)].
  - match goal with |- context [if ?b then _ else _] => destruct b end; discriminate.
Qed.
Lemma message_b64 sys n t vals m : msg_ok m -> Forall is_b64 vals -> msg_ok (message_set sys n t vals m).
Proof.
  intros Hm Hv. assert (Hms : sys_ok (get0 ceqb sys m)). { apply (all_get0 ceqb sys_ok sys m); [intros a b []|exact Hm]. }
  assert (Hsm : sat_ok (get0 Z.eqb n (get0 ceqb sys m))). { apply (all_get0 Z.eqb sat_ok n (get0 ceqb sys m)); [intros a b []|exact Hms]. }
  unfold message_set. cbv zeta. apply all_set; [exact Hm|]. apply all_set; [exact Hms|]. apply all_set; [exact Hsm|exact Hv].
Qed.
Lemma line_b64 v ft d line st st' : msg_ok (n_msg st) -> nav_line v ft d line st = Ok st' -> msg_ok (n_msg st').
Proof.
  intros Hm. unfold nav_line. destruct (negb _).
  - destruct (parse_epoch_n v ft line) as [[[s n] ep]|]; cbn [bind]; [|discriminate]. destruct (of_option _ _) as [vpo|]; cbn [bind]; [|discriminate]. intros H. injection H as <-. exact Hm.
  - destruct (match n_left st with O => _ | S j => _ end) as [orbits k].
    assert (G : forall r, match n_reader st with
      | None => Err RinexError
      | Some (system, num, epoch, vpo) =>
        if match d with Some d => date_eqb d (dt_date epoch) | None => false end then
          do vals <- read_orbits v orbits vpo;
          Ok (mkNav [] k None (message_set system num (dt_time epoch) vals (n_msg st)))
        else Ok (mkNav [] k None (n_msg st))
      end = Ok r -> msg_ok (n_msg r)).
    { intros r. destruct (n_reader st) as [[[[s n] ep] vpo]|]; [|discriminate].
      match goal with |- context [if ?b then _ else _] => destruct b end; [|intros H; injection H as <-; exact Hm].
      destruct (read_orbits v orbits vpo) as [vals|] eqn:E; cbn [bind]; [|discriminate]. intros H. injection H as <-. cbn [n_msg]. apply message_b64; [exact Hm|exact (orbits_b64 _ _ _ _ E)]. }
    destruct (n_left st); [apply G|]. destruct k; [apply G|]. intros H. injection H as <-. exact Hm.
Qed.
Lemma nav_loop_b64 v ft d lines : forall st st', msg_ok (n_msg st) -> nav_loop v ft d lines st = Ok st' -> msg_ok (n_msg st').
Proof.
  induction lines as [|l r IH]; intros st st' Hm; cbn [nav_loop]; [intros H; injection H as <-; exact Hm|].
  destruct (nav_line v ft d l st) as [s1|] eqn:E; cbn [bind]; [|discriminate]. apply IH. exact (line_b64 _ _ _ _ _ _ Hm E).
Qed.
Lemma nav_file_b64 name lines m : nav_file name lines = Ok m -> msg_ok m.
Proof.
  unfold nav_file. destruct (nav_class _) as [v|]; cbn [bind]; [|discriminate]. unfold nav_read. destruct (split_header _ _) as [h body].
  destruct (nav_header v h) as [ft|]; cbn [bind]; [|discriminate]. destruct (nav_loop _ _ _ _ _) as [st|] eqn:E; cbn [bind]; [|discriminate]. intros H. injection H as <-.
  refine (nav_loop_b64 _ _ _ _ _ _ _ E). intros a b [].
Qed.
Lemma sel_b64 ws wn obs times msgs dt eph : sat_ok msgs -> sel_loop ws wn obs times msgs = Some (dt, eph) -> Forall is_b64 eph.
Proof.
  intros Hs. induction times as [|mt r IH]; cbn [sel_loop]; [discriminate|]. cbv zeta. destruct (Z.abs _ <=? wn)%Z; [|exact IH].
  destruct (dict_get tod_eqb mt msgs) as [e|] eqn:E; [|discriminate]. intros H. injection H as _ <-. exact (all_get tod_eqb _ _ _ _ Hs E).
Qed.
Lemma select_b64 t sys n sats dt eph : sys_ok sats -> select_navigation_message t sys n [(sys, Some sats)] true = Ok (Some (dt, eph)) -> Forall is_b64 eph.
Proof.
  intros Hs. unfold select_navigation_message. cbn [dict_get]. destruct (ceqb sys sys); [|discriminate]. destruct (dict_get Z.eqb n sats) as [msgs|] eqn:En; [|discriminate].
  pose proof (all_get Z.eqb _ _ _ _ Hs En) as Hm. match goal with |- (do _ <- ?x; _) = _ -> _ => destruct x as [ws|] end; cbn [bind]; [|discriminate]. cbv zeta.
  destruct (dict_get tod_eqb (dt_time t) msgs) as [e|] eqn:Et; [intros H; injection H as _ <-; exact (all_get tod_eqb _ _ _ _ Hm Et)|].
  destruct (sel_window sys) as [wn|]; [|discriminate]. destruct (_ && true).
  - destruct (of_option IndexError _) as [mt|]; cbn [bind]; [|discriminate]. destruct (dict_get tod_eqb mt msgs) as [e|] eqn:Em; cbn [of_option bind]; [|discriminate].
    intros H. injection H as _ <-. exact (all_get tod_eqb _ _ _ _ Hm Em).
  - intros H. injection H as H. exact (sel_b64 _ _ _ _ _ _ _ Hm H).
Qed.
Lemma ephemeris_b64 w c t sys n dt eph : ephemeris w c t sys n (Some (dt, eph)) -> Forall is_b64 eph.
Proof.
  intros H. inversion H as [|f sats e Hnav Hsel]; subst. inversion Hnav as [f' m sats' Hload Hget|]; subst. refine (select_b64 _ _ _ _ _ _ _ Hsel).
  refine (all_get ceqb _ _ _ _ _ Hget). revert Hload. unfold load_navigation_message. cbv zeta. destruct (of_option _ _) as [fn|]; cbn [bind]; [|discriminate].
  destruct (w_nav w fn) as [ls|]; cbn [bind]; [|discriminate]. destruct (nav_file fn ls) as [m0|] eqn:E; cbn [bind]; [|discriminate]. destruct (dict_get ceqb sys m0); [|discriminate].
  intros X. injection X as _ <-. exact (nav_file_b64 _ _ _ E).
Qed.
Lemma channel_back w c t n k : channel w c t n k -> py_float (show_val (VFloat k)) = Ok k.
Proof.
  intros [dt [eph [H Hk]]]. pose proof (ephemeris_b64 _ _ _ _ _ _ _ H) as Hf. rewrite Forall_forall in Hf. apply number_back. exact (Hf k (nth_error_In _ _ Hk)).
Qed.

(** ** the comment lines of a result file *)
Section File.
Variable (w : world) (c : cfg).
Lemma lbh_shown p l : libm_b64 (w_libm w) -> is_b64_3 p -> geodetic w p l ->
  numbers ","%char (if oc_zeros (out_of w c) p then lit "0, 0, 0" else three l) = three_of l.
Proof.
  intros Hm Hp Hg. destruct p as [[x y] z]. destruct Hp as [H1 [H2 H3]]. cbn [oc_zeros out_of]. unfold geodetic in Hg. pose proof (deg_b64 (w_libm w) Hm (w_fuel w) x y z l H1 H2 H3 Hg) as Hl.
  revert Hg. unfold xyz2lbh_deg. destruct (xyz2lbh _ _ x y z) as [r|e]; cbn [is_arithmetic]; [intros _; exact (three_back l Hl)|].
  destruct (existsb (exn_eqb e) arithmetic); [|discriminate]. intros H. injection H as <-. vm_compute. reflexivity.
Qed.
Lemma numbers_back f pre name ops post sat b : stopped_by w c f = None -> snd (fst (main w c f)) = pre ++ (name, ops) :: post -> rows_of sat ops <> [] ->
  (forall name' ops', In (name', ops') post -> rows_of sat ops' <> [] -> marker_of name' <> marker_of name \/ get_rinex_date name' <> get_rinex_date name) ->
  open_obs w name = Ok b -> libm_b64 (w_libm w) ->
  exists iv d t p l lines rows i lbh xyz, h_interval (b_hdr b) = Some iv /\ get_rinex_date name = Some d /\ In (WPos t p l) ops /\ geodetic w p l /\
    fs_get (result_file (c_outdir c) (marker_of name) sat d) (fst (fst (main w c f))) = Some (comment_text lines ++ rows) /\
    nth_error lines 3 = Some (lit "Interval: " ++ i) /\ reads_interval i iv /\
    nth_error lines 6 = Some (lit "Position (L, B, H): " ++ lbh) /\ numbers ","%char lbh = three_of l /\
    nth_error lines 7 = Some (lit "Position (X, Y, Z): " ++ xyz) /\ numbers ","%char xyz = three_of p.
Proof.
  intros Hs Hlog Hrow Hpost Hob Hm. destruct (first_row sat ops Hrow) as [before [sd [nav [t [q [after [Eops Hbef]]]]]]].
  destruct (run_target w c f pre name ops post sat Hs Hlog Hrow Hpost) as [b' [iv [d [f1 [f2 [Ho [Hiv [Hd [Hw [[K1 [K2 [K3 K4]]] [E2 Ht]]]]]]]]]]].
  rewrite Hob in Ho. injection Ho as <-.
  assert (Hne : ops <> []) by (rewrite Eops; destruct before; discriminate).
  destruct (file_announce w c f name ops Hw Hne) as [b2 [t0 [ts [lbh0 [os [xyzs [Ho2 [Htf [Eo2 [Hg0 [_ [Hlater Hnew]]]]]]]]]]]]. rewrite Hob in Ho2. injection Ho2 as <-.
  assert (Hval : forall u p l, In (WPos u p l) ops -> valid_datetime u /\ geodetic w p l).
  { intros u p l Hin. rewrite Eo2 in Hin. destruct Hin as [Hin|Hin].
    - injection Hin as <- <- <-. split; [exact (open_obs_tofo w name b Hob t0 ts Htf)|exact Hg0].
    - destruct (Hlater u p l Hin) as [s [S1 [_ [S2 [_ S3]]]]]. split; [|exact S3]. pose proof (open_obs_dated w name b Hob) as Hda. rewrite Forall_forall in Hda. exact (Hda s S1 u S2). }
  destruct (comment_top (out_of w c) f1 name iv ops f2 d before sat sd nav t q after K1 K2 K3 K4 (fun u p l H => proj1 (Hval u p l H)) E2 Eops Hbef) as [u [p [l [rows [Hn Hf]]]]].
  assert (Hin : In (WPos u p l) ops). { destruct Hn as [a1 [a2 [Ea _]]]. assert (Hin : In (u, p, l) (announced before)) by (rewrite Ea; apply in_or_app; right; now left).
    apply announced_in in Hin. rewrite Eops. apply in_or_app. now left. }
  destruct (Hval u p l Hin) as [_ Hg]. pose proof (told_b64 w c f name ops Hw u p l Hin) as Hp.
  exists iv, d, u, p, l, (comment_lines (out_of w c) name iv sd nav p l), rows, (show_num iv), (if oc_zeros (out_of w c) p then lit "0, 0, 0" else three l), (three p).
  split; [exact Hiv|]. split; [exact Hd|]. split; [exact Hin|]. split; [exact Hg|]. split; [rewrite Ht; exact Hf|].
  split; [reflexivity|]. split; [apply interval_back; exact (proj2 (proj1 (open_obs_num w name b Hob)) iv Hiv)|].
  split; [reflexivity|]. split; [exact (lbh_shown p l Hm Hp Hg)|]. split; [reflexivity|exact (three_back p Hp)].
Qed.
End File.

(** ** coordinates.txt *)
Lemma line_back w name b line : open_obs w name = Ok b -> libm_b64 (w_libm w) -> coordinates_line w name b line ->
  exists lon lat l bb h, line = firstn 4 (basename name) ++ lit "; " ++ lon ++ lit "; " ++ lat ++ [ascii_of_nat 10] /\
    geodetic w (h_xyz (b_hdr b)) (l, bb, h) /\ py_float lon = Ok l /\ py_float lat = Ok bb.
Proof.
  intros Ho Hm [lon [lat [Hp ->]]]. exists lon, lat. pose proof (proj1 (proj1 (open_obs_num w name b Ho))) as Hx. destruct (h_xyz (b_hdr b)) as [[x y] z]. destruct Hx as [H1 [H2 H3]].
  inversion Hp as [l bb h r Hg Hr|e He Ha]; subst.
  - exists l, bb, h. split; [reflexivity|]. split; [exact Hg|]. destruct (deg_b64 (w_libm w) Hm (w_fuel w) x y z _ H1 H2 H3 Hg) as [L1 [L2 _]]. split; apply number_back; [exact L1|exact L2].
  - exists (float_of_Z 0), (float_of_Z 0), (float_of_Z 0). split; [reflexivity|]. split; [|split; vm_compute; reflexivity].
    unfold geodetic, xyz2lbh_deg. rewrite He. destruct Ha as [->| ->]; reflexivity.
Qed.
Lemma glonass_back w c f name ops : written w c f name ops -> forall sat sd nav t q, In (WRow ("R"%char :: sat) sd nav t q) ops ->
  exists n k text, py_int sat = Ok n /\ channel w c t n k /\ sd = ("R"%char :: sat) ++ lit " (k = " ++ text ++ lit ")" /\ py_float text = Ok k.
Proof.
  intros Hw sat sd nav t q Hin. destruct (rows_fresh w c f name ops Hw _ sd nav t q Hin) as [b [s [xyzs [_ [_ [_ [_ Hr]]]]]]].
  destruct Hr as [t' [sys [n [site [lbh [pos [e [a [sd' [nav' [q' [Hid [Eop [_ [_ [_ [_ [_ [_ [Hn _]]]]]]]]]]]]]]]]]]]].
  injection Eop as Es -> -> -> ->. destruct Hid as [_ [ds [Ed Hd]]]. rewrite <- Es in Ed. injection Ed as <- <-. rewrite <- Es in Hn. cbn in Hn. destruct Hn as [k [Hk ->]].
  exists n, k, (show_val (VFloat k)). split; [exact Hd|]. split; [exact Hk|]. split; [reflexivity|exact (channel_back _ _ _ _ _ Hk)].
Qed.
