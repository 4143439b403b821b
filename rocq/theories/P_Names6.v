(** Proofs about file names: composition and examples. *)
From Coq Require Import Reals.
From Verif Require Import Base PyStr PyFloat PyDate PyPath PyRegex P_Str P_Float P_Regex S_Text S_Time P_Date M_Common P_Common M_Header M_Names S_Names S_Out P_Out P_Names P_Names2 P_Names3 P_Names4 P_Names5 M_Xyz S_Xyz P_Xyz.
Open Scope nat_scope.

Lemma two_digits_range s : digits s -> List.length s = 2 -> (0 <= dec_value s <= 99)%Z.
Proof. intros D L. pose proof (dec_value_nonneg s D). pose proof (dec_value_bound s D) as B. rewrite L in B. cbn in B. lia. Qed.
Lemma classic_yy name yy ddd : classic_name name yy ddd -> (0 <= dec_value yy <= 99)%Z.
Proof. intros [site [h [t [rest [_ [_ [_ [_ [_ [_ [_ [H7 [H8 _]]]]]]]]]]]]]. now apply two_digits_range. Qed.
Lemma date_classic path yy ddd : classic_name (basename path) yy ddd ->
  let year := name_century (dec_value yy) in
  (1 <= dec_value ddd <= year_len year)%Z ->
  exists d, get_rinex_date path = Some d /\ is_day year (dec_value ddd) d.
Proof.
  intros H year Hd. rewrite (rinex_date_classic path _ yy ddd eq_refl H). apply strptime_valid; [|exact Hd].
  pose proof (classic_yy _ _ _ H). unfold year, name_century. destruct (dec_value yy <? 69)%Z; lia.
Qed.
Lemma date_modern path yyyy ddd : modern_name (basename path) yyyy ddd ->
  (1 <= dec_value yyyy)%Z -> (1 <= dec_value ddd <= year_len (dec_value yyyy))%Z ->
  exists d, get_rinex_date path = Some d /\ is_day (dec_value yyyy) (dec_value ddd) d.
Proof.
  intros H Hy Hd. rewrite (rinex_date_modern path _ yyyy ddd eq_refl H). apply strptime_valid; [|exact Hd]. split; [exact Hy|].
  destruct H as [site [src [hhmm [rest [_ [_ [_ [_ [L [D _]]]]]]]]]]. apply dec_value_bound in D. rewrite L in D. cbn in D. lia.
Qed.
Lemma date_bad_day path y ddd : classic_name (basename path) y ddd \/ modern_name (basename path) y ddd ->
  (dec_value ddd = 0 \/ 366 < dec_value ddd)%Z -> get_rinex_date path = None.
Proof.
  intros [H|H] Hd; [rewrite (rinex_date_classic path _ y ddd eq_refl H)|rewrite (rinex_date_modern path _ y ddd eq_refl H)]; apply strptime_none; left; lia.
Qed.
Lemma date_366 path yy ddd : classic_name (basename path) yy ddd ->
  let year := name_century (dec_value yy) in
  year_len year = 365%Z -> dec_value ddd = 366%Z -> get_rinex_date path = Some ((year + 1)%Z, 1%Z, 1%Z).
Proof.
  intros H year Hy Hd. rewrite (rinex_date_classic path _ yy ddd eq_refl H), Hd. apply strptime_366; [|exact Hy].
  pose proof (classic_yy _ _ _ H). unfold year, name_century. destruct (dec_value yy <? 69)%Z; lia.
Qed.
Lemma is_day_inj y n d d' : is_day y n d -> is_day y n d' -> d = d'.
Proof.
  destruct d as [[y1 m1] d1], d' as [[y2 m2] d2]. cbn [is_day]. intros [-> [V1 E1]] [-> [V2 E2]].
  pose proof V1 as [_ [M1 D1]]. pose proof V2 as [_ [M2 D2]]. rewrite months_len_eq in E1, E2 by assumption.
  rewrite month_len_eq in D1, D2 by assumption.
  assert (E : ymd2ord y m1 d1 = ymd2ord y m2 d2) by (unfold ymd2ord; lia). now apply ymd2ord_inj in E.
Qed.
Lemma centuries_agree path yy ddd m d h mi s us :
  classic_name (basename path) yy ddd ->
  ~ (69 <= dec_value yy <= 88)%Z ->
  let year := century (dec_value yy) in
  is_day year (dec_value ddd) (year, m, d) ->
  (0 <= h <= 23)%Z -> (0 <= mi <= 59)%Z -> (0 <= s <= 59)%Z -> (0 <= us <= 999999)%Z ->
  exists t, validate_epoch (dec_value yy) m d h mi s us = Ok t /\ get_rinex_date path = Some (dt_date t).
Proof.
  intros H Hn year Hd Hh Hmi Hs Hus. pose proof (classic_yy _ _ _ H) as Hy.
  assert (Ec : year = name_century (dec_value yy)).
  { unfold year, century, name_century. destruct (dec_value yy <? 89)%Z eqn:E1, (dec_value yy <? 100)%Z eqn:E2, (dec_value yy <? 69)%Z eqn:E3; lia. }
  pose proof Hd as [_ [V En]]. set (t0 := mkDT year m d h mi s us).
  assert (V0 : valid_datetime t0) by (split; [exact V|]; cbn; auto).
  assert (Yr : (1900 <= year <= 2099)%Z) by (rewrite Ec; unfold name_century; destruct (dec_value yy <? 69)%Z; lia).
  destruct (validate_epoch_ok (dec_value yy) m d h mi s us) as [t [E [Vt It]]].
  { split; [exact V|]. lia. }
  { change (instant t0 < end_of_time)%Z. rewrite instant_eq by exact V0. apply valid_datetime_iff in V0. pose proof (dt_us_bounds t0 V0) as B.
    unfold max_ordinal, us_per_day in B. unfold end_of_time. lia. }
  exists t. split; [exact E|]. assert (t = t0). { apply instant_inj; auto. }
  subst t. destruct (date_classic path yy ddd H) as [d' [Ed Hd']].
  - rewrite <- Ec, En. destruct V as [_ [Vm Vd]]. rewrite months_len_eq by assumption. rewrite month_len_eq in Vd by assumption.
    pose proof (dbm_within year m d Vm Vd). assert (0 <= days_before_month year m)%Z; [|lia]. rewrite <- months_len_eq by assumption.
    clear. generalize (Z.to_nat (m - 1)). intros k. induction k as [|k IH]; cbn [months_len]; [lia|].
    assert (0 <= month_len year (Z.of_nat (S k)))%Z; [|lia].
    unfold month_len. repeat match goal with |- context [match ?x with _ => _ end] => destruct x end; lia.
  - rewrite Ed. f_equal. rewrite <- Ec in Hd'. exact (is_day_inj _ _ _ _ Hd' Hd).
Qed.
Lemma digits_lit s : forallb is_digit s = true -> digits s.
Proof. intros H. apply digits_class. apply Forall_forall. now apply forallb_forall. Qed.
Lemma in_lit c (s : str) : existsb (ceqb c) s = true -> In c s.
Proof. intros H. apply existsb_exists in H. destruct H as [x [H E]]. apply ceqb_eq in E. now subst. Qed.
Lemma existsb_false_notin c (s : str) : existsb (ceqb c) s = false -> In c s -> False.
Proof. intros H Hi. assert (existsb (ceqb c) s = true); [|congruence]. apply existsb_exists. exists c. split; [exact Hi|now apply ceqb_eq]. Qed.
Ltac lits := repeat split; cbn [List.length]; try reflexivity; try lia; try (now apply lit_word); try (now apply digits_lit); try (now apply in_lit); try (cbn; lia).
Lemma ex_name : classic_name (lit "abcd0010.80o") (lit "80") (lit "001").
Proof. exists (lit "abcd"), (lit "0"), "o"%char, []. lits. Qed.
Lemma centuries_differ : exists path yy ddd t, classic_name (basename path) yy ddd /\ dec_value yy = 80%Z /\ dec_value ddd = 1%Z /\
  validate_epoch 80 1 1 0 0 0 0 = Ok t /\ get_rinex_date path <> Some (dt_date t).
Proof.
  exists (lit "abcd0010.80o"), (lit "80"), (lit "001"), (mkDT 2080 1 1 0 0 0 0). split; [exact ex_name|]. split; [reflexivity|]. split; [reflexivity|].
  split; [reflexivity|]. change (basename (lit "abcd0010.80o")) with (lit "abcd0010.80o"). vm_compute. discriminate.
Qed.
Lemma C14_ex : classic_name (basename (lit "/data/abcd0010.17o")) (lit "17") (lit "001") /\ is_day 2017 1 (2017, 1, 1)%Z.
Proof. split; [exists (lit "abcd"), (lit "0"), "o"%char, []; lits|]. split; [reflexivity|]. split; [repeat split; vm_compute; discriminate|reflexivity]. Qed.
Lemma C16_ex : modern_name (basename (lit "/x/ABCD00JPN_R_20173650000_01D_30S_MO.rnx")) (lit "2017") (lit "365").
Proof. exists (lit "ABCD00JPN"), "R"%char, (lit "0000"), (lit "_01D_30S_MO.rnx"). lits. Qed.
Lemma white_lit s : forallb is_space s = true -> white s.
Proof. intros H. apply Forall_forall. now apply forallb_forall. Qed.
Lemma C47_ex : version_line (lit "     2.1            OBSERVATION DATA    M (MIXED)           RINEX VERSION / TYPE") (lit "2.1") /\
  version_text (lit "2.1") 2100000 /\ version_text (lit "2.10") 2100000 /\ version_text (lit "3") 3000000.
Proof.
  split; [|split; [|split]].
  - exists (lit "     "), (lit "            OBSERVATION DATA    M (MIXED)           "), (lit "RINEX VERSION / TYPE"), [].
    split; [reflexivity|]. split; [now apply white_lit|]. split; [constructor|]. split; [reflexivity|]. split.
    + intros H. eapply existsb_false_notin; [|exact H]. reflexivity.
    + intros c r E. injection E as <- _. split; [unfold digit; cbn; lia|discriminate].
  - exists (lit "2"), (lit "1"). lits; try discriminate; try (now right).
  - exists (lit "2"), (lit "10"). lits; try discriminate; try (now right).
  - exists (lit "3"), []. lits; try discriminate; try (now constructor); try (left; split; reflexivity).
Qed.
Lemma find_obs_ok ls dirs path : (forall d name, In d dirs -> In name (ls d) -> ~ In (ascii_of_nat 10) name) ->
  (In path (find_files ls dirs RE_OBS) <->
   exists d base ext hat packed, In d dirs /\ In (base ++ ext) (ls d) /\ path = path_join d (base ++ ext) /\ obs_base base hat /\ arch ext packed).
Proof.
  intros Hn. unfold find_files. rewrite in_flat_map. split.
  - intros [d [Hd H]]. apply in_map_iff in H. destruct H as [name [<- H]]. apply filter_In in H. destruct H as [H1 H2].
    apply re_obs_ok in H2; [|exact (Hn d name Hd H1)]. destruct H2 as [base [ext [hat [packed [-> [Hb Ha]]]]]]. exists d, base, ext, hat, packed. auto.
  - intros [d [base [ext [hat [packed [Hd [Hi [-> [Hb Ha]]]]]]]]]. exists d. split; [assumption|]. apply in_map. apply filter_In. split; [assumption|].
    apply re_obs_ok; [exact (Hn d _ Hd Hi)|]. exists base, ext, hat, packed. auto.
Qed.
Lemma steps_refuted : exists dir base path, obs_base base false /\ path_of dir (base ++ []) path /\
  expand_plan path <> Ok (plan_for false false).
Proof.
  exists (lit "x.12d"), (lit "abcd0010.17o"), (lit "x.12d/abcd0010.17o"). split.
  - apply (ob_classic (lit "abcd") (lit "001") (lit "0") (lit "17") "o"%char false); lits. left. lits.
  - split; [now right|]. vm_compute. discriminate.
Qed.
Lemma C48_ex : obs_base (lit "abcd0010.17D") true /\ arch (lit ".Z") true /\ clean_dir (lit "/data/2017").
Proof.
  split; [|split].
  - apply (ob_classic (lit "abcd") (lit "001") (lit "0") (lit "17") "D"%char true); lits. left. lits.
  - now left.
  - intros u x v E. exfalso. assert (H : In "."%char (lit "/data/2017")) by (rewrite E; apply in_or_app; right; now left).
    eapply existsb_false_notin; [|exact H]. reflexivity.
Qed.
Lemma doy_is_day t : epoch_ok t -> is_day (dy t) (day_of_year (dy t) (dmo t) (dd t)) (dt_date t).
Proof.
  intros [_ V]. unfold is_day, dt_date. split; [reflexivity|]. split; [exact V|]. rewrite months_len_eq by apply V. reflexivity.
Qed.
Lemma C49_ex : classic_nav_name (lit "brdc0010.17n") 2017 1 "n"%char /\
  modern_nav_name (lit "BRDC00IGS_R_20170010000_01D_MN.rnx") 2017 1 "M"%char.
Proof.
  split.
  - exists (lit "brdc"), (lit "001"), "0"%char, (lit "17"), "n"%char, []. lits.
  - exists (lit "BRDC00IGS"), "R"%char, (lit "2017"), (lit "001"), (lit "0000"), (lit "01D"), [], "M"%char, "N"%char, (lit "rnx"), []. lits. now left.
Qed.
Lemma load_xyz_file_ok ls ps : xyz_lines ls ps -> exists d, load_xyz_file ls = Ok d /\
  (forall t p, last_position t ps p -> exists f, dict_get dt_eqb t d = Some f /\ near_point f p) /\
  (forall t, (forall p, ~ In (t, p) ps) -> dict_get dt_eqb t d = None).
Proof. intros H. apply (load_xyz_ok ls ps H []). Qed.
Lemma C50_ex : exists ps, xyz_lines [lit "# Site: USUD"; []; lit "2011-03-11 05:00:00  -3855263.0771  3427432.6022  3741020.3066"] ps /\ List.length ps = 1.
Proof.
  eexists. split.
  - apply xl_skip; [right; exists [], (lit " Site: USUD"); split; [reflexivity|constructor]|].
    apply xl_skip; [left; constructor|].
    apply xl_pos with (t := mkDT 2011 3 11 5 0 0 0) (p := (Dec true 38552630771 4, Dec false 34274326022 4, Dec false 37410203066 4)); [|constructor].
    exists (lit "2011"), (lit "03"), (lit "11"), (lit "05"), (lit "00"), (lit "00"), (lit " "), (lit "  "), (lit "  "), (lit "  "),
      (lit "-3855263.0771"), (lit "3427432.6022"), (lit "3741020.3066"), [].
    assert (T : forall s n, forallb is_digit s = true -> List.length s = 2 -> dec_value s = n -> two s n) by (intros s n D L V; split; [now apply digits_lit|auto]).
    assert (G : forall s, forallb is_space s = true -> s <> [] -> gap s) by (intros s H N; split; [now apply white_lit|exact N]).
    split; [reflexivity|]. split; [now apply digits_lit|]. split; [reflexivity|]. split; [reflexivity|].
    repeat (split; [now apply T|]). split; [reflexivity|]. split; [repeat split; vm_compute; discriminate|].
    split; [now apply G|]. split; [now apply G|]. split; [now apply G|]. split; [now apply G|]. split; [constructor|].
    split; [|split].
    + exists (lit "3855263"), (lit "0771"). split; [reflexivity|]. split; [now apply digits_lit|]. split; [now apply digits_lit|]. split; [discriminate|]. split; [cbn; lia|]. split; reflexivity.
    + exists (lit "3427432"), (lit "6022"). split; [reflexivity|]. split; [now apply digits_lit|]. split; [now apply digits_lit|]. split; [discriminate|]. split; [cbn; lia|]. split; reflexivity.
    + exists (lit "3741020"), (lit "3066"). split; [reflexivity|]. split; [now apply digits_lit|]. split; [now apply digits_lit|]. split; [discriminate|]. split; [cbn; lia|]. split; reflexivity.
  - reflexivity.
Qed.
Lemma expand_same content raw p : p <> Nothing -> expand_text content content content content p = expand_text raw raw raw content Plain.
Proof. intros H. destruct p; cbn [expand_text]; rewrite ?write_ascii_ok; try reflexivity. congruence. Qed.

Lemma is_ascii_spec c : is_ascii c = (nat_of_ascii c <? 128).
Proof. destruct c as [[] [] [] [] [] [] [] []]; reflexivity. Qed.
Lemma write_ascii_spec s : write_ascii_lines (byte_lines s) = filter (fun c => (nat_of_ascii c <? 128)) s.
Proof. rewrite write_ascii_ok. apply filter_ext. exact is_ascii_spec. Qed.
