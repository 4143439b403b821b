(** Proofs about file dates, navigation names and decoding. *)
From Coq Require Import Reals.
From Verif Require Import Base PyStr PyFloat PyDate PyPath PyRegex P_Str P_Regex S_Text S_Time P_Date M_Common P_Common M_Header M_Names S_Names S_Out P_Out P_Names P_Names2.
Open Scope nat_scope.

(** day of year to date *)
Lemma strptime_valid y j : (1 <= y <= 9999)%Z -> (1 <= j <= year_len y)%Z -> exists d, strptime_day y j = Some d /\ is_day y j d.
Proof.
  intros Hy Hj. unfold strptime_day. assert (H366 : (j <= 366)%Z) by (unfold year_len in Hj; destruct (leap_year y); lia).
  replace ((1 <=? j)%Z && (j <=? 366)%Z && (1 <=? y)%Z) with true by lia.
  assert (E1 : ymd2ord y 1 1 = (days_before_year y + 1)%Z).
  { unfold ymd2ord. replace (days_before_month y 1) with 0%Z; [lia|]. unfold days_before_month. cbn. reflexivity. }
  rewrite E1. set (o := (days_before_year y + 1 + (j - 1))%Z).
  assert (Ho : (1 <= o <= max_ordinal)%Z).
  { unfold o. assert (H1 : (0 <= days_before_year y)%Z) by (unfold days_before_year; lia).
    assert (H2 : (days_before_year y + year_len y <= days_before_year 10000)%Z) by (apply dby_mono; lia).
    change (days_before_year 10000) with 3652059%Z in H2. unfold max_ordinal. lia. }
  replace (o <=? max_ordinal)%Z with true by lia.
  exists (ord2ymd o). split; [reflexivity|]. unfold is_day.
  pose proof (ord_roundtrip o) as R. pose proof (ord2ymd_md o) as V. destruct (ord2ymd o) as [[y' m] d]. cbn [fst snd] in R. destruct V as [V1 V2].
  unfold ymd2ord in R. pose proof (dbm_within y' m d V1 V2) as W.
  assert (y' = y).
  { unfold o in R. destruct (Z.lt_trichotomy y y') as [L|[L|L]]; [pose proof (dby_mono _ _ L); lia|auto|pose proof (dby_mono _ _ L); lia]. }
  subst y'. split; [reflexivity|]. split.
  - split; [assumption|]. split; [assumption|]. rewrite month_len_eq by assumption. assumption.
  - rewrite months_len_eq by assumption. unfold o in R. lia.
Qed.
Lemma strptime_366 y : (1 <= y < 9999)%Z -> year_len y = 365%Z -> strptime_day y 366 = Some ((y + 1)%Z, 1%Z, 1%Z).
Proof.
  intros Hy Hl. destruct (strptime_valid (y + 1) 1) as [d [E D]]; [lia|unfold year_len; destruct (leap_year (y + 1)); lia|].
  unfold strptime_day in *. replace ((1 <=? 366)%Z && (366 <=? 366)%Z && (1 <=? y)%Z) with true by lia.
  replace ((1 <=? 1)%Z && (1 <=? 366)%Z && (1 <=? y + 1)%Z) with true in E by lia.
  replace (ymd2ord (y + 1) 1 1 + (1 - 1))%Z with (ymd2ord y 1 1 + (366 - 1))%Z in E.
  - rewrite E. f_equal. unfold is_day in D. destruct d as [[y' m] dd]. destruct D as [-> [[_ [Hm Hd]] H]].
    rewrite months_len_eq in H by assumption. rewrite month_len_eq in Hd by assumption.
    assert (E2 : ymd2ord (y + 1) m dd = ymd2ord (y + 1) 1 1).
    { unfold ymd2ord. replace (days_before_month (y + 1) 1) with 0%Z by (unfold days_before_month; reflexivity). lia. }
    apply ymd2ord_inj in E2; try lia; try assumption. cbn. lia.
  - unfold ymd2ord. pose proof (dby_step y) as S. rewrite Hl in S.
    replace (days_before_month y 1) with 0%Z by (unfold days_before_month; reflexivity).
    replace (days_before_month (y + 1) 1) with 0%Z by (unfold days_before_month; reflexivity). lia.
Qed.
Lemma strptime_none y j : ~ (1 <= j <= 366)%Z \/ (y < 1)%Z -> strptime_day y j = None.
Proof. intros H. unfold strptime_day. replace ((1 <=? j)%Z && (j <=? 366)%Z && (1 <=? y)%Z) with false by lia. reflexivity. Qed.

(** names *)
Lemma w13_lang pos a b : lang w13 pos a b <-> 1 <= List.length a <= 3 /\ word a.
Proof.
  unfold w13. und. cbn [lang]. split.
  - intros [? [? [-> [[c1 [-> H1]] [H|H]]]]].
    + destruct H as [? [? [-> [[c2 [-> H2]] [H|H]]]]].
      * destruct H as [c3 [-> H3]]. cbn. split; [lia|]. repeat constructor; assumption.
      * subst. cbn. split; [lia|]. repeat constructor; assumption.
    + subst. cbn. split; [lia|]. repeat constructor; assumption.
  - intros [L W]. destruct a as [|c1 [|c2 [|c3 [|? ?]]]]; cbn in L; try lia; inversion W as [|? ? W1 W']; subst.
    + exists [c1], []. split; [reflexivity|]. split; [eauto|]. now right.
    + inversion W' as [|? ? W2 W'']; subst. exists [c1], [c2]. split; [reflexivity|]. split; [eauto|]. left.
      exists [c2], []. split; [reflexivity|]. split; [eauto|]. now right.
    + inversion W' as [|? ? W2 W'']; subst. inversion W'' as [|? ? W3 W3']; subst. exists [c1], [c2; c3]. split; [reflexivity|]. split; [eauto|]. left.
      exists [c2], [c3]. split; [reflexivity|]. split; [eauto|]. left. eauto.
Qed.
Lemma classic_lang name : re_test RE_CLASSIC_RINEX name = true <-> exists yy ddd, classic_name name yy ddd.
Proof.
  rewrite re_test_lang. unfold RE_CLASSIC_RINEX. und. cbn [cats]. split.
  - intros [a [b [-> H]]]. cbn [lang] in H.
    destruct H as [? [? [-> [[-> _] [site [? [-> [H1 [ddd [? [-> [H2 [h [? [-> [H3 [? [? [-> [[dot [-> H4]] [yy [? [-> [H5 [t [-> H6]]]]]]]]]]]]]]]]]]]]]]]]]].
    apply lang_rep_chr in H1. apply lang_rep_chr in H2. apply lang_rep_chr in H5. apply w13_lang in H3. fixc.
    exists yy, ddd, site, h, t, b. rewrite !digits_class. destruct H1, H2, H3, H5. cbn [app]. rewrite <- !app_assoc.
    repeat split; try assumption; try lia. cbn [app]. rewrite <- !app_assoc. reflexivity.
  - intros [yy [ddd [site [h [t [rest [-> [H1 [H2 [H3 [H4 [H5 [H6 [H7 [H8 H9]]]]]]]]]]]]]]].
    exists (site ++ ddd ++ h ++ lit "." ++ yy ++ [t]), rest. split; [rewrite <- !app_assoc; reflexivity|]. cbn [lang].
    exists [], (site ++ ddd ++ h ++ lit "." ++ yy ++ [t]). split; [reflexivity|]. split; [auto|].
    eexists site, _. split; [reflexivity|]. split; [apply lang_rep_chr; auto|].
    eexists ddd, _. split; [reflexivity|]. split; [apply lang_rep_chr; split; [auto|now apply digits_class]|].
    eexists h, _. split; [reflexivity|]. split; [apply w13_lang; auto|].
    exists ["."%char], (yy ++ [t]). split; [reflexivity|]. split; [eexists; split; reflexivity|].
    exists yy, [t]. split; [reflexivity|]. split; [apply lang_rep_chr; split; [auto|now apply digits_class]|].
    exists t. split; [reflexivity|]. now apply one_of_in.
Qed.

Lemma firstn_len {A} n (a b : list A) : List.length a = n -> firstn n (a ++ b) = a.
Proof. apply firstn_app_exact. Qed.
Lemma cut_len {A} (a a' b b' : list A) : List.length a = List.length a' -> a ++ b = a' ++ b' -> a = a' /\ b = b'.
Proof.
  revert a'. induction a as [|x a IH]; intros [|x' a'] L E; try discriminate; [auto|]. cbn in *. injection E as -> E. injection L as L.
  destruct (IH a' L E). subst. auto.
Qed.
(** cut a word at its first dot *)
Lemma cut_dot h h' r r' : word h -> word h' -> h ++ "."%char :: r = h' ++ "."%char :: r' -> h = h' /\ r = r'.
Proof.
  revert h'. induction h as [|c h IH]; intros [|c' h'] W W' E; cbn in E.
  - injection E as ->. auto.
  - injection E as <- _. inversion W'; subst. discriminate.
  - injection E as -> _. inversion W; subst. discriminate.
  - injection E as -> E. inversion W; subst. inversion W'; subst. destruct (IH h' ltac:(assumption) ltac:(assumption) E). subst. auto.
Qed.
Lemma classic_name_inj name yy ddd yy' ddd' : classic_name name yy ddd -> classic_name name yy' ddd' -> yy = yy' /\ ddd = ddd'.
Proof.
  intros [site [h [t [rest [-> [H1 [H2 [H3 [H4 [H5 [H6 [H7 [H8 H9]]]]]]]]]]]]] [site' [h' [t' [rest' [E [H1' [H2' [H3' [H4' [H5' [H6' [H7' [H8' H9']]]]]]]]]]]]].
  unfold chars in *. apply cut_len in E; [|congruence]. destruct E as [_ E]. apply cut_len in E; [|congruence]. destruct E as [-> E].
  apply cut_dot in E; [|assumption|assumption]. destruct E as [_ E]. apply cut_len in E; [|congruence]. destruct E as [-> _]. auto.
Qed.

Lemma glang_w13 pos a b g g' : glang w13 pos a b g g' -> word a /\ 1 <= List.length a <= 3 /\ g' = g.
Proof.
  intros H3. unfold w13 in H3. und. cbn [glang] in H3.
  destruct H3 as [? [? [? [-> [[[c1 [-> A1]] ->] [H|[-> ->]]]]]]]; [|split; [repeat constructor; assumption|cbn; split; [lia|reflexivity]]].
  destruct H as [? [? [? [-> [[[c2 [-> A2]] ->] [H|[-> ->]]]]]]]; [|split; [repeat constructor; assumption|cbn; split; [lia|reflexivity]]].
  destruct H as [[c3 [-> A3]] ->]. split; [repeat constructor; assumption|cbn; split; [lia|reflexivity]].
Qed.
Lemma classic_match name yy ddd : classic_name name yy ddd -> exists m, re_match RE_CLASSIC_RINEX name = Some m /\ group 3 m = yy /\ group 2 m = ddd.
Proof.
  intros Hc. assert (T : re_test RE_CLASSIC_RINEX name = true) by (apply classic_lang; eauto). unfold re_test in T.
  destruct (re_match RE_CLASSIC_RINEX name) as [m|] eqn:E; [clear T|discriminate]. exists m. split; [reflexivity|].
  unfold re_match in E. apply hd_in in E. apply run_glang in E. destruct E as [a [b [g [-> [H ->]]]]].
  unfold RE_CLASSIC_RINEX in H. und. cbn [cats glang] in H.
  destruct H as [? [? [? [-> [[[-> _] ->] H]]]]].
  destruct H as [site [? [? [-> [[g1 [H1 ->]] H]]]]].
  destruct H as [ddd' [? [? [-> [[g2 [H2 ->]] H]]]]].
  destruct H as [h [? [? [-> [H3 H]]]]].
  destruct H as [? [? [? [-> [[[dot [-> H4]] ->] H]]]]].
  destruct H as [yy' [? [? [-> [[g3 [H5 ->]] H]]]]].
  destruct H as [g4 [[[t [-> H6]] ->] ->]].
  apply glang_rep_chr in H1. apply glang_rep_chr in H2. apply glang_rep_chr in H5. destruct H1 as [L1 [F1 ->]]. destruct H2 as [L2 [F2 ->]]. destruct H5 as [L5 [F5 ->]].
  apply glang_w13 in H3. destruct H3 as [W3 [W3' ->]]. fixc.
  assert (Hc' : classic_name (([] ++ site ++ ddd' ++ h ++ ["."%char] ++ yy' ++ [t]) ++ b) yy' ddd').
  { exists site, h, t, b. cbn [app]. rewrite <- !app_assoc. cbn [app]. rewrite <- !app_assoc. rewrite !digits_class. repeat split; try assumption; lia. }
  unfold group. cbn [dict_get Nat.eqb].
  destruct (classic_name_inj _ _ _ _ _ Hc Hc') as [-> ->]. auto.
Qed.

Lemma modern_lang name : re_test RE_MODERN_RINEX name = true <-> exists yyyy ddd, modern_name name yyyy ddd.
Proof.
  rewrite re_test_lang. unfold RE_MODERN_RINEX. und. cbn [cats]. split.
  - intros [a [b [-> H]]]. cbn [lang] in H.
    destruct H as [? [? [-> [[-> _] H]]]].
    destruct H as [s1 [? [-> [H1 H]]]].
    destruct H as [s2 [? [-> [H2 H]]]].
    destruct H as [? [? [-> [[u1 [-> H3]] H]]]].
    destruct H as [? [? [-> [[src [-> H4]] H]]]].
    destruct H as [? [? [-> [[u2 [-> H5]] H]]]].
    destruct H as [yyyy [? [-> [H6 H]]]].
    destruct H as [ddd [hhmm [-> [H7 H8]]]].
    apply lang_rep_chr in H1, H2, H6, H7, H8. fixc.
    exists yyyy, ddd, (s1 ++ s2), src, hhmm, b. rewrite !digits_class. destruct H1, H2, H6, H7, H8.
    unfold chars. rewrite app_length. rewrite <- !app_assoc. cbn [app]. rewrite <- ?app_assoc. cbn [app]. rewrite <- ?app_assoc.
    repeat split; try assumption; try lia. now apply word_app.
  - intros [yyyy [ddd [site [src [hhmm [rest [-> [H1 [H2 [H3 [H4 [H5 [H6 [H7 [H8 H9]]]]]]]]]]]]]]].
    exists (site ++ lit "_" ++ [src] ++ lit "_" ++ yyyy ++ ddd ++ hhmm), rest. split; [now rewrite <- !app_assoc|]. cbn [lang].
    exists [], (site ++ lit "_" ++ [src] ++ lit "_" ++ yyyy ++ ddd ++ hhmm). split; [reflexivity|]. split; [auto|].
    rewrite <- (firstn_skipn 4 site). unfold chars in *.
    assert (W : word (firstn 4 site) /\ word (skipn 4 site)) by (apply word_app; rewrite firstn_skipn; assumption). destruct W as [W1 W2].
    exists (firstn 4 site), (skipn 4 site ++ lit "_" ++ [src] ++ lit "_" ++ yyyy ++ ddd ++ hhmm). split; [now rewrite <- app_assoc|].
    split; [apply lang_rep_chr; split; [rewrite firstn_length; lia|assumption]|].
    eexists (skipn 4 site), _. split; [reflexivity|]. split; [apply lang_rep_chr; split; [rewrite skipn_length; lia|assumption]|].
    eexists (lit "_"), _. split; [reflexivity|]. split; [eexists; split; reflexivity|].
    eexists [src], _. split; [reflexivity|]. split; [exists src; split; [reflexivity|]; now apply one_of_in|].
    eexists (lit "_"), _. split; [reflexivity|]. split; [eexists; split; reflexivity|].
    eexists yyyy, _. split; [reflexivity|]. split; [apply lang_rep_chr; split; [assumption|now apply digits_class]|].
    eexists ddd, hhmm. split; [reflexivity|]. split; apply lang_rep_chr; (split; [assumption|now apply digits_class]).
Qed.
Lemma modern_name_inj name yy ddd yy' ddd' : modern_name name yy ddd -> modern_name name yy' ddd' -> yy = yy' /\ ddd = ddd'.
Proof.
  intros [site [src [hhmm [rest [-> [H1 [H2 [H3 [H4 [H5 [H6 [H7 [H8 H9]]]]]]]]]]]]] [site' [src' [hhmm' [rest' [E [H1' [H2' [H3' [H4' [H5' [H6' [H7' [H8' H9']]]]]]]]]]]]].
  unfold chars in *. apply cut_len in E; [|congruence]. destruct E as [_ E]. apply cut_len in E; [|reflexivity]. destruct E as [_ E].
  apply cut_len in E; [|reflexivity]. destruct E as [_ E]. apply cut_len in E; [|reflexivity]. destruct E as [_ E].
  apply cut_len in E; [|congruence]. destruct E as [-> E]. apply cut_len in E; [|congruence]. destruct E as [-> E]. auto.
Qed.
Lemma modern_match name yy ddd : modern_name name yy ddd -> exists m, re_match RE_MODERN_RINEX name = Some m /\ group 2 m = yy /\ group 3 m = ddd.
Proof.
  intros Hc. assert (T : re_test RE_MODERN_RINEX name = true) by (apply modern_lang; eauto). unfold re_test in T.
  destruct (re_match RE_MODERN_RINEX name) as [m|] eqn:E; [clear T|discriminate]. exists m. split; [reflexivity|].
  unfold re_match in E. apply hd_in in E. apply run_glang in E. destruct E as [a [b [g [-> [H ->]]]]].
  unfold RE_MODERN_RINEX in H. und. cbn [cats glang] in H.
  destruct H as [? [? [? [-> [[[-> _] ->] H]]]]].
  destruct H as [s1 [? [? [-> [[g1 [H1 ->]] H]]]]].
  destruct H as [s2 [? [? [-> [H2 H]]]]].
  destruct H as [? [? [? [-> [[[u1 [-> H3]] ->] H]]]]].
  destruct H as [? [? [? [-> [[[src [-> H4]] ->] H]]]]].
  destruct H as [? [? [? [-> [[[u2 [-> H5]] ->] H]]]]].
  destruct H as [yyyy [? [? [-> [[g2 [H6 ->]] H]]]]].
  destruct H as [ddd' [hhmm [? [-> [[g3 [H7 ->]] H8]]]]].
  apply glang_rep_chr in H1, H2, H6, H7, H8.
  destruct H1 as [L1 [F1 ->]]. destruct H2 as [L2 [F2 ->]]. destruct H6 as [L6 [F6 ->]]. destruct H7 as [L7 [F7 ->]]. destruct H8 as [L8 [F8 ->]]. fixc.
  assert (Hc' : modern_name (([] ++ s1 ++ s2 ++ ["_"%char] ++ [src] ++ ["_"%char] ++ yyyy ++ ddd' ++ hhmm) ++ b) yyyy ddd').
  { exists (s1 ++ s2), src, hhmm, b. unfold chars. rewrite app_length. rewrite <- !app_assoc. cbn [app]. rewrite <- ?app_assoc. cbn [app]. rewrite <- ?app_assoc.
    rewrite !digits_class. repeat split; try assumption; try lia. now apply word_app. }
  unfold group. cbn [dict_get Nat.eqb].
  destruct (modern_name_inj _ _ _ _ _ Hc Hc') as [-> ->]. auto.
Qed.
(** a name is not of both forms: the eleventh character of a modern name is no digit *)
Lemma names_excl name yy ddd yyyy ddd' : classic_name name yy ddd -> modern_name name yyyy ddd' -> False.
Proof.
  intros [site [h [t [rest [-> [H1 [H2 [H3 [H4 [H5 [H6 [H7 [H8 H9]]]]]]]]]]]]] [site' [src [hhmm [rest' [E [H1' [H2' [H3' _]]]]]]]].
  unfold chars in *.
  assert (W : word (firstn 12 (site' ++ lit "_" ++ [src] ++ lit "_" ++ yyyy ++ ddd' ++ hhmm ++ rest'))).
  { replace (site' ++ lit "_" ++ [src] ++ lit "_" ++ yyyy ++ ddd' ++ hhmm ++ rest') with ((site' ++ lit "_" ++ [src] ++ lit "_") ++ yyyy ++ ddd' ++ hhmm ++ rest') by (now rewrite <- !app_assoc).
    rewrite firstn_len by (rewrite !app_length; cbn; lia).
    apply word_app. split; [assumption|]. apply word_app. split; [now apply lit_word|]. apply word_app. split; [|now apply lit_word].
    constructor; [|constructor]. eapply In_lower_word; [exact H3'|]. now apply lit_word. }
  rewrite <- E in W. eapply (word_no "."%char) in W; [|reflexivity]. apply W.
  replace (site ++ ddd ++ h ++ lit "." ++ yy ++ [t] ++ rest) with ((site ++ ddd ++ h ++ lit ".") ++ yy ++ [t] ++ rest) by (now rewrite <- !app_assoc).
  rewrite firstn_app. apply in_or_app. left. rewrite firstn_all2 by (rewrite !app_length; cbn; lia).
  rewrite !in_app_iff. right; right; right. now left.
Qed.

Lemma rinex_date_classic path name yy ddd : basename path = name -> classic_name name yy ddd ->
  get_rinex_date path = strptime_day (name_century (dec_value yy)) (dec_value ddd).
Proof.
  intros E H. unfold get_rinex_date. rewrite E. destruct (classic_match _ _ _ H) as [m [-> [-> ->]]]. rewrite !digits_val_dec.
  f_equal. unfold year_y, name_century. destruct (dec_value yy <=? 68)%Z eqn:E1, (dec_value yy <? 69)%Z eqn:E2; try reflexivity; lia.
Qed.
Lemma rinex_date_modern path name yyyy ddd : basename path = name -> modern_name name yyyy ddd ->
  get_rinex_date path = strptime_day (dec_value yyyy) (dec_value ddd).
Proof.
  intros E H. unfold get_rinex_date. rewrite E. destruct (re_match RE_CLASSIC_RINEX name) as [m|] eqn:M.
  - exfalso. assert (T : re_test RE_CLASSIC_RINEX name = true) by (unfold re_test; now rewrite M). apply classic_lang in T. destruct T as [? [? T]].
    eapply names_excl; eassumption.
  - destruct (modern_match _ _ _ H) as [m [-> [-> ->]]]. now rewrite !digits_val_dec.
Qed.
Lemma rinex_date_none path : (forall yy ddd, ~ classic_name (basename path) yy ddd) -> (forall yy ddd, ~ modern_name (basename path) yy ddd) ->
  get_rinex_date path = None.
Proof.
  intros H1 H2. unfold get_rinex_date. destruct (re_match RE_CLASSIC_RINEX (basename path)) as [m|] eqn:M.
  - assert (T : re_test RE_CLASSIC_RINEX (basename path) = true) by (unfold re_test; now rewrite M). apply classic_lang in T. destruct T as [? [? T]].
    now apply H1 in T.
  - destruct (re_match RE_MODERN_RINEX (basename path)) as [m|] eqn:M2; [|reflexivity].
    assert (T : re_test RE_MODERN_RINEX (basename path) = true) by (unfold re_test; now rewrite M2). apply modern_lang in T. destruct T as [? [? T]].
    now apply H2 in T.
Qed.
