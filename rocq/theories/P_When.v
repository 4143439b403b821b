(** The datetime column. *)
From Coq Require Import ZifyBool ZifyNat.
From Verif Require Import Base PyStr PyFloat PyDate PyStrftime S_Text S_Time S_When P_Str P_Float P_Date P_Out.
Open Scope nat_scope.

Lemma fmt0_len k n : (0 <= n < 10 ^ Z.of_nat k)%Z -> 0 < k -> List.length (fmt_0d k n) = k /\ dec_value (fmt_0d k n) = n.
Proof.
  intros Hn Hk. unfold fmt_0d. replace (n <? 0)%Z with false by lia. destruct (pad_left_digits k n Hn Hk) as [H1 [H2 H3]]. split; assumption.
Qed.
Lemma weekday_range t : (0 <= weekday t < 7)%Z.
Proof. unfold weekday. apply Z.mod_pos_bound. lia. Qed.
Lemma in_seven n : (0 <= n < 7)%Z -> (n = 0 \/ n = 1 \/ n = 2 \/ n = 3 \/ n = 4 \/ n = 5 \/ n = 6)%Z.
Proof. lia. Qed.
Lemma day_name_len t : List.length (firstn 3 (day_name t)) = 3.
Proof. unfold day_name. pose proof (in_seven _ (weekday_range t)) as H. destruct H as [H|[H|[H|[H|[H|[H|H]]]]]]; rewrite H; reflexivity. Qed.
Lemma weekday_len t : List.length (nat_str (weekday t)) = 1.
Proof. pose proof (in_seven _ (weekday_range t)) as H. destruct H as [H|[H|[H|[H|[H|[H|H]]]]]]; rewrite H; reflexivity. Qed.
Lemma in_twelve n : (1 <= n <= 12)%Z -> (n = 1 \/ n = 2 \/ n = 3 \/ n = 4 \/ n = 5 \/ n = 6 \/ n = 7 \/ n = 8 \/ n = 9 \/ n = 10 \/ n = 11 \/ n = 12)%Z.
Proof. lia. Qed.
Lemma month_name_len t : (1 <= dmo t <= 12)%Z -> List.length (firstn 3 (month_name t)) = 3.
Proof. intros Hm. unfold month_name. pose proof (in_twelve _ Hm) as H. destruct H as [H|[H|[H|[H|[H|[H|[H|[H|[H|[H|[H|H]]]]]]]]]]]; rewrite H; reflexivity. Qed.
Lemma year_len4 y : (1000 <= y <= 9999)%Z -> List.length (nat_str y) = 4 /\ dec_value (nat_str y) = y.
Proof.
  intros Hy. destruct (nat_str_spec y) as [H1 [H2 [H3 H4]]]; [lia|]. split; [|exact H3]. specialize (H4 4 ltac:(lia) ltac:(cbn; lia)).
  destruct (le_lt_dec 4 (List.length (nat_str y))) as [L|L]; [lia|exfalso]. pose proof (dec_value_bound _ H1) as B. rewrite H3 in B.
  assert (10 ^ Z.of_nat (List.length (nat_str y)) <= 10 ^ 3)%Z by (apply Z.pow_le_mono_r; lia). lia.
Qed.
Lemma pad_two n : (0 <= n < 100)%Z -> List.length (pad_left " "%char 2 (nat_str n)) = 2.
Proof.
  intros Hn. destruct (nat_str_spec n) as [H1 [H2 [H3 H4]]]; [lia|]. specialize (H4 2 ltac:(lia) ltac:(cbn; lia)). unfold pad_left, repeat_c. rewrite app_length, repeat_length. lia.
Qed.

Section One.
Variables (t : datetime).
Hypothesis Ht : common_era t.
Lemma month_ok : (1 <= dmo t <= 12)%Z. Proof. destruct Ht as [[[_ [H _]] _] _]. exact H. Qed.
Lemma year_ok : (1000 <= dy t <= 9999)%Z. Proof. exact (proj2 Ht). Qed.
Lemma day_ok : (1 <= dd t <= 31)%Z.
Proof.
  destruct Ht as [[[_ [Hm Hd]] _] _]. assert (month_len (dy t) (dmo t) <= 31)%Z; [|lia]. rewrite month_len_eq by exact Hm. clear Hd. unfold days_in_month.
  pose proof (in_twelve _ Hm) as H. destruct H as [H|[H|[H|[H|[H|[H|[H|[H|[H|[H|[H|H]]]]]]]]]]]; rewrite H; cbn; try lia. destruct (is_leap _); lia.
Qed.
Lemma time_ok : (0 <= dh t <= 23)%Z /\ (0 <= dmi t <= 59)%Z /\ (0 <= ds t <= 59)%Z /\ (0 <= dus t <= 999999)%Z.
Proof. exact (proj2 (proj1 Ht)). Qed.
Lemma yday_ok : (1 <= yday t <= 366)%Z.
Proof. exact (doy_range _ _ _ (proj1 (proj1 Ht))). Qed.
Lemma two n : (0 <= n < 100)%Z -> List.length (fmt_0d 2 n) = 2.
Proof. intros H. apply (fmt0_len 2 n); [cbn; lia|lia]. Qed.
Lemma week_ok k : (0 <= k < 7)%Z -> (0 <= (yday t - 1 + 7 - k) / 7 < 100)%Z.
Proof. pose proof yday_ok. intros Hk. split; [apply Z.div_pos; lia|apply Z.div_lt_upper_bound; lia]. Qed.
Lemma clock_len : List.length (clock t) = 8.
Proof. pose proof time_ok as [H1 [H2 [H3 _]]]. unfold clock. rewrite !app_length, !two by lia. reflexivity. Qed.
Lemma code_len d k : code_width d = Some k -> exists s, directive d t = Some s /\ List.length s = k.
Proof.
  pose proof month_ok. pose proof year_ok. pose proof day_ok. pose proof time_ok as [T1 [T2 [T3 T4]]]. pose proof yday_ok. pose proof (weekday_range t) as Hwd.
  intros Hk. destruct d as [[] [] [] [] [] [] [] []]; try discriminate Hk; injection Hk as <-; cbn [directive]; eexists; (split; [reflexivity|]);
    repeat rewrite app_length; rewrite ?day_name_len, ?weekday_len, ?month_name_len, ?clock_len, ?(proj1 (year_len4 _ year_ok)), ?pad_two by lia; try reflexivity;
    try (rewrite !two; [reflexivity|..]; try lia; try (apply Z.mod_pos_bound; lia)).
  all: try (apply fmt0_len; cbn; lia).
  all: try (unfold hour12; destruct (_ =? 0)%Z; pose proof (Z.mod_pos_bound (dh t) 12); lia).
  all: try (apply week_ok; try (apply Z.mod_pos_bound); lia).
  all: try (destruct (dh t <? 12)%Z; reflexivity).
Qed.
End One.

Lemma text_step c r t : c <> "%"%char -> strf (c :: r) t = match strf r t with Some b => Some (c :: b) | None => None end.
Proof. intros H. cbn [strf]. destruct (ceqb c "%") eqn:E; [apply ceqb_eq in E; contradiction|reflexivity]. Qed.
Lemma fixed_text fmt n : fixed fmt n -> forall t, common_era t -> exists s, strf fmt t = Some s /\ List.length s = n.
Proof.
  intros H. induction H as [| |c r n Hc H IH|d k r n Hk H IH]; intros t Ht.
  - exists []. split; reflexivity.
  - exists ["%"%char]. split; reflexivity.
  - destruct (IH t Ht) as [s [E L]]. exists (c :: s). rewrite text_step by exact Hc. rewrite E. split; [reflexivity|cbn; now rewrite L].
  - destruct (IH t Ht) as [s [E L]]. destruct (code_len t Ht d k Hk) as [a [Ea La]]. exists (a ++ s). cbn [strf]. change (ceqb "%" "%") with true. cbv iota. rewrite Ea, E. split; [reflexivity|].
    rewrite app_length. lia.
Qed.
Lemma fixed_width other fmt n t : fixed fmt n -> common_era t -> List.length (strftime other fmt t) = n.
Proof. intros H Ht. destruct (fixed_text fmt n H t Ht) as [s [E L]]. unfold strftime. rewrite E. exact L. Qed.

Lemma app_len_inj {A} (a b : list A) x y : List.length a = List.length b -> a ++ x = b ++ y -> a = b /\ x = y.
Proof.
  revert b. induction a as [|p a IH]; intros [|q b] L E; try discriminate; [split; [reflexivity|exact E]|]. cbn in L, E. injection E as -> E. destruct (IH b) as [-> ->]; [lia|exact E|split; reflexivity].
Qed.
Ltac sevens H := destruct H as [H|[H|[H|[H|[H|[H|H]]]]]].
Ltac twelves H := destruct H as [H|[H|[H|[H|[H|[H|[H|[H|[H|[H|[H|H]]]]]]]]]]].
Lemma day_name_apart t u x y : day_name t ++ x = day_name u ++ y -> day_name t = day_name u /\ x = y.
Proof.
  unfold day_name. generalize (in_seven _ (weekday_range t)) (in_seven _ (weekday_range u)). generalize (weekday t) (weekday u). intros a b Ha Hb.
  sevens Ha; sevens Hb; rewrite Ha, Hb; cbn; intros E; try discriminate E; injection E as E; split; congruence.
Qed.
Lemma month_name_apart t u x y : (1 <= dmo t <= 12)%Z -> (1 <= dmo u <= 12)%Z -> month_name t ++ x = month_name u ++ y -> dmo t = dmo u /\ x = y.
Proof.
  unfold month_name. intros Ht Hu. generalize (in_twelve _ Ht) (in_twelve _ Hu). generalize (dmo t) (dmo u). intros a b Ha Hb.
  twelves Ha; twelves Hb; rewrite Ha, Hb; cbn; intros E; try discriminate E; injection E as E; (split; [reflexivity|exact E]).
Qed.
Lemma month_three t u : (1 <= dmo t <= 12)%Z -> (1 <= dmo u <= 12)%Z -> firstn 3 (month_name t) = firstn 3 (month_name u) -> dmo t = dmo u.
Proof.
  unfold month_name. intros Ht Hu. generalize (in_twelve _ Ht) (in_twelve _ Hu). generalize (dmo t) (dmo u). intros a b Ha Hb.
  twelves Ha; twelves Hb; rewrite Ha, Hb; cbn; intros E; try discriminate E; reflexivity.
Qed.
Lemma code_apart d t u : common_era t -> common_era u -> code_width d <> None \/ d = "A"%char \/ d = "B"%char ->
  exists a b, directive d t = Some a /\ directive d u = Some b /\ forall x y, a ++ x = b ++ y -> a = b /\ x = y.
Proof.
  intros Ht Hu [Hd|[->| ->]].
  - destruct (code_width d) as [k|] eqn:Hk; [|contradiction]. destruct (code_len t Ht d k Hk) as [a [Ea La]]. destruct (code_len u Hu d k Hk) as [b [Eb Lb]].
    exists a, b. split; [exact Ea|]. split; [exact Eb|]. intros x y. apply app_len_inj. lia.
  - exists (day_name t), (day_name u). split; [reflexivity|]. split; [reflexivity|]. exact (day_name_apart t u).
  - exists (month_name t), (month_name u). split; [reflexivity|]. split; [reflexivity|]. intros x y E. destruct (month_name_apart t u x y (month_ok t Ht) (month_ok u Hu) E) as [H ->]. split; [|reflexivity].
    unfold month_name. now rewrite H.
Qed.
Lemma doc_text fmt : documented fmt -> forall t, common_era t -> exists s, strf fmt t = Some s.
Proof.
  intros H. induction H as [| |c r Hc H IH|d r Hk H IH]; intros t Ht.
  - exists []. reflexivity.
  - exists ["%"%char]. reflexivity.
  - destruct (IH t Ht) as [s E]. exists (c :: s). rewrite text_step by exact Hc. now rewrite E.
  - destruct (IH t Ht) as [s E]. destruct (code_apart d t t Ht Ht Hk) as [a [_ [Ea _]]]. exists (a ++ s). cbn [strf]. change (ceqb "%" "%") with true. cbv iota. now rewrite Ea, E.
Qed.
Lemma same_codes fmt : documented fmt -> forall t u s, common_era t -> common_era u -> strf fmt t = Some s -> strf fmt u = Some s ->
  forall d, uses d fmt -> directive d t = directive d u.
Proof.
  intros H. induction H as [| |c r Hc H IH|e r Hk H IH]; intros t u s Ht Hu Et Eu d Hd.
  - inversion Hd.
  - inversion Hd; subst; contradiction.
  - rewrite text_step in Et, Eu by exact Hc. destruct (strf r t) as [a|] eqn:Ea; [|discriminate]. destruct (strf r u) as [b|] eqn:Eb; [|discriminate].
    injection Et as <-. injection Eu as ->. inversion Hd; subst; [contradiction| |contradiction]. exact (IH t u a Ht Hu Ea Eb d H3).
  - destruct (code_apart e t u Ht Hu Hk) as [a [b [Ea [Eb Hab]]]].
    cbn [strf] in Et, Eu. change (ceqb "%" "%") with true in Et, Eu. cbv iota in Et, Eu. rewrite Ea in Et. rewrite Eb in Eu.
    destruct (strf r t) as [x|] eqn:Ex; [|discriminate]. destruct (strf r u) as [y|] eqn:Ey; [|discriminate]. injection Et as <-. injection Eu as Eu.
    destruct (Hab x y (eq_sym Eu)) as [-> ->]. inversion Hd; subst; [congruence|contradiction|]. exact (IH t u y Ht Hu Ex Ey d H1).
Qed.
Lemma fmt0_inj k a b : (0 <= a < 10 ^ Z.of_nat k)%Z -> (0 <= b < 10 ^ Z.of_nat k)%Z -> 0 < k -> Some (fmt_0d k a) = Some (fmt_0d k b) -> a = b.
Proof. intros Ha Hb Hk E. injection E as E. rewrite <- (proj2 (fmt0_len k a Ha Hk)), <- (proj2 (fmt0_len k b Hb Hk)). now rewrite E. Qed.
Lemma some_inj' {A} (a b : A) : Some a = Some b -> a = b. Proof. congruence. Qed.
Lemma value_of_code d t u : common_era t -> common_era u -> directive d t = directive d u -> code_value d t = code_value d u.
Proof.
  intros Ht Hu E. pose proof (year_ok t Ht). pose proof (year_ok u Hu). pose proof (month_ok t Ht). pose proof (month_ok u Hu). pose proof (day_ok t Ht). pose proof (day_ok u Hu).
  pose proof (time_ok t Ht) as [T1 [T2 [T3 T4]]]. pose proof (time_ok u Hu) as [U1 [U2 [U3 U4]]]. pose proof (yday_ok t Ht). pose proof (yday_ok u Hu).
  assert (Hj : yday t = yday u -> (civil_day (dy t) (dmo t) (dd t) - civil_day (dy t) 1 1 + 1 = civil_day (dy u) (dmo u) (dd u) - civil_day (dy u) 1 1 + 1)%Z).
  { rewrite !doy_eq by lia. exact (fun X => X). }
  destruct d as [[] [] [] [] [] [] [] []]; try reflexivity; cbn [code_value]; cbn [directive] in E;
    try (revert E; apply fmt0_inj; cbn; lia).
  - apply some_inj' in E. rewrite <- (proj2 (year_len4 _ (year_ok t Ht))), <- (proj2 (year_len4 _ (year_ok u Hu))). now rewrite E.
  - apply Hj. revert E. apply fmt0_inj; cbn; lia.
  - apply some_inj' in E. exact (month_three t u ltac:(assumption) ltac:(assumption) E).
  - apply some_inj' in E. exact (proj1 (month_name_apart t u [] [] ltac:(assumption) ltac:(assumption) (f_equal (fun z => z ++ []) E))).
Qed.
Lemma text_tells other fmt t u d : documented fmt -> common_era t -> common_era u -> strftime other fmt t = strftime other fmt u -> uses d fmt -> code_value d t = code_value d u.
Proof.
  intros H Ht Hu E Hd. destruct (doc_text fmt H t Ht) as [s Es]. destruct (doc_text fmt H u Hu) as [r Er].
  unfold strftime in E. rewrite Es, Er in E. subst r. apply value_of_code; [exact Ht|exact Hu|]. exact (same_codes fmt H t u s Ht Hu Es Er d Hd).
Qed.
Lemma text_second other fmt t u : documented fmt -> to_second fmt -> common_era t -> common_era u -> strftime other fmt t = strftime other fmt u ->
  (instant t - dus t = instant u - dus u)%Z /\ (uses "f" fmt -> t = u).
Proof.
  intros H [H1 [H2 [H3 [H4 H5]]]] Ht Hu E. pose proof (fun d => text_tells other fmt t u d H Ht Hu E) as G.
  pose proof (G _ H1) as Gy. pose proof (G _ H3) as Gh. pose proof (G _ H4) as Gm. pose proof (G _ H5) as Gs. cbn [code_value] in Gy, Gh, Gm, Gs.
  assert (Gd : civil_day (dy t) (dmo t) (dd t) = civil_day (dy u) (dmo u) (dd u)).
  { destruct H2 as [Hj|[Hm Hd]].
    - pose proof (G _ Hj) as Gj. cbn [code_value] in Gj. rewrite Gy in Gj |- *. lia.
    - assert (Gmo : dmo t = dmo u) by (destruct Hm as [Hm|[Hm|Hm]]; exact (G _ Hm)). pose proof (G _ Hd) as Gdd. cbn [code_value] in Gdd. congruence. }
  assert (Ei : (instant t - dus t = instant u - dus u)%Z) by (unfold instant, midnight; rewrite Gd, Gh, Gm, Gs; lia).
  split; [exact Ei|]. intros Hf. pose proof (G _ Hf) as Gf. cbn [code_value] in Gf. apply instant_inj; [exact (proj1 Ht)|exact (proj1 Hu)|lia].
Qed.
Lemma fixed_documented fmt n : fixed fmt n -> documented fmt.
Proof. intros H. induction H as [| |c r n Hc H IH|d k r n Hk H IH]; [apply dc_end|apply dc_last|apply dc_text; assumption|]. apply dc_code; [|exact IH]. left. congruence. Qed.
