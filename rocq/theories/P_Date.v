(** Calendar lemmas. *)
From Coq Require Import ZifyBool ZifyNat.
From Verif Require Import Base PyStr PyFloat PyDate S_Time.
Open Scope Z_scope.
Ltac Zify.zify_post_hook ::= Z.div_mod_to_equations.

Lemma leap_eq y : leap_year y = is_leap y.
Proof.
  unfold leap_year, is_leap. destruct (y mod 400 =? 0) eqn:E4, (y mod 4 =? 0) eqn:E1, (y mod 100 =? 0) eqn:E2; try reflexivity; exfalso; lia.
Qed.
Lemma month_len_eq y m : 1 <= m <= 12 -> month_len y m = days_in_month y m.
Proof.
  intros H. unfold days_in_month. rewrite <- leap_eq.
  assert (m = 1 \/ m = 2 \/ m = 3 \/ m = 4 \/ m = 5 \/ m = 6 \/ m = 7 \/ m = 8 \/ m = 9 \/ m = 10 \/ m = 11 \/ m = 12) as Hm by lia.
  decompose [or] Hm; subst m; reflexivity.
Qed.
Lemma dby_step y : days_before_year (y + 1) = days_before_year y + year_len y.
Proof.
  unfold days_before_year, year_len. rewrite leap_eq. unfold is_leap.
  replace (y + 1 - 1) with y by lia.
  destruct (y mod 4 =? 0) eqn:E1, (y mod 100 =? 0) eqn:E2, (y mod 400 =? 0) eqn:E4; cbn [andb orb negb]; lia.
Qed.
Lemma years_len_eq n : years_len n = days_before_year (Z.of_nat n + 1).
Proof.
  induction n as [|n IH]; [reflexivity|]. cbn [years_len]. rewrite IH.
  replace (Z.of_nat n + 1) with (Z.of_nat (S n)) by lia. rewrite <- dby_step. f_equal; lia.
Qed.
Lemma months_len_eq y m : 1 <= m <= 12 -> months_len y (Z.to_nat (m - 1)) = days_before_month y m.
Proof.
  intros H. unfold days_before_month. rewrite <- leap_eq.
  assert (m = 1 \/ m = 2 \/ m = 3 \/ m = 4 \/ m = 5 \/ m = 6 \/ m = 7 \/ m = 8 \/ m = 9 \/ m = 10 \/ m = 11 \/ m = 12) as Hm by lia.
  clear H; decompose [or] Hm; subst m; destruct (leap_year y) eqn:E; cbv -[leap_year]; rewrite ?E; reflexivity.
Qed.
Lemma civil_day_eq y m d : 1 <= y -> 1 <= m <= 12 -> civil_day y m d = ymd2ord y m d - 1.
Proof.
  intros Hy Hm. unfold civil_day, ymd2ord. rewrite years_len_eq, months_len_eq by exact Hm.
  replace (Z.of_nat (Z.to_nat (y - 1)) + 1) with y by lia. lia.
Qed.

Lemma valid_date_iff y m d : valid_date y m d <-> ymd_ok y m d = true.
Proof.
  unfold valid_date, ymd_ok. split.
  - intros [H1 [H2 H3]]. rewrite month_len_eq in H3 by exact H2. lia.
  - intros H. assert (1 <= m <= 12) by lia. rewrite month_len_eq by assumption. lia.
Qed.
Lemma valid_datetime_iff t : valid_datetime t <-> dt_ok t = true.
Proof.
  unfold valid_datetime, dt_ok, hms_ok. rewrite valid_date_iff.
  destruct (ymd_ok (dy t) (dmo t) (dd t)); cbn [andb]; split; intros H; try lia.
Qed.
Lemma instant_eq t : valid_datetime t -> instant t = dt_us t.
Proof.
  intros [[H1 [H2 H3]] _]. unfold instant, midnight, dt_us, tod_us, us_per_day, us_per_sec.
  rewrite civil_day_eq by lia. lia.
Qed.

(** ** fromordinal / toordinal *)
Definition chk1 (n : Z) : bool :=
  let '(y, m, d) := ord2ymd (n + 1) in
  (ymd2ord y m d =? n + 1) && (1 <=? y) && (y <=? 400) && (1 <=? m) && (m <=? 12) && (1 <=? d) && (d <=? days_in_month y m).
(** day of the year to month and day *)
Definition md_of (leap : bool) (n : Z) : Z * Z :=
  let m := Z.shiftr (n + 50) 5 in
  let pre := dbm_table m + (if (2 <? m) && leap then 1 else 0) in
  if n <? pre then let m' := m - 1 in let dim := if (m' =? 2) && leap then 29 else days_in_month 1 m' in (m', n - (pre - dim) + 1)
  else (m, n - pre + 1).
Definition dbm_l (leap : bool) (m : Z) : Z := dbm_table m + (if (2 <? m) && leap then 1 else 0).
Definition dim_l (leap : bool) (m : Z) : Z := if m =? 2 then (if leap then 29 else 28) else if (m =? 4) || (m =? 6) || (m =? 9) || (m =? 11) then 30 else 31.
Definition md_chk (leap : bool) (n : Z) : bool :=
  let '(m, d) := md_of leap n in (dbm_l leap m + d =? n + 1) && (1 <=? m) && (m <=? 12) && (1 <=? d) && (d <=? dim_l leap m).
Lemma md_sweep : forallb (fun k => md_chk true (Z.of_nat k) && md_chk false (Z.of_nat k)) (seq 0 365) = true.
Proof. vm_compute. reflexivity. Qed.
Lemma md_ok leap n : 0 <= n < 365 -> md_chk leap n = true.
Proof.
  intros H. pose proof md_sweep as S. rewrite forallb_forall in S. specialize (S (Z.to_nat n)).
  rewrite Z2Nat.id in S by lia. destruct leap; [apply (andb_prop _ _ (S ltac:(apply in_seq; lia)))|apply (andb_prop _ _ (S ltac:(apply in_seq; lia)))].
Qed.
Lemma dbm_l_eq y m : days_before_month y m = dbm_l (is_leap y) m.
Proof. reflexivity. Qed.
Lemma dim_l_eq y m : days_in_month y m = dim_l (is_leap y) m.
Proof. reflexivity. Qed.
Lemma chk1_ok n : 0 <= n < 146097 -> chk1 n = true.
Proof.
  intros Hn. unfold chk1, ord2ymd. replace (n + 1 - 1) with n by lia. rewrite (Z.div_small n 146097), (Z.mod_small n 146097) by lia.
  cbv zeta.
  set (c := n / 36524). set (r1 := n mod 36524). set (q := r1 / 1461). set (r2 := r1 mod 1461). set (k := r2 / 365). set (r3 := r2 mod 365).
  assert (E1 : n = 36524 * c + r1 /\ 0 <= r1 < 36524 /\ 0 <= c <= 4) by (unfold c, r1; lia).
  assert (E2 : r1 = 1461 * q + r2 /\ 0 <= r2 < 1461 /\ 0 <= q <= 24) by (unfold q, r2; lia).
  assert (E3 : r2 = 365 * k + r3 /\ 0 <= r3 < 365 /\ 0 <= k <= 4) by (unfold k, r3; lia).
  clearbody r3 k r2 q r1 c. destruct E1 as [E1 [B1 C1]], E2 as [E2 [B2 C2]], E3 as [E3 [B3 C3]].
  destruct ((k =? 4) || (c =? 4)) eqn:E4.
  - assert (Hc : (c = 4 /\ r1 = 0) \/ (k = 4 /\ r3 = 0)) by lia.
    unfold ymd2ord, days_before_month, days_before_year, days_in_month.
    change (12 =? 2) with false. change ((12 =? 4) || (12 =? 6) || (12 =? 9) || (12 =? 11)) with false. cbv iota.
    change (dbm_table 12) with 334. change (2 <? 12) with true.
    assert (HL : is_leap (0 * 400 + 1 + c * 100 + q * 4 + k - 1) = true).
    { unfold is_leap. destruct Hc as [[-> ->]|[-> ->]]; [assert (q = 0 /\ k = 0) as [-> ->] by lia; reflexivity|].
      assert (c < 4) by lia. assert (c = 3 \/ q < 24) by lia. rewrite andb_true_iff, orb_true_iff, negb_true_iff, !Z.eqb_eq, Z.eqb_neq. lia. }
    rewrite HL. cbn [andb]. destruct Hc as [[-> ->]|[-> ->]]; [assert (q = 0 /\ k = 0) as [-> ->] by lia; subst; reflexivity|]. lia.
  - set (y := 0 * 400 + 1 + c * 100 + q * 4 + k).
    assert (HL : is_leap y = (k =? 3) && (negb (q =? 24) || (c =? 3))).
    { unfold is_leap, y. apply eq_true_iff_eq. rewrite !andb_true_iff, !orb_true_iff, !negb_true_iff, !Z.eqb_eq, !Z.eqb_neq. lia. }
    assert (HY : days_before_year y = 36524 * c + 1461 * q + 365 * k) by (unfold days_before_year, y; lia).
    rewrite <- HL. pose proof (md_ok (is_leap y) r3 B3) as M. unfold md_chk, md_of in M.
    assert (Hy : 1 <= y <= 400) by (unfold y; lia).
    destruct (r3 <? dbm_table (Z.shiftr (r3 + 50) 5) + (if (2 <? Z.shiftr (r3 + 50) 5) && is_leap y then 1 else 0)) eqn:EP.
    + set (d := r3 - _ + 1) in *. set (m := Z.shiftr (r3 + 50) 5 - 1) in *. unfold ymd2ord. rewrite dbm_l_eq, dim_l_eq, HY. clearbody d m y. clear EP. lia.
    + set (d := r3 - _ + 1) in *. set (m := Z.shiftr (r3 + 50) 5) in *. unfold ymd2ord. rewrite dbm_l_eq, dim_l_eq, HY. clearbody d m y. clear EP. lia.
Qed.

(** periodicity *)
Lemma is_leap_period y k : is_leap (y + 400 * k) = is_leap y.
Proof. unfold is_leap. replace ((y + 400 * k) mod 4) with (y mod 4) by lia.
  replace ((y + 400 * k) mod 100) with (y mod 100) by lia. replace ((y + 400 * k) mod 400) with (y mod 400) by lia. reflexivity. Qed.
Lemma ymd2ord_period y m d k : ymd2ord (y + 400 * k) m d = ymd2ord y m d + 146097 * k.
Proof.
  unfold ymd2ord, days_before_month. rewrite is_leap_period.
  assert (days_before_year (y + 400 * k) = days_before_year y + 146097 * k). { unfold days_before_year. lia. }
  lia.
Qed.
Lemma dim_period y m k : days_in_month (y + 400 * k) m = days_in_month y m.
Proof. unfold days_in_month. now rewrite is_leap_period. Qed.
Lemma ord2ymd_period n k : ord2ymd (n + 146097 * k) = let '(y, m, d) := ord2ymd n in (y + 400 * k, m, d).
Proof.
  unfold ord2ymd. replace ((n + 146097 * k - 1) / 146097) with ((n - 1) / 146097 + k) by lia.
  replace ((n + 146097 * k - 1) mod 146097) with ((n - 1) mod 146097) by lia.
  cbv zeta.
  set (r := (n - 1) mod 146097). set (q := (n - 1) / 146097).
  destruct ((r mod 36524 mod 1461 / 365 =? 4) || (r / 36524 =? 4)); [f_equal; f_equal; lia|].
  match goal with |- context [if ?c then (_, _, _) else _] => destruct c end; f_equal; f_equal; lia.
Qed.

Lemma ord_roundtrip n : ymd2ord (fst (fst (ord2ymd n))) (snd (fst (ord2ymd n))) (snd (ord2ymd n)) = n.
Proof.
  set (k := (n - 1) / 146097). set (r := (n - 1) mod 146097).
  assert (Hr : 0 <= r < 146097) by (unfold r; lia).
  assert (Hn : n = (r + 1) + 146097 * k) by (unfold r, k; lia).
  pose proof (chk1_ok r Hr) as H. unfold chk1 in H. rewrite Hn, ord2ymd_period.
  destruct (ord2ymd (r + 1)) as [[y m] d]. cbn [fst snd]. rewrite ymd2ord_period. lia.
Qed.
Lemma ord2ymd_ok n : 1 <= n <= max_ordinal -> let '(y, m, d) := ord2ymd n in ymd_ok y m d = true.
Proof.
  intros Hb. set (k := (n - 1) / 146097). set (r := (n - 1) mod 146097).
  assert (Hr : 0 <= r < 146097) by (unfold r; lia).
  assert (Hn : n = (r + 1) + 146097 * k) by (unfold r, k; lia).
  pose proof (chk1_ok r Hr) as H. unfold chk1 in H. pose proof (ord_roundtrip n) as Hrt.
  rewrite Hn, ord2ymd_period in Hrt |- *.
  destruct (ord2ymd (r + 1)) as [[y m] d]. cbn [fst snd] in Hrt. unfold ymd_ok. rewrite dim_period.
  assert (Hk : 0 <= k) by (unfold k, max_ordinal in *; lia).
  (* upper bound on the year: from the day count *)
  assert (Hy : y + 400 * k <= 9999).
  { destruct (Z_le_gt_dec (y + 400 * k) 9999) as [|Hgt]; [assumption|exfalso].
    assert (3652059 + 1 <= ymd2ord (y + 400 * k) m d); [|unfold max_ordinal in *; lia].
    unfold ymd2ord. assert (Hdb : 3652059 <= days_before_year (y + 400 * k)) by (unfold days_before_year; lia).
    assert (0 <= days_before_month (y + 400 * k) m); [|lia].
    rewrite <- months_len_eq by lia. clear. induction (Z.to_nat (m - 1)) as [|j IH]; cbn [months_len]; [lia|].
    assert (0 <= month_len (y + 400 * k) (Z.of_nat (S j))); [|lia].
    generalize (Z.of_nat (S j)) (y + 400 * k). intros z y'. unfold month_len.
    repeat match goal with |- context [match ?x with _ => _ end] => destruct x end; lia. }
  destruct (1 <=? y + 400 * k) eqn:E1; [|lia]. destruct (y + 400 * k <=? 9999) eqn:E2; [|lia]. cbn [andb]. lia.
Qed.
Lemma ord2ymd_md n : let '(y, m, d) := ord2ymd n in 1 <= m <= 12 /\ 1 <= d <= days_in_month y m.
Proof.
  set (k := (n - 1) / 146097). set (r := (n - 1) mod 146097).
  assert (Hr : 0 <= r < 146097) by (unfold r; lia).
  assert (Hn : n = (r + 1) + 146097 * k) by (unfold r, k; lia).
  pose proof (chk1_ok r Hr) as H. unfold chk1 in H. rewrite Hn, ord2ymd_period.
  destruct (ord2ymd (r + 1)) as [[y m] d]. rewrite dim_period. clear -H. lia.
Qed.
Lemma dbm_within y m d : 1 <= m <= 12 -> 1 <= d <= days_in_month y m -> 1 <= days_before_month y m + d <= year_len y.
Proof.
  intros Hm Hd. rewrite dim_l_eq in Hd. rewrite dbm_l_eq. unfold year_len. rewrite leap_eq. revert Hd. generalize (is_leap y). intros l Hd.
  assert (m = 1 \/ m = 2 \/ m = 3 \/ m = 4 \/ m = 5 \/ m = 6 \/ m = 7 \/ m = 8 \/ m = 9 \/ m = 10 \/ m = 11 \/ m = 12) as Hmm by lia.
  clear Hm; decompose [or] Hmm; subst m; destruct l;
    match goal with |- context [dbm_l ?l ?m] => let v := eval vm_compute in (dbm_l l m) in change (dbm_l l m) with v;
      let w := eval vm_compute in (dim_l l m) in change (dim_l l m) with w in Hd end; lia.
Qed.
Lemma dby_mono y y' : y < y' -> days_before_year y + year_len y <= days_before_year y'.
Proof. intros H. rewrite <- dby_step. unfold days_before_year. lia. Qed.
Lemma ymd2ord_inj y m d y' m' d' : 1 <= m <= 12 -> 1 <= d <= days_in_month y m -> 1 <= m' <= 12 -> 1 <= d' <= days_in_month y' m' ->
  ymd2ord y m d = ymd2ord y' m' d' -> (y, m, d) = (y', m', d').
Proof.
  intros Hm Hd Hm' Hd' E. unfold ymd2ord in E. pose proof (dbm_within y m d Hm Hd). pose proof (dbm_within y' m' d' Hm' Hd').
  assert (y = y').
  { destruct (Z.lt_trichotomy y y') as [L|[L|L]]; [pose proof (dby_mono _ _ L); lia|exact L|pose proof (dby_mono _ _ L); lia]. }
  subst y'. assert (E' : days_before_month y m + d = days_before_month y m' + d') by lia.
  assert (Hnext : forall a b, 1 <= a -> b <= 12 -> a < b -> days_before_month y a + days_in_month y a <= days_before_month y b).
  { clear. intros a b Ha Hb L. rewrite dbm_l_eq, dim_l_eq, dbm_l_eq. generalize (is_leap y). intros l.
    assert (forallb (fun a => forallb (fun b => negb (Nat.ltb a b) || (dbm_l l (Z.of_nat a) + dim_l l (Z.of_nat a) <=? dbm_l l (Z.of_nat b)))%bool (seq 1 12)) (seq 1 12) = true) as S by (destruct l; vm_compute; reflexivity).
    rewrite forallb_forall in S. specialize (S (Z.to_nat a) ltac:(apply in_seq; lia)). rewrite forallb_forall in S. specialize (S (Z.to_nat b) ltac:(apply in_seq; lia)).
    rewrite !Z2Nat.id in S by lia. destruct (Nat.ltb_spec (Z.to_nat a) (Z.to_nat b)); [|lia]. cbn [negb orb] in S. lia. }
  destruct (Z.lt_trichotomy m m') as [L|[L|L]].
  - pose proof (Hnext m m' ltac:(lia) ltac:(lia) L). lia.
  - subst m'. f_equal; lia.
  - pose proof (Hnext m' m ltac:(lia) ltac:(lia) L). lia.
Qed.
Lemma ymd_roundtrip y m d : 1 <= m <= 12 -> 1 <= d <= days_in_month y m -> ord2ymd (ymd2ord y m d) = (y, m, d).
Proof.
  intros Hm Hd. pose proof (ord_roundtrip (ymd2ord y m d)) as R. pose proof (ord2ymd_md (ymd2ord y m d)) as V.
  destruct (ord2ymd (ymd2ord y m d)) as [[a b] c]. cbn [fst snd] in R. destruct V as [V1 V2]. exact (ymd2ord_inj _ _ _ _ _ _ V1 V2 Hm Hd R).
Qed.

(** ** datetimes and instants *)
Lemma dt_of_us_of_dt t : dt_ok t = true -> dt_of_us (dt_us t) = t.
Proof.
  intros H. destruct t as [y m d h mi s us]. unfold dt_ok, hms_ok in H. cbn [dy dmo dd dh dmi ds dus] in H.
  apply andb_prop in H. destruct H as [Hymd H]. unfold ymd_ok in Hymd.
  unfold dt_of_us, dt_us, tod_us, us_per_day, us_per_sec. cbn [dy dmo dd dh dmi ds dus].
  set (o := ymd2ord y m d). set (w := ((h * 60 + mi) * 60 + s) * 1000000 + us).
  assert (Hw : 0 <= w < 86400000000) by (unfold w; lia).
  replace (((o - 1) * 86400000000 + w) / 86400000000 + 1) with o by lia.
  replace (((o - 1) * 86400000000 + w) mod 86400000000) with w by lia.
  unfold o. rewrite ymd_roundtrip by lia. unfold w. f_equal; lia.
Qed.
Lemma dt_us_of_us u : dt_us (dt_of_us u) = u.
Proof.
  unfold dt_of_us. pose proof (ord_roundtrip (u / us_per_day + 1)) as H.
  destruct (ord2ymd (u / us_per_day + 1)) as [[y m] d]. cbn [fst snd] in H.
  unfold dt_us, tod_us. cbn [dy dmo dd dh dmi ds dus]. rewrite H. unfold us_per_day, us_per_sec in *. lia.
Qed.
Lemma dt_of_us_ok u : 0 <= u < max_ordinal * us_per_day -> dt_ok (dt_of_us u) = true.
Proof.
  intros H. unfold dt_of_us. pose proof (ord2ymd_ok (u / us_per_day + 1)) as Hy.
  destruct (ord2ymd (u / us_per_day + 1)) as [[y m] d]. unfold dt_ok. cbn [dy dmo dd dh dmi ds dus].
  rewrite Hy by (unfold us_per_day, max_ordinal in *; lia). unfold hms_ok, us_per_day, us_per_sec in *. lia.
Qed.
Lemma dt_us_inj a b : dt_ok a = true -> dt_ok b = true -> dt_us a = dt_us b -> a = b.
Proof. intros Ha Hb H. rewrite <- (dt_of_us_of_dt a Ha), <- (dt_of_us_of_dt b Hb), H. reflexivity. Qed.
Lemma instant_inj a b : valid_datetime a -> valid_datetime b -> instant a = instant b -> a = b.
Proof.
  intros Ha Hb H. rewrite !instant_eq in H by assumption. apply dt_us_inj; try assumption; now apply valid_datetime_iff.
Qed.
Lemma dt_eqb_eq a b : dt_eqb a b = true <-> a = b.
Proof.
  destruct a as [a1 a2 a3 a4 a5 a6 a7], b as [b1 b2 b3 b4 b5 b6 b7]. unfold dt_eqb. cbn [dy dmo dd dh dmi ds dus]. split.
  - intros H. f_equal; lia.
  - intros H. inversion H. subst. lia.
Qed.
Lemma dt_us_bounds t : dt_ok t = true -> 0 <= dt_us t < max_ordinal * us_per_day.
Proof.
  intros H. destruct t as [y m d h mi s us]. unfold dt_ok, hms_ok in H. cbn [dy dmo dd dh dmi ds dus] in H.
  apply andb_prop in H. destruct H as [Hymd H]. unfold ymd_ok in Hymd.
  assert (Ho : 1 <= ymd2ord y m d <= max_ordinal).
  { unfold ymd2ord, max_ordinal.
    assert (0 <= days_before_month y m <= year_len y - days_in_month y m).
    { rewrite <- month_len_eq, <- months_len_eq by lia. unfold year_len.
      assert (m = 1 \/ m = 2 \/ m = 3 \/ m = 4 \/ m = 5 \/ m = 6 \/ m = 7 \/ m = 8 \/ m = 9 \/ m = 10 \/ m = 11 \/ m = 12) as Hm by lia.
      clear - Hm; decompose [or] Hm; subst m; destruct (leap_year y) eqn:E; split; cbv -[leap_year]; rewrite ?E; intro X; discriminate X. }
    assert (0 <= days_before_year y) by (unfold days_before_year; lia).
    assert (days_before_year (y + 1) <= 3652059) by (unfold days_before_year; lia).
    rewrite dby_step in H2. lia. }
  unfold dt_us, tod_us, us_per_day, us_per_sec in *. cbn [dy dmo dd dh dmi ds dus]. unfold max_ordinal in *. lia.
Qed.
