(** The time serial number and the hour: error analysis. *)
From Coq Require Import Reals Lra ZifyBool ZifyNat.
From Flocq Require Import Core.Core IEEE754.BinarySingleNaN.
From Verif Require Import Base PyStr PyFloat PyDate M_Common M_Header M_Rec S_Text S_Time S_Rec P_Str P_Float P_Sec P_Div.
Open Scope Z_scope.

Lemma bpow_num e n : 0 < n -> e <= 0 -> 2 ^ (- e) = n -> bpow radix2 e = (/ IZR n)%R.
Proof. intros Hn He E. rewrite bpow_neg_IZR by lia. now rewrite E. Qed.
Lemma b53 : bpow radix2 (-53) = (/ 9007199254740992)%R. Proof. now apply bpow_num. Qed.

Lemma tiny : (0 < bpow radix2 (-1000) <= / 1267650600228229401496703205376)%R.
Proof.
  split; [apply bpow_gt_0|]. rewrite <- (bpow_num (-100) 1267650600228229401496703205376) by (reflexivity || lia).
  apply bpow_le. lia.
Qed.
Lemma rnd_both y : (Rabs (rnd64 y - y) <= / 9007199254740992 * Rabs y + bpow radix2 (-1000))%R.
Proof.
  rewrite <- b53. destruct (Rle_or_lt (bpow radix2 (-1000)) (Rabs y)) as [H|H].
  - pose proof (rnd_rel y H). pose proof tiny. lra.
  - assert (Rabs (rnd64 y - y) <= bpow radix2 (-1000 - 54))%R by (apply rnd_error; [lia|exact H]).
    assert (bpow radix2 (-1000 - 54) <= bpow radix2 (-1000))%R by (apply bpow_le; lia).
    assert (0 <= bpow radix2 (-53) * Rabs y)%R by (apply Rmult_le_pos; [apply bpow_ge_0|apply Rabs_pos]). lra.
Qed.
Lemma small_big x : (Rabs x <= 1000000000000)%R -> (Rabs x <= big)%R.
Proof.
  intros H. eapply Rle_trans; [exact H|]. unfold big.
  apply Rle_trans with (bpow radix2 40); [|apply bpow_le; lia].
  rewrite <- (IZR_Zpower radix2 40) by lia. apply IZR_le. reflexivity || discriminate.
Qed.

Lemma f1em6_ok : good f1em6 /\ (Rabs (f2r f1em6 - / 1000000) <= / 10 ^ 21)%R.
Proof.
  destruct (b64_of_dec_nearest false 1 6) as [H1 [H2 H3]].
  { split; [lia|]. change 1 with (2 ^ 0). apply Z.pow_le_mono_r; lia. }
  split; [split; assumption|]. change f1em6 with (b64_of_dec false 1 (- Z.of_nat 6)). rewrite H3.
  unfold dec_real. replace (1 * 1 / 10 ^ 6)%R with (/ 1000000)%R by (rewrite (pow_IZR 10 6); cbn; lra).
  eapply Rle_trans; [apply rnd_both|]. rewrite Rabs_pos_eq by lra. pose proof tiny.
  rewrite (pow_IZR 10 21). change (IZR (10 ^ Z.of_nat 21)) with 1000000000000000000000%R. lra.
Qed.

(** seconds of the day as a float *)
Lemma secs_ok n u : 0 <= n <= 86399 -> 0 <= u <= 999999 ->
  let s := fadd (float_of_Z n) (fmul (float_of_Z u) f1em6) in
  good s /\ (Rabs (f2r s - (IZR n + IZR u / 1000000)) <= / 50000000000)%R /\ (0 <= f2r s)%R.
Proof.
  intros Hn Hu s. subst s.
  destruct (float_of_Z_correct n ltac:(lia)) as [G1 E1]. destruct (float_of_Z_correct u ltac:(lia)) as [G2 E2].
  destruct f1em6_ok as [G3 E3].
  assert (Hn' : (0 <= IZR n <= 86399)%R) by (split; apply IZR_le; lia).
  assert (Hu' : (0 <= IZR u <= 999999)%R) by (split; apply IZR_le; lia).
  rewrite (pow_IZR 10 21) in E3. change (IZR (10 ^ Z.of_nat 21)) with 1000000000000000000000%R in E3.
  apply Rabs_le_inv in E3. set (c := f2r f1em6) in *.
  assert (Hp : (Rabs (IZR u * c - IZR u / 1000000) <= / 1000000000000000)%R).
  { replace (IZR u * c - IZR u / 1000000)%R with (IZR u * (c - / 1000000))%R by lra. apply Rabs_le. split; nra. }
  apply Rabs_le_inv in Hp.
  destruct (fmul_correct _ _ G2 G3) as [G4 E4].
  { rewrite E2. apply small_big. apply Rabs_le. fold c. lra. }
  rewrite E2 in E4. fold c in E4. pose proof (rnd_both (IZR u * c)) as R1. rewrite <- E4 in R1.
  assert (P1 : (0 <= IZR u * c)%R) by nra.
  assert (P2 : (0 <= f2r (fmul (float_of_Z u) f1em6))%R) by (rewrite E4; now apply rnd_nonneg).
  rewrite (Rabs_pos_eq (IZR u * c)) in R1 by exact P1. apply Rabs_le_inv in R1.
  pose proof tiny as Ti. set (m := f2r (fmul (float_of_Z u) f1em6)) in *.
  destruct (fadd_correct _ _ G1 G4) as [G5 E5].
  { rewrite E1. fold m. apply small_big. apply Rabs_le. lra. }
  rewrite E1 in E5. fold m in E5.
  assert (P3 : (0 <= f2r (fadd (float_of_Z n) (fmul (float_of_Z u) f1em6)))%R) by (rewrite E5; apply rnd_nonneg; lra).
  pose proof (rnd_both (IZR n + m)) as R2. rewrite <- E5 in R2. rewrite (Rabs_pos_eq (IZR n + m)) in R2 by lra.
  apply Rabs_le_inv in R2. split; [exact G5|]. split; [|exact P3]. apply Rabs_le. lra.
Qed.

Lemma interval_float iv q x : interval_ms iv q -> 1 <= q < 10 ^ 9 -> exists f, div_interval x iv = fdiv x f /\ good f /\
  (0 < f2r f)%R /\ (Rabs (IZR q / 1000 - f2r f) <= / 4503599627370496 * f2r f)%R.
Proof.
  intros Hiv Hq. assert (Hq' : (1 <= IZR q <= 1000000000)%R) by (split; apply IZR_le; lia). pose proof tiny as Ti. destruct iv as [n|f]; unfold interval_ms in Hiv.
  - exists (float_of_Z n). destruct (float_of_Z_correct n ltac:(lia)) as [G1 E1].
    assert (Hn : (IZR q = 1000 * IZR n)%R) by (rewrite <- mult_IZR; now f_equal).
    split; [reflexivity|]. split; [exact G1|]. rewrite E1. split; [lra|].
    replace (IZR q / 1000 - IZR n)%R with 0%R by lra. rewrite Rabs_R0. nra.
  - exists f. destruct Hiv as [H1 [H2 H3]]. split; [reflexivity|]. split; [split; assumption|].
    unfold dec_real in H3. replace (1 * IZR q / 10 ^ 3)%R with (IZR q / 1000)%R in H3 by (rewrite (pow_IZR 10 3); cbn; lra).
    pose proof (rnd_both (IZR q / 1000)) as R1. rewrite <- H3, (Rabs_pos_eq (IZR q / 1000)) in R1 by lra. apply Rabs_le_inv in R1.
    split; [lra|]. apply Rabs_le. lra.
Qed.

(** the quotient computed, in units of a microsecond *)
Lemma quot_ok iv q us s : interval_ms iv q -> 1 <= q < 10 ^ 9 -> good s -> 0 <= us < 86400000000 ->
  (Rabs (f2r s - IZR us / 1000000) <= / 50000000000)%R -> (0 <= f2r s)%R ->
  exists x, div_interval s iv = Ok x /\ good x /\ (0 <= f2r x <= 86500000)%R /\
    (Rabs (IZR q * 1000 * f2r x - IZR us) <= / 10000)%R.
Proof.
  intros Hiv Hq Gs Hus Es Ps. destruct (interval_float iv q s Hiv Hq) as [f [-> [Gf [Pf Ef]]]].
  assert (Hq' : (1 <= IZR q <= 1000000000)%R) by (split; apply IZR_le; lia). pose proof tiny as Ti.
  assert (Hu' : (0 <= IZR us <= 86400000000)%R) by (split; apply IZR_le; lia).
  apply Rabs_le_inv in Ef. apply Rabs_le_inv in Es.
  set (S := f2r s) in *. set (I := f2r f) in *. set (d := (IZR q / 1000)%R) in *.
  assert (Hd : (/ 1000 <= d <= 1000000)%R) by (unfold d; lra).
  set (w := (/ I)%R). assert (Hw : (0 < w)%R) by (now apply Rinv_0_lt_compat).
  assert (HIw : (I * w = 1)%R) by (unfold w; field; lra).
  assert (Hr1 : (1 - / 4503599627370496 <= d * w <= 1 + / 4503599627370496)%R) by (clear - Ef Hw HIw Pf; nra).
  assert (Hw2 : (w <= 1001)%R) by (clear - Hd Hr1 Hw; nra).
  assert (HS : (0 <= S <= 86401)%R) by lra.
  assert (Hy : (0 <= S / I <= 86500000)%R). { unfold Rdiv. fold w. clear - HS Hw Hw2. split; nra. }
  destruct (fdiv_correct s f Gs Gf) as [x [Ex [Gx Rx]]].
  { fold I. lra. }
  { fold S I. apply small_big. rewrite Rabs_pos_eq; lra. }
  fold S I in Rx. exists x. split; [exact Ex|]. split; [exact Gx|].
  pose proof (rnd_both (S / I)) as R1. rewrite <- Rx, (Rabs_pos_eq (S / I)) in R1 by lra. apply Rabs_le_inv in R1.
  assert (Hd1 : (d * (S / I) = S * (d * w))%R) by (unfold Rdiv; fold w; ring).
  assert (Px : (0 <= f2r x)%R) by (rewrite Rx; apply rnd_nonneg; lra).
  set (X := f2r x) in *. set (Y := (S / I)%R) in *.
  assert (Ha : (Rabs (d * X - S) <= / 10000000000 - / 50000000000)%R).
  { assert (Hs1 : (Rabs (S * (d * w) - S) <= / 50000000000)%R) by (clear - HS Hr1; apply Rabs_le; split; nra).
    apply Rabs_le_inv in Hs1. rewrite <- Hd1 in Hs1.
    assert (HX : (Rabs (d * X - d * Y) <= / 9007199254740992 * (d * Y) + d * bpow radix2 (-1000))%R).
    { replace (d * X - d * Y)%R with (d * (X - Y))%R by ring. clear - R1 Hd. apply Rabs_le. split; nra. }
    apply Rabs_le_inv in HX.
    assert (d * bpow radix2 (-1000) <= / 1000000000000000)%R by (clear - Hd Ti; nra).
    apply Rabs_le. lra. }
  apply Rabs_le_inv in Ha.
  assert (Hb : (IZR q * 1000 * X = 1000000 * (d * X))%R) by (unfold d; field).
  split.
  - split; [exact Px|]. clear - Ha HS Hd Px. nra.
  - rewrite Hb. apply Rabs_le. lra.
Qed.

Lemma floor_fin_correct s m e : floor_fin s m e = Zfloor (f2r (S754_finite s m e)).
Proof.
  unfold floor_fin. rewrite SF2R_finite. unfold sgn.
  assert (E : (IZR (if s then Z.neg m else Z.pos m) = (if s then -1 else 1) * IZR (Z.pos m))%R).
  { destruct s; rewrite <- ?opp_IZR; [change (Z.neg m) with (- Z.pos m); rewrite opp_IZR|]; lra. }
  rewrite <- Rmult_assoc. rewrite <- E. destruct (0 <=? e) eqn:He.
  - rewrite <- (IZR_Zpower radix2 e) by lia. rewrite <- mult_IZR, Zfloor_IZR. reflexivity.
  - rewrite bpow_neg_IZR by lia. symmetry. apply div_floor. apply Z.pow_pos_nonneg; lia.
Qed.
Lemma float_floor_correct x : is_finite_SF x = true -> float_floor x = Ok (Zfloor (f2r x)).
Proof. destruct x; try discriminate; intros _; cbn [float_floor float_to_int]; [|now rewrite floor_fin_correct]. cbn [SF2R]. now rewrite Zfloor_IZR. Qed.
Lemma float_ceil_correct x : is_finite_SF x = true -> float_ceil x = Ok (Zceil (f2r x)).
Proof.
  destruct x as [s|s| |s m e]; try discriminate; intros _; cbn [float_ceil float_to_int].
  - cbn [SF2R]. now rewrite Zceil_IZR.
  - unfold ceil_fin, Zceil. rewrite floor_fin_correct. do 3 f_equal. rewrite !SF2R_finite. unfold sgn. destruct s; cbn; ring.
Qed.

Lemma f05_ok : good f05 /\ f2r f05 = (/ 2)%R.
Proof. unfold f05. vm_compute b64_of_dec. split; [split; reflexivity|]. rewrite SF2R_finite. unfold sgn.
  replace (bpow radix2 (-53)) with (/ 9007199254740992)%R by (symmetry; apply b53). lra. Qed.

(** rounding of a quotient to an integer *)
Lemma round_to_int x : good x -> (0 <= f2r x <= 86500000)%R ->
  exists n, (do i <- float_to_int x; let frac := fsub x (float_of_Z i) in
    if ftruth frac then (if fltb f05 frac then float_ceil x else float_floor x) else float_to_int x) = Ok n /\
    (Rabs (f2r x - IZR n) <= / 2 + / 9007199254740992)%R /\ 0 <= n <= 86500001.
Proof.
  intros Gx Hx. rewrite float_to_int_correct by apply Gx. cbn [bind]. set (i := Ztrunc (f2r x)).
  assert (Ei : i = Zfloor (f2r x)) by (apply Ztrunc_floor; lra).
  assert (Hi : (IZR i <= f2r x < IZR i + 1)%R). { rewrite Ei. split; [apply Zfloor_lb|apply Zfloor_ub]. }
  assert (Hi0 : 0 <= i <= 86500000).
  { split; [rewrite Ei; apply Zfloor_lub; lra|]. apply le_IZR. lra. }
  destruct (float_of_Z_correct i ltac:(lia)) as [Gi Ri].
  destruct (fsub_correct x _ Gx Gi) as [Gf Rf].
  { rewrite Ri. apply small_big. apply Rabs_le. lra. }
  rewrite Ri in Rf. set (fr := fsub x (float_of_Z i)) in *. cbv zeta. destruct f05_ok as [G5 R5].
  pose proof (rnd_both (f2r x - IZR i)) as R1. rewrite <- Rf, (Rabs_pos_eq (f2r x - IZR i)) in R1 by lra. apply Rabs_le_inv in R1.
  pose proof tiny as Ti.
  destruct (ftruth fr) eqn:Ht.
  - rewrite fltb_correct by assumption. rewrite R5. destruct (Rlt_bool_spec (/ 2) (f2r fr)) as [Hl|Hl].
    + rewrite float_ceil_correct by apply Gx. exists (i + 1). split; [f_equal|].
      * apply Zceil_imp. rewrite plus_IZR. replace (i + 1 - 1) with i by lia.
        split; [|lra]. assert (0 < f2r x - IZR i)%R; [|lra]. lra.
      * rewrite plus_IZR. split; [apply Rabs_le; lra|lia].
    + rewrite float_floor_correct by apply Gx. exists i. split; [now rewrite <- Ei|]. split; [apply Rabs_le; lra|lia].
  - exists i. split; [reflexivity|]. apply f2r_zero_iff in Ht; [|exact Gf].
    split; [apply Rabs_le; lra|lia].
Qed.

Lemma tsn_ok t iv q : valid_datetime t -> interval_ms iv q -> 1 <= q < 10 ^ 9 ->
  exists n, tsn_of t iv = Ok n /\ serial_ok n (us_of_day t) q.
Proof.
  intros [_ [Hh [Hm [Hs Hu]]]] Hiv Hq. unfold tsn_of.
  destruct (secs_ok (dh t * 3600 + dmi t * 60 + ds t) (dus t) ltac:(lia) Hu) as [G1 [E1 P1]]. cbv zeta in *.
  set (s := fadd _ _) in *. set (N := dh t * 3600 + dmi t * 60 + ds t) in *.
  assert (Hus : us_of_day t = N * 1000000 + dus t) by (unfold us_of_day, N; lia).
  assert (Hus' : 0 <= us_of_day t < 86400000000) by (unfold us_of_day; lia).
  destruct (quot_ok iv q (us_of_day t) s Hiv Hq G1 Hus') as [x [Ex [Gx [Bx Hx]]]]; [|exact P1|].
  { rewrite Hus, plus_IZR, mult_IZR. replace ((IZR N * 1000000 + IZR (dus t)) / 1000000)%R with (IZR N + IZR (dus t) / 1000000)%R by field. exact E1. }
  rewrite Ex. cbn [bind]. destruct (round_to_int x Gx Bx) as [n [En [Hn _]]]. exists n. split; [exact En|].
  unfold serial_ok. assert (Hq' : (1 <= IZR q <= 1000000000)%R) by (split; apply IZR_le; lia).
  apply Rabs_le_inv in Hx. apply Rabs_le_inv in Hn. set (X := f2r x) in *.
  assert (H : (Rabs (2 * (IZR n * (IZR q * 1000) - IZR (us_of_day t))) < IZR q * 1000 + 1)%R).
  { assert (Hk : (Rabs (IZR q * 1000 * X - IZR n * (IZR q * 1000)) <= IZR q * 500 + / 5000)%R).
    { replace (IZR q * 1000 * X - IZR n * (IZR q * 1000))%R with (IZR q * 1000 * (X - IZR n))%R by ring.
      clear - Hn Hq'. apply Rabs_le. split; nra. }
    apply Rabs_le_inv in Hk. apply Rabs_lt. lra. }
  replace (2 * (IZR n * (IZR q * 1000) - IZR (us_of_day t)))%R with (IZR (2 * (n * (q * 1000) - us_of_day t))) in H
    by (rewrite mult_IZR, minus_IZR, !mult_IZR; reflexivity).
  replace (IZR q * 1000 + 1)%R with (IZR (q * 1000 + 1)) in H by (rewrite plus_IZR, mult_IZR; reflexivity).
  rewrite <- abs_IZR in H. apply lt_IZR in H. lia.
Qed.
Lemma serial_exact n us q k : serial_ok n us q -> 1 <= q -> us = k * (q * 1000) -> n = k.
Proof. unfold serial_ok. intros H Hq ->. replace (n * (q * 1000) - k * (q * 1000)) with ((n - k) * (q * 1000)) in H by lia.
  rewrite Z.abs_mul, (Z.abs_eq (q * 1000)) in H by lia. nia. Qed.

(** the hour *)
Lemma f60_ok : good f60 /\ f2r f60 = 60%R.
Proof. unfold f60. apply float_of_Z_correct. lia. Qed.

Lemma step60 a n (A : R) : good a -> 0 <= n <= 59 -> (0 <= f2r a <= 61)%R -> (Rabs (f2r a - A) <= / 10 ^ 14)%R ->
  exists z, fdiv a f60 = Ok z /\ good z /\ good (fadd z (float_of_Z n)) /\ (0 <= f2r (fadd z (float_of_Z n)) <= 61)%R /\
    (Rabs (f2r (fadd z (float_of_Z n)) - (A / 60 + IZR n)) <= / 10 ^ 14)%R.
Proof.
  intros Ga Hn Ba Ea. destruct f60_ok as [G6 R6].
  assert (Hn' : (0 <= IZR n <= 59)%R) by (split; apply IZR_le; lia). pose proof tiny as Ti.
  destruct (fdiv_correct a f60 Ga G6) as [z [Ez [Gz Rz]]].
  { rewrite R6. lra. } { rewrite R6. apply small_big. apply Rabs_le. lra. }
  rewrite R6 in Rz. exists z. split; [exact Ez|]. split; [exact Gz|].
  assert (Pz : (0 <= f2r z)%R) by (rewrite Rz; apply rnd_nonneg; lra).
  pose proof (rnd_both (f2r a / 60)) as R1. rewrite <- Rz, (Rabs_pos_eq (f2r a / 60)) in R1 by lra. apply Rabs_le_inv in R1.
  destruct (float_of_Z_correct n ltac:(lia)) as [Gn Rn].
  destruct (fadd_correct z _ Gz Gn) as [Gs Rs].
  { rewrite Rn. apply small_big. apply Rabs_le. lra. }
  rewrite Rn in Rs. pose proof (rnd_both (f2r z + IZR n)) as R2. rewrite <- Rs, (Rabs_pos_eq (f2r z + IZR n)) in R2 by lra.
  assert (Ps : (0 <= f2r (fadd z (float_of_Z n)))%R) by (rewrite Rs; apply rnd_nonneg; lra).
  apply Rabs_le_inv in R2. apply Rabs_le_inv in Ea. split; [exact Gs|].
  rewrite (pow_IZR 10 14) in *. change (IZR (10 ^ Z.of_nat 14)) with 100000000000000%R in *.
  split; [lra|]. apply Rabs_le. lra.
Qed.

Lemma sec60 n u : 0 <= n <= 59 -> 0 <= u <= 999999 ->
  let s := fadd (fmul (float_of_Z u) f1em6) (float_of_Z n) in
  good s /\ (0 <= f2r s <= 61)%R /\ (Rabs (f2r s - (IZR u / 1000000 + IZR n)) <= / 10 ^ 14)%R.
Proof.
  intros Hn Hu s. subst s.
  destruct (float_of_Z_correct n ltac:(lia)) as [G1 E1]. destruct (float_of_Z_correct u ltac:(lia)) as [G2 E2].
  destruct f1em6_ok as [G3 E3].
  assert (Hn' : (0 <= IZR n <= 59)%R) by (split; apply IZR_le; lia).
  assert (Hu' : (0 <= IZR u <= 999999)%R) by (split; apply IZR_le; lia).
  rewrite (pow_IZR 10 21) in E3. change (IZR (10 ^ Z.of_nat 21)) with 1000000000000000000000%R in E3.
  apply Rabs_le_inv in E3. set (c := f2r f1em6) in *.
  assert (Hp : (Rabs (IZR u * c - IZR u / 1000000) <= / 1000000000000000)%R).
  { replace (IZR u * c - IZR u / 1000000)%R with (IZR u * (c - / 1000000))%R by lra. apply Rabs_le. split; nra. }
  apply Rabs_le_inv in Hp.
  destruct (fmul_correct _ _ G2 G3) as [G4 E4].
  { rewrite E2. apply small_big. apply Rabs_le. fold c. lra. }
  rewrite E2 in E4. fold c in E4. pose proof (rnd_both (IZR u * c)) as R1. rewrite <- E4 in R1.
  assert (P1 : (0 <= IZR u * c)%R) by nra.
  assert (P2 : (0 <= f2r (fmul (float_of_Z u) f1em6))%R) by (rewrite E4; now apply rnd_nonneg).
  rewrite (Rabs_pos_eq (IZR u * c)) in R1 by exact P1. apply Rabs_le_inv in R1.
  pose proof tiny as Ti. set (m := f2r (fmul (float_of_Z u) f1em6)) in *.
  destruct (fadd_correct _ _ G4 G1) as [G5 E5].
  { rewrite E1. fold m. apply small_big. apply Rabs_le. lra. }
  rewrite E1 in E5. fold m in E5.
  assert (P3 : (0 <= f2r (fadd (fmul (float_of_Z u) f1em6) (float_of_Z n)))%R) by (rewrite E5; apply rnd_nonneg; lra).
  pose proof (rnd_both (m + IZR n)) as R2. rewrite <- E5 in R2. rewrite (Rabs_pos_eq (m + IZR n)) in R2 by lra.
  apply Rabs_le_inv in R2. split; [exact G5|].
  rewrite (pow_IZR 10 14). change (IZR (10 ^ Z.of_nat 14)) with 100000000000000%R.
  split; [lra|]. apply Rabs_le. lra.
Qed.

Lemma hour_ok t : valid_datetime t -> exists x, hour_of t = Ok x /\ good x /\ (Rabs (f2r x - hours t) <= / 10 ^ 13)%R.
Proof.
  intros [_ [Hh [Hm [Hs Hu]]]]. unfold hour_of.
  destruct (sec60 (ds t) (dus t) Hs Hu) as [G1 [B1 E1]]. cbv zeta in *.
  destruct (step60 _ (dmi t) _ G1 Hm B1 E1) as [z [-> [Gz [G2 [B2 E2]]]]]. cbn [bind].
  destruct (step60 _ (dh t) _ G2 ltac:(lia) B2 E2) as [z' [-> [Gz' [G3 [B3 E3]]]]]. cbn [bind].
  eexists. split; [reflexivity|]. split; [exact G3|].
  replace (hours t) with (((IZR (dus t) / 1000000 + IZR (ds t)) / 60 + IZR (dmi t)) / 60 + IZR (dh t))%R.
  2:{ unfold hours, us_of_day. rewrite !plus_IZR, !mult_IZR, !plus_IZR, !mult_IZR, !plus_IZR, !mult_IZR. field. }
  eapply Rle_trans; [exact E3|]. apply Rinv_le_contravar; [apply pow_lt; lra|]. apply Rle_pow; [lra|lia].
Qed.
