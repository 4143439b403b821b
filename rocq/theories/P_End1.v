(** End to end, part 1: the combinations of two decimals of the observation file. *)
From Coq Require Import Reals Lra Psatz.
From Flocq Require Import Core Relative.
From Verif Require Import Base PyStr PyFloat S_Text P_Str P_Float P_Div P_NmUtils M_Num M_Label M_Tec S_Tec P_Tec P_TecF P_TecE P_TecG.
Open Scope R_scope.

Lemma near_dec x d b : nearest64 x d -> Rabs d <= b -> d = 0 \/ / 1000 <= Rabs d -> is_real x /\ Rabs (real x - d) <= u53 * b.
Proof.
  intros [V [F E]] Hb Hd. split; [split; assumption|]. unfold real. rewrite E. pose proof u53_pos as Hu.
  assert (H : d = 0 \/ bpow radix2 (-1022) <= Rabs d).
  { destruct Hd as [->|Hd]; [now left|right]. apply Rle_trans with (bpow radix2 (-10)); [apply bpow_le; lia|]. cbn. lra. }
  destruct (rel_rnd d H) as [e [Er He]]. change (Generic_fmt.round radix2 (FLT_exp (-1074) 53) ZnearestE d) with (rnd64 d). rewrite Er.
  replace (d * (1 + e) - d) with (e * d) by ring. rewrite Rabs_mult. pose proof (Rabs_pos d). pose proof (Rabs_pos e). nra.
Qed.
Lemma near_ge x d n : nearest64 x d -> IZR n <= d -> (Z.abs n < 2 ^ 53)%Z -> IZR n <= real x.
Proof.
  intros [V [F E]] H Hn. unfold real. rewrite E. rewrite <- (rnd_int n Hn) at 1. apply round_le; [typeclasses eauto|typeclasses eauto|exact H].
Qed.
Lemma real_neq f1 f2 : apart f1 f2 -> real f1 <> 0 -> real f1 <> real f2.
Proof. intros Ha Hn E. unfold apart in Ha. rewrite E in Ha. rewrite Rminus_diag_eq, Rabs_R0 in Ha by reflexivity. rewrite E in Hn. nra. Qed.
Lemma apart_sq f1 f2 : apart f1 f2 -> 1000000000 <= real f1 -> 1000000000 <= real f2 -> real f1 * real f1 - real f2 * real f2 <> 0.
Proof. intros Ha H1 H2 E. unfold apart in Ha. rewrite E, Rabs_R0 in Ha. nra. Qed.
Lemma factor_bound f1 f2 : 1000000000 <= real f1 <= 2000000000 -> 1000000000 <= real f2 <= 2000000000 -> apart f1 f2 -> Rabs (factor f1 f2) <= 125.
Proof.
  intros B1 B2 Ha. pose proof (apart_sq f1 f2 Ha (proj1 B1) (proj1 B2)) as Hz. unfold factor, apart in *.
  set (F1 := real f1 * real f1) in *. set (F2 := real f2 * real f2) in *.
  assert (Q1 : 1000000000000000000 <= F1 <= 4000000000000000000) by (unfold F1; nra).
  assert (Q2 : 1000000000000000000 <= F2 <= 4000000000000000000) by (unfold F2; nra).
  pose proof (Rabs_pos_lt _ Hz) as Hp. set (D := Rabs (F1 - F2)) in *.
  replace (1 / 40.308 * (F1 * F2) / (F1 - F2) * / 10000000000000000) with ((F1 * F2) * / (F1 - F2) * / 403080000000000000) by (unfold Rdiv; replace 40.308 with (40308 / 1000) by lra; field; exact Hz).
  rewrite !Rabs_mult, Rabs_inv. fold D. rewrite (Rabs_right F1), (Rabs_right F2) by lra. rewrite (Rabs_right (/ 403080000000000000)) by lra.
  assert (E : F1 * F2 <= 50375000000000000000 * D). { nra. }
  apply (Rmult_le_reg_r D); [exact Hp|]. replace (F1 * F2 * / D * / 403080000000000000 * D) with (F1 * F2 * / 403080000000000000) by (field; lra). nra.
Qed.
Lemma via_p_R p1 p2 f1 f2 : real f1 <> 0 -> real f2 <> 0 -> p1 <> 0 -> p2 <> 0 -> tec_factor Rops (real f1) (real f2) = Ok (factor f1 f2) ->
  via_p Rops (Some p1) (Some p2) (Some (real f1)) (Some (real f2)) = Ok (Some (factor f1 f2 * (p2 - p1))).
Proof. intros H1 H2 N1 N2 E. unfold via_p. rewrite !truth_R_true by assumption. cbn [negb andb]. rewrite E. reflexivity. Qed.
Lemma ok_some_inj {A} (a b : A) : Ok (Some a) = Ok (Some b) -> a = b. Proof. congruence. Qed.

Section Lib.
Variable m : libm.
(** two pseudoranges *)
Lemma code_tec p1 p2 f1 f2 d1 d2 r s : carrier m f1 -> carrier m f2 -> apart f1 f2 -> nearest64 p1 d1 -> nearest64 p2 d2 ->
  1 <= d1 <= 100000000 -> 1 <= d2 <= 100000000 -> d1 = r + delay s (real f1) -> d2 = r + delay s (real f2) -> Rabs s <= 1000000 ->
  exists t, via_p (Fops m) (Some p1) (Some p2) (Some f1) (Some f2) = Ok (Some t) /\ is_real t /\ Rabs (real t - s) <= / 250000.
Proof.
  intros C1 C2 Ha N1 N2 B1 B2 E1 E2 Hs.
  destruct (near_dec p1 d1 100000000 N1) as [G1 D1]; [rewrite Rabs_right; lra|right; rewrite Rabs_right; lra|].
  destruct (near_dec p2 d2 100000000 N2) as [G2 D2]; [rewrite Rabs_right; lra|right; rewrite Rabs_right; lra|].
  pose proof (near_ge p1 d1 1 N1 ltac:(lra) ltac:(lia)) as L1. pose proof (near_ge p2 d2 1 N2 ltac:(lra) ltac:(lia)) as L2. pose proof u53_pos as Hu.
  assert (P1 : pseudorange p1) by (split; [exact G1|]; apply Rabs_le_inv in D1; lra).
  assert (P2 : pseudorange p2) by (split; [exact G2|]; apply Rabs_le_inv in D2; lra).
  destruct (factor_real m f1 f2 C1 C2 Ha) as [Ek [Z1 Z2]].
  destruct (via_p_rounding m p1 p2 f1 f2 C1 C2 Ha P1 P2) as [t [T [Et [Gt [ET Ht]]]]]. exists t. split; [exact Et|]. split; [exact Gt|].
  rewrite (via_p_R (real p1) (real p2) f1 f2 Z1 Z2) in ET by (assumption || lra). apply ok_some_inj in ET.
  assert (Es : s = factor f1 f2 * (d2 - d1)).
  { pose proof (via_p_tec r s (real f1) (real f2)) as H. destruct C1 as [_ [Q1 _]], C2 as [_ [Q2 _]].
    specialize (H ltac:(lra) ltac:(lra) (real_neq f1 f2 Ha Z1)). rewrite <- E1, <- E2 in H. specialize (H ltac:(lra) ltac:(lra)).
    rewrite (via_p_R d1 d2 f1 f2 Z1 Z2) in H by (assumption || lra). now apply ok_some_inj in H. }
  pose proof (factor_bound f1 f2 (proj1 (proj2 C1)) (proj1 (proj2 C2)) Ha) as HK. set (K := factor f1 f2) in *.
  assert (HT : Rabs (T - s) <= / 300000).
  { rewrite <- ET, Es. replace (K * (real p2 - real p1) - K * (d2 - d1)) with (K * ((real p2 - d2) - (real p1 - d1))) by ring. rewrite Rabs_mult.
    assert (Rabs (real p2 - d2 - (real p1 - d1)) <= / 40000000) by (apply Rabs_le_inv in D1, D2; apply Rabs_le; unfold u53 in *; lra).
    pose proof (Rabs_pos K). pose proof (Rabs_pos (real p2 - d2 - (real p1 - d1))). nra. }
  assert (HTb : Rabs T <= 1000001) by (apply Rabs_le_inv in HT; apply Rabs_le_inv in Hs; apply Rabs_le; lra).
  apply Rabs_le_inv in HT. assert (Ht' : Rabs (real t - T) <= / 10000000) by lra. apply Rabs_le_inv in Ht'. apply Rabs_le. lra.
Qed.
(** two phases *)
Lemma lambda_bound f : 1000000000 <= f -> 0 < lambda f <= 3 / 10.
Proof.
  intros H. unfold lambda. split; [apply Rdiv_lt_0_compat; lra|]. apply (Rmult_le_reg_r f); [lra|]. unfold Rdiv. rewrite Rmult_assoc, Rinv_l by lra. lra.
Qed.
Lemma near_phase l d : nearest64 l d -> / 1000 <= Rabs d <= 300000000 -> phase l /\ Rabs (real l - d) <= / 20000000 /\ real l <> 0 /\ d <> 0.
Proof.
  intros N B. destruct (near_dec l d 300000000 N ltac:(lra) ltac:(right; lra)) as [G D].
  destruct (near_dec l d (Rabs d) N ltac:(lra) ltac:(right; lra)) as [_ D']. pose proof u53_pos as Hu.
  assert (D'' : Rabs (real l - d) <= / 20000000) by (unfold u53 in *; lra).
  assert (L : Rabs d / 2 <= Rabs (real l)).
  { assert (Rabs d <= Rabs (real l) + Rabs (real l - d)). { replace d with (real l + - (real l - d)) at 1 by ring. rewrite <- (Rabs_Ropp (real l - d)). apply Rabs_triang. }
    assert (u53 * Rabs d <= Rabs d / 2) by nra. lra. }
  assert (U : Rabs (real l) <= 300000001).
  { replace (real l) with (d + (real l - d)) by ring. eapply Rle_trans; [apply Rabs_triang|]. lra. }
  split; [split; [exact G|lra]|]. split; [exact D''|]. split; intros E; rewrite E, Rabs_R0 in *; lra.
Qed.
Lemma via_l_R l1 l2 f1 f2 : real f1 <> 0 -> real f2 <> 0 -> l1 <> 0 -> l2 <> 0 -> tec_factor Rops (real f1) (real f2) = Ok (factor f1 f2) ->
  via_l Rops (Some l1) (Some l2) (Some (real f1)) (Some (real f2)) 0 = Ok (Some (factor f1 f2 * (lambda (real f1) * l1 - lambda (real f2) * l2) - 0)).
Proof. intros H1 H2 N1 N2 E. unfold via_l. rewrite !truth_R_true by assumption. cbn [negb andb]. rewrite E. cbn [bind]. rewrite light_R, !div_R by assumption. reflexivity. Qed.
Lemma phase_tec l1 l2 f1 f2 d1 d2 r s b1 b2 : carrier m f1 -> carrier m f2 -> apart f1 f2 -> nearest64 l1 d1 -> nearest64 l2 d2 ->
  / 1000 <= Rabs d1 <= 300000000 -> / 1000 <= Rabs d2 <= 300000000 ->
  lambda (real f1) * d1 = r - delay s (real f1) + b1 -> lambda (real f2) * d2 = r - delay s (real f2) + b2 ->
  exists t, via_l (Fops m) (Some l1) (Some l2) (Some f1) (Some f2) (o_int (Fops m) 0) = Ok (Some t) /\ is_real t /\
    Rabs (real t - (s + (b1 - b2) * (real f1 * real f1 * (real f2 * real f2)) / (40.308 * 10000000000000000 * (real f1 * real f1 - real f2 * real f2)))) <= / 4000.
Proof.
  intros C1 C2 Ha N1 N2 B1 B2 E1 E2.
  destruct (near_phase l1 d1 N1 B1) as [P1 [D1 [X1 Y1]]]. destruct (near_phase l2 d2 N2 B2) as [P2 [D2 [X2 Y2]]].
  destruct (factor_real m f1 f2 C1 C2 Ha) as [Ek [Z1 Z2]].
  destruct (via_l_rounding m l1 l2 f1 f2 C1 C2 Ha P1 P2) as [t [T [K0 [Et [Gt [ET [EK Ht]]]]]]]. exists t. split; [exact Et|]. split; [exact Gt|].
  rewrite Ek in EK. injection EK as <-. rewrite (via_l_R (real l1) (real l2) f1 f2 Z1 Z2 X1 X2 Ek) in ET. apply ok_some_inj in ET.
  set (S0 := s + _) in *.
  pose proof (proj1 (proj2 C1)) as Q1. pose proof (proj1 (proj2 C2)) as Q2.
  assert (Es : S0 = factor f1 f2 * (lambda (real f1) * d1 - lambda (real f2) * d2)).
  { pose proof (via_l_tec r s b1 b2 (real f1) (real f2) d1 d2 ltac:(lra) ltac:(lra) (real_neq f1 f2 Ha Z1) Y1 Y2 E1 E2) as H.
    rewrite (via_l_R d1 d2 f1 f2 Z1 Z2 Y1 Y2 Ek) in H. apply ok_some_inj in H. unfold S0. rewrite <- H. ring. }
  pose proof (factor_bound f1 f2 Q1 Q2 Ha) as HK. set (K := factor f1 f2) in *.
  pose proof (lambda_bound (real f1) ltac:(lra)) as W1. pose proof (lambda_bound (real f2) ltac:(lra)) as W2.
  set (w1 := lambda (real f1)) in *. set (w2 := lambda (real f2)) in *.
  assert (HT : Rabs (T - S0) <= / 250000).
  { rewrite <- ET, Es. replace (K * (w1 * real l1 - w2 * real l2) - 0 - K * (w1 * d1 - w2 * d2)) with (K * (w1 * (real l1 - d1) - w2 * (real l2 - d2))) by ring. rewrite Rabs_mult.
    assert (Rabs (w1 * (real l1 - d1) - w2 * (real l2 - d2)) <= 6 / 200000000) by (apply Rabs_le_inv in D1, D2; apply Rabs_le; nra).
    pose proof (Rabs_pos K). pose proof (Rabs_pos (w1 * (real l1 - d1) - w2 * (real l2 - d2))). nra. }
  assert (U : forall l d w, Rabs (real l - d) <= / 20000000 -> Rabs d <= 300000000 -> 0 < w <= 3 / 10 -> Rabs (w * real l) <= 90000001).
  { intros l d w D B W. rewrite Rabs_mult, (Rabs_right w) by lra. assert (Rabs (real l) <= 300000001).
    { replace (real l) with (d + (real l - d)) by ring. eapply Rle_trans; [apply Rabs_triang|]. lra. } pose proof (Rabs_pos (real l)). nra. }
  pose proof (U l1 d1 w1 D1 (proj2 B1) W1) as U1. pose proof (U l2 d2 w2 D2 (proj2 B2) W2) as U2.
  assert (HR : Rabs K * (Rabs (w1 * real l1) + Rabs (w2 * real l2)) <= 22500001000) by (pose proof (Rabs_pos K); pose proof (Rabs_pos (w1 * real l1)); pose proof (Rabs_pos (w2 * real l2)); nra).
  assert (Ht' : Rabs (real t - T) <= 23 / 100000) by lra.
  apply Rabs_le_inv in HT, Ht'. apply Rabs_le. lra.
Qed.
(** a phase and a pseudorange *)
Lemma via_lc_R l c f : f <> 0 -> l <> 0 -> c <> 0 ->
  via_l1_c1 Rops (Some l) (Some c) (Some f) = Ok (Some (f * f / (2 * 40.308 * 10000000000000000) * (c - lambda f * l))).
Proof.
  intros H1 N1 N2. unfold via_l1_c1. rewrite !truth_R_true by assumption. cbn [negb andb].
  rewrite half_R, k40_R, light_R, tecu_R. cbn [bind o_pow Rops o_mul]. rewrite div_R by lra. cbn [bind]. rewrite div_R by lra. cbn [bind]. do 2 f_equal. cbn [o_mul o_sub Rops].
  unfold lambda. field. lra.
Qed.
Lemma mixed_tec l c f d1 d2 r s b : carrier m f -> nearest64 l d1 -> nearest64 c d2 ->
  / 1000 <= Rabs d1 <= 300000000 -> 1 <= d2 <= 100000000 -> lambda (real f) * d1 = r - delay s (real f) + b -> d2 = r + delay s (real f) ->
  exists t, via_l1_c1 (Fops m) (Some l) (Some c) (Some f) = Ok (Some t) /\ is_real t /\
    Rabs (real t - (s - b * (real f * real f) / (2 * 40.308 * 10000000000000000))) <= / 100000.
Proof.
  intros C1 N1 N2 B1 B2 E1 E2. pose proof (proj1 (proj2 C1)) as Q1. pose proof u53_pos as Hu.
  destruct (near_phase l d1 N1 B1) as [P1 [D1 [X1 Y1]]].
  destruct (near_dec c d2 100000000 N2) as [G2 D2]; [rewrite Rabs_right; lra|right; rewrite Rabs_right; lra|].
  pose proof (near_ge c d2 1 N2 ltac:(lra) ltac:(lia)) as L2.
  assert (P2 : pseudorange c) by (split; [exact G2|]; apply Rabs_le_inv in D2; lra).
  destruct (via_lc_rounding m l c f C1 P1 P2) as [t [T [Et [Gt [ET Ht]]]]]. exists t. split; [exact Et|]. split; [exact Gt|].
  rewrite via_lc_R in ET by (assumption || lra). apply ok_some_inj in ET. set (S0 := s - _) in *.
  assert (Es : S0 = real f * real f / (2 * 40.308 * 10000000000000000) * (d2 - lambda (real f) * d1)).
  { pose proof (via_lc_tec r s b (real f) d1 ltac:(lra) Y1) as H. rewrite <- E2 in H. specialize (H ltac:(lra) E1). rewrite via_lc_R in H by (assumption || lra). apply ok_some_inj in H. unfold S0. rewrite <- H. reflexivity. }
  assert (HK : 0 <= real f * real f / (2 * 40.308 * 10000000000000000) <= 5).
  { assert (0 <= real f * real f <= 4000000000000000000) by nra. split; [apply Rmult_le_pos; lra|]. lra. }
  set (K := real f * real f / _) in *.
  pose proof (lambda_bound (real f) ltac:(lra)) as W1. set (w := lambda (real f)) in *.
  assert (D2' : Rabs (real c - d2) <= / 50000000) by (unfold u53 in *; lra).
  assert (HT : Rabs (T - S0) <= / 4000000).
  { rewrite <- ET, Es. replace (K * (real c - w * real l) - K * (d2 - w * d1)) with (K * ((real c - d2) - w * (real l - d1))) by ring. rewrite Rabs_mult, (Rabs_right K) by lra.
    assert (Rabs (real c - d2 - w * (real l - d1)) <= / 25000000) by (apply Rabs_le_inv in D1, D2'; apply Rabs_le; nra).
    pose proof (Rabs_pos (real c - d2 - w * (real l - d1))). nra. }
  assert (U1 : Rabs (w * real l) <= 90000001).
  { rewrite Rabs_mult, (Rabs_right w) by lra. assert (Rabs (real l) <= 300000001).
    { replace (real l) with (d1 + (real l - d1)) by ring. eapply Rle_trans; [apply Rabs_triang|]. lra. } pose proof (Rabs_pos (real l)). nra. }
  assert (U2 : Rabs (real c) <= 100000001) by (apply Rabs_le_inv in D2'; apply Rabs_le; lra).
  assert (HR : K * (Rabs (real c) + Rabs (w * real l)) <= 951000000) by (pose proof (Rabs_pos (w * real l)); pose proof (Rabs_pos (real c)); nra).
  assert (Ht' : Rabs (real t - T) <= 951 / 100000000) by lra.
  apply Rabs_le_inv in HT, Ht'. apply Rabs_le. lra.
Qed.
End Lib.
