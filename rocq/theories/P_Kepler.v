(** Newton's iteration in binary64. *)
From Coq Require Import Reals Lra Psatz.
From Flocq Require Import Core.
From Verif Require Import Base PyStr PyFloat P_Float P_Div M_Num M_Sat P_Tec S_Tec P_TecE P_TecG S_Sat S_SatF P_Sat1 P_Sat4 P_Open2.
Open Scope R_scope.

Lemma tiny_bound : / IZR (2 ^ 1000) <= / 1000000000000000000000000000000.
Proof. apply Rinv_le_contravar; [lra|]. apply IZR_le. vm_compute. discriminate. Qed.
(** the value of a float known up to an absolute error *)
Definition ab (x : float) (y e : R) : Prop := good x /\ Rabs (f2r x - y) <= e.
Definition u2 : R := / 4000000000000000.        (* rounding of numbers up to 2 *)
Definition u128 : R := / 64000000000000.        (* rounding of numbers up to 128 *)
Lemma rnd_2 z : Rabs z <= 2 -> Rabs (rnd64 z - z) <= u2.
Proof.
  intros H. pose proof (rnd_abs z) as R. pose proof tiny_bound as T. unfold u2, u53 in *. assert (/ 9007199254740992 * Rabs z <= / 9007199254740992 * 2) by (apply Rmult_le_compat_l; [lra|exact H]). lra.
Qed.
Lemma rnd_128 z : Rabs z <= 128 -> Rabs (rnd64 z - z) <= u128.
Proof.
  intros H. pose proof (rnd_abs z) as R. pose proof tiny_bound as T. unfold u128, u53 in *. assert (/ 9007199254740992 * Rabs z <= / 9007199254740992 * 128) by (apply Rmult_le_compat_l; [lra|exact H]). lra.
Qed.
Lemma big_1000 x : Rabs x <= 1000 -> Rabs x <= big.
Proof. intros H. eapply Rle_trans; [exact H|]. apply big_IZR. vm_compute. discriminate. Qed.
Lemma abs_split x y e : Rabs (x - y) <= e -> y - e <= x <= y + e.
Proof. intros H. apply Rabs_le_inv in H. lra. Qed.

Lemma ab_sub u B x y a b ea eb : (forall z, Rabs z <= B -> Rabs (rnd64 z - z) <= u) -> B <= 1000 -> ab x a ea -> ab y b eb -> Rabs (a - b) + ea + eb <= B -> ab (fsub x y) (a - b) (ea + eb + u).
Proof.
  intros Hu HB [Gx Hx] [Gy Hy] H. assert (X : Rabs (f2r x - f2r y - (a - b)) <= ea + eb).
  { replace (f2r x - f2r y - (a - b)) with ((f2r x - a) - (f2r y - b)) by ring. eapply Rle_trans; [apply Rabs_triang|]. rewrite Rabs_Ropp. lra. }
  assert (Y : Rabs (f2r x - f2r y) <= B). { replace (f2r x - f2r y) with ((a - b) + (f2r x - f2r y - (a - b))) by ring. eapply Rle_trans; [apply Rabs_triang|]. lra. }
  destruct (fsub_correct x y Gx Gy (big_1000 (f2r x - f2r y) ltac:(lra))) as [G E]. split; [exact G|]. rewrite E.
  replace (rnd64 (f2r x - f2r y) - (a - b)) with ((rnd64 (f2r x - f2r y) - (f2r x - f2r y)) + (f2r x - f2r y - (a - b))) by ring.
  eapply Rle_trans; [apply Rabs_triang|]. specialize (Hu _ Y). lra.
Qed.
Lemma ab_mul x y a b eb : good x -> f2r x = a -> 0 <= a <= 1 -> ab y b eb -> Rabs b + eb <= 2 -> ab (fmul x y) (a * b) (eb + u2).
Proof.
  intros Gx Ea Ha [Gy Hy] H. assert (X : Rabs (f2r x * f2r y - a * b) <= eb).
  { rewrite Ea. replace (a * f2r y - a * b) with (a * (f2r y - b)) by ring. rewrite Rabs_mult, (Rabs_right a) by lra. pose proof (Rabs_pos (f2r y - b)). nra. }
  assert (Y : Rabs (f2r x * f2r y) <= 2).
  { rewrite Rabs_mult, Ea, (Rabs_right a) by lra. assert (Rabs (f2r y) <= 2). { replace (f2r y) with (b + (f2r y - b)) by ring. eapply Rle_trans; [apply Rabs_triang|]. lra. } pose proof (Rabs_pos (f2r y)). nra. }
  destruct (fmul_correct x y Gx Gy (big_1000 (f2r x * f2r y) ltac:(lra))) as [G E]. split; [exact G|]. rewrite E.
  replace (rnd64 (f2r x * f2r y) - a * b) with ((rnd64 (f2r x * f2r y) - f2r x * f2r y) + (f2r x * f2r y - a * b)) by ring.
  eapply Rle_trans; [apply Rabs_triang|]. pose proof (rnd_2 _ Y). lra.
Qed.
Lemma ab_div x y a b ea eb : ab x a ea -> ab y b eb -> 7 / 10 + eb <= b -> Rabs (a / b) <= 17 / 10 -> 0 <= ea <= / 100 -> 0 <= eb <= / 100 ->
  exists q, fdiv x y = Ok q /\ ab q (a / b) ((ea + 17 / 10 * eb) * (10 / 7) + u2).
Proof.
  intros [Gx Hx] [Gy Hy] Hb Hq He1 He2. pose proof (abs_split _ _ _ Hy) as [Y1 _]. assert (Yp : 7 / 10 <= f2r y) by lra.
  assert (X : Rabs (f2r x / f2r y - a / b) <= (ea + 17 / 10 * eb) * (10 / 7)).
  { replace (f2r x / f2r y - a / b) with (((f2r x - a) - a / b * (f2r y - b)) * / f2r y) by (field; lra). rewrite Rabs_mult, Rabs_inv, (Rabs_right (f2r y)) by lra.
    assert (I : / f2r y <= 10 / 7). { replace (10 / 7) with (/ (7 / 10)) by field. apply Rinv_le_contravar; lra. } assert (I0 : 0 < / f2r y) by (apply Rinv_0_lt_compat; lra).
    apply Rmult_le_compat; [apply Rabs_pos|lra| |exact I]. eapply Rle_trans; [apply Rabs_triang|]. rewrite Rabs_Ropp, Rabs_mult.
    assert (Rabs (a / b) * Rabs (f2r y - b) <= 17 / 10 * eb) by (apply Rmult_le_compat; auto using Rabs_pos). lra. }
  assert (Z : Rabs (f2r x / f2r y) <= 2). { replace (f2r x / f2r y) with (a / b + (f2r x / f2r y - a / b)) by ring. eapply Rle_trans; [apply Rabs_triang|]. lra. }
  destruct (fdiv_correct x y Gx Gy ltac:(lra) (big_1000 (f2r x / f2r y) ltac:(lra))) as [q [E [G E2]]]. exists q. split; [exact E|]. split; [exact G|]. rewrite E2.
  replace (rnd64 (f2r x / f2r y) - a / b) with ((rnd64 (f2r x / f2r y) - f2r x / f2r y) + (f2r x / f2r y - a / b)) by ring.
  eapply Rle_trans; [apply Rabs_triang|]. pose proof (rnd_2 _ Z). lra.
Qed.
Lemma ab_exact x : good x -> ab x (f2r x) 0.
Proof. intros H. split; [exact H|]. rewrite Rminus_eq_0, Rabs_R0. lra. Qed.
Lemma fabs_good x : good x -> good (fabs x) /\ f2r (fabs x) = Rabs (f2r x).
Proof.
  intros [V F]. destruct x as [s|s| |s p e]; try discriminate F; cbn [fabs SFabs].
  - split; [split; reflexivity|]. cbn. rewrite Rabs_R0. reflexivity.
  - split; [split; [exact V|reflexivity]|]. rewrite !SF2R_finite, sgn_abs. cbn [sgn]. rewrite Rabs_right; [ring|]. apply Rle_ge, Rmult_le_pos; [apply IZR_le; lia|apply bpow_ge_0].
Qed.

(** the C library's sine and cosine are off by at most 2^-52 for angles up to a hundred radians *)
Definition eta : R := / 20000000000000.
Lemma good_not_inf x : good x -> is_inf x = false.
Proof. intros [_ F]. destruct x; try reflexivity; discriminate F. Qed.
Lemma int1 m : ab (o_int (Fops m) 1) 1 0.
Proof. destruct (float_of_Z_correct 1 ltac:(vm_compute; discriminate)) as [G E]. replace (o_int (Fops m) 1) with (float_of_Z 1) by (vm_compute; reflexivity). split; [exact G|]. rewrite E, Rminus_eq_0, Rabs_R0. lra. Qed.
Lemma newton_bound e m x : 0 <= e <= / 4 -> Rabs (x - m) <= 1 -> Rabs ((x - e * sin x - m) / (1 - e * cos x)) <= 17 / 10 - / 100 /\ Rabs (newton e m x - m) <= 99 / 100.
Proof.
  intros He Hx. pose proof (one_e_cos e x ltac:(lra)) as P. pose proof (SIN_bound x) as Sx.
  assert (F : Rabs (x - e * sin x - m) <= 5 / 4). { apply Rabs_le_inv in Hx. apply Rabs_le. nra. }
  assert (D : Rabs ((x - e * sin x - m) / (1 - e * cos x)) <= 5 / 3).
  { unfold Rdiv. rewrite Rabs_mult, Rabs_inv, (Rabs_right (1 - _)) by lra. apply Rle_trans with (5 / 4 * / (3 / 4)); [|lra]. apply Rmult_le_compat; [apply Rabs_pos|apply Rlt_le, Rinv_0_lt_compat; lra|exact F|apply Rinv_le_contravar; lra]. }
  split; [lra|]. pose proof (newton_residual e m x ltac:(lra)) as Q. cbv zeta in Q. set (x' := newton e m x) in *.
  assert (Ed : x' - x = - ((x - e * sin x - m) / (1 - e * cos x))) by (unfold x', newton; ring).
  assert (D2 : (x' - x) ^ 2 <= 25 / 9). { rewrite Ed. apply Rabs_le_inv in D. set (q := _ / _) in *. nra. }
  pose proof (SIN_bound x'). apply Rabs_le_inv in Q. assert (e * (x' - x) ^ 2 <= / 4 * (25 / 9)) by (apply Rmult_le_compat; try lra; apply pow2_ge_0). apply Rabs_le. nra.
Qed.
(** one turn *)
Lemma turn_F lm e m x x1 p c n : trig_accurate lm -> good e -> good m -> good x -> 0 <= f2r e <= / 4 -> Rabs (f2r m) <= 50 -> Rabs (f2r x - f2r m) <= 1 ->
  exists x', kepler_loop (Fops lm) (S n) e m x x1 p c = (if feqb p c then Ok x else kepler_loop (Fops lm) n e m x' x (fabs (fsub x x1)) (fabs (fsub x' x))) /\
    ab x' (newton (f2r e) (f2r m) (f2r x)) eta /\ Rabs (f2r x' - f2r m) <= 1.
Proof.
  intros HT Ge Gm Gx He Hm Hx. pose proof (Rabs_le_inv _ _ Hm) as Hm'. pose proof (Rabs_le_inv _ _ Hx) as Hx'.
  assert (Hx100 : Rabs (f2r x) <= 100) by (apply Rabs_le; lra). destruct (HT x Gx Hx100) as [S C].
  destruct (newton_bound (f2r e) (f2r m) (f2r x) He Hx) as [Bd Bn]. pose proof (one_e_cos (f2r e) (f2r x) ltac:(lra)) as P.
  pose proof (SIN_bound (f2r x)) as Sb. pose proof (COS_bound (f2r x)) as Cb.
  assert (As : Rabs (sin (f2r x)) <= 1) by (apply Rabs_le; lra). assert (Ac : Rabs (cos (f2r x)) <= 1) by (apply Rabs_le; lra).
  assert (S1 : ab (l_sin lm x) (sin (f2r x)) (/ 4503599627370496)) by exact S. assert (C1 : ab (l_cos lm x) (cos (f2r x)) (/ 4503599627370496)) by exact C.
  pose proof (ab_mul e _ _ _ _ Ge eq_refl ltac:(lra) S1 ltac:(lra)) as T1. pose proof (ab_mul e _ _ _ _ Ge eq_refl ltac:(lra) C1 ltac:(lra)) as U1.
  assert (Es : Rabs (f2r e * sin (f2r x)) <= / 4) by (apply Rabs_le; nra). assert (Ec : Rabs (f2r e * cos (f2r x)) <= / 4) by (apply Rabs_le; nra).
  pose proof (Rabs_le_inv _ _ Es) as Es'. pose proof (Rabs_le_inv _ _ Ec) as Ec'.
  assert (V : 0 < u2 <= / 4000000000000000 /\ 0 < u128 <= / 64000000000000) by (unfold u2, u128; lra).
  assert (T2 : ab (fsub x (fmul e (l_sin lm x))) (f2r x - f2r e * sin (f2r x)) (0 + (/ 4503599627370496 + u2) + u128)).
  { apply (ab_sub u128 128); [apply rnd_128|lra|apply ab_exact, Gx|exact T1|]. assert (Rabs (f2r x - f2r e * sin (f2r x)) <= 60) by (apply Rabs_le; lra). lra. }
  assert (T3 : ab (fsub (fsub x (fmul e (l_sin lm x))) m) (f2r x - f2r e * sin (f2r x) - f2r m) (0 + (/ 4503599627370496 + u2) + u128 + 0 + u2)).
  { apply (ab_sub u2 2); [apply rnd_2|lra|exact T2|apply ab_exact, Gm|]. assert (Rabs (f2r x - f2r e * sin (f2r x) - f2r m) <= 5 / 4) by (apply Rabs_le; lra). lra. }
  assert (U2 : ab (fsub (o_int (Fops lm) 1) (fmul e (l_cos lm x))) (1 - f2r e * cos (f2r x)) (0 + (/ 4503599627370496 + u2) + u2)).
  { apply (ab_sub u2 2); [apply rnd_2|lra|apply int1|exact U1|]. assert (Rabs (1 - f2r e * cos (f2r x)) <= 5 / 4) by (apply Rabs_le; lra). lra. }
  destruct (ab_div _ _ _ _ _ _ T3 U2 ltac:(lra) ltac:(lra) ltac:(lra) ltac:(lra)) as [d [Ed D]].
  assert (X' : ab (fsub x d) (newton (f2r e) (f2r m) (f2r x)) eta).
  { unfold newton. match type of D with ab _ _ ?ed => assert (Q : ab (fsub x d) (f2r x - (f2r x - f2r e * sin (f2r x) - f2r m) / (1 - f2r e * cos (f2r x))) (0 + ed + u128)) end.
    { apply (ab_sub u128 128); [apply rnd_128|lra|apply ab_exact, Gx|exact D|]. unfold newton in Bn. apply Rabs_le_inv in Bn. match goal with |- Rabs ?q + _ + _ <= _ => assert (Rabs q <= 60) by (apply Rabs_le; lra) end. lra. }
    destruct Q as [G Q]. split; [exact G|]. eapply Rle_trans; [exact Q|]. unfold eta, u2, u128. lra. }
  exists (fsub x d). split; [|split; [exact X'|]].
  - cbn [kepler_loop]. cbn [o_eqb Fops]. destruct (feqb p c); [reflexivity|]. cbn [o_sin o_cos Fops]. unfold no_inf. rewrite (good_not_inf x Gx). cbn [bind o_sub o_mul o_div Fops].
    change (o_int (Fops lm) 1) with (o_int (Fops lm) 1) in *. rewrite Ed. reflexivity.
  - destruct X' as [_ Q]. apply Rabs_le_inv in Q, Bn. apply Rabs_le. unfold eta in Q. lra.
Qed.
Lemma feqb_real x y : good x -> good y -> feqb x y = true -> f2r x = f2r y.
Proof. intros Hx Hy. apply feqb_good; assumption. Qed.
(** the measured size of a step *)
Lemma step_size x x1 m : good x -> good x1 -> Rabs (f2r x - m) <= 1 -> Rabs (f2r x1 - m) <= 1 -> ab (fabs (fsub x x1)) (Rabs (f2r x - f2r x1)) u2.
Proof.
  intros G G1 H H1. assert (B : Rabs (f2r x - f2r x1) <= 2) by (apply Rabs_le_inv in H, H1; apply Rabs_le; lra).
  destruct (fsub_correct x x1 G G1 (big_1000 (f2r x - f2r x1) ltac:(lra))) as [Gs E]. destruct (fabs_good _ Gs) as [Ga Ea]. split; [exact Ga|]. rewrite Ea, E.
  eapply Rle_trans; [apply Rabs_triang_inv2|]. apply rnd_2, B.
Qed.
(** the residual is Lipschitz *)
Lemma residual_lip e m x y : 0 <= e <= / 4 -> Rabs (x - e * sin x - m) <= Rabs (y - e * sin y - m) + 5 / 4 * Rabs (x - y).
Proof.
  intros He. replace (x - e * sin x - m) with ((y - e * sin y - m) + ((x - y) - e * (sin x - sin y))) by ring. eapply Rle_trans; [apply Rabs_triang|]. apply Rplus_le_compat_l.
  eapply Rle_trans; [apply Rabs_triang|]. rewrite Rabs_Ropp, Rabs_mult, (Rabs_right e) by lra. pose proof (abs_sin_diff x y). pose proof (Rabs_pos (x - y)). pose proof (Rabs_pos (sin x - sin y)). nra.
Qed.
(** what two equal steps say *)
Lemma equal_steps e m x0 x1 x p c : 0 <= e <= / 4 -> Rabs (x1 - newton e m x0) <= eta -> Rabs (x - newton e m x1) <= eta -> Rabs (x1 - x0) <= 17 / 10 ->
  Rabs (p - Rabs (x1 - x0)) <= u2 -> Rabs (c - Rabs (x - x1)) <= u2 -> p = c -> Rabs (x - e * sin x - m) <= / 10000000000000.
Proof.
  intros He H1 H2 Hd Hp Hc Epc. subst c. pose proof (Rabs_pos (x1 - x0)) as Pd. pose proof (Rabs_pos (x - x1)) as PD. set (d := Rabs (x1 - x0)) in *. set (D := Rabs (x - x1)) in *.
  apply Rabs_le_inv in Hp, Hc. assert (Q : 0 < eta <= / 20000000000000 /\ 0 < u2 <= / 4000000000000000) by (unfold eta, u2; lra).
  assert (A : forall a b g, Rabs (b - newton e m a) <= eta -> Rabs (b - a) <= g -> 0 <= g -> Rabs (b - e * sin b - m) <= e * (g + eta) ^ 2 + 5 / 4 * eta).
  { intros a b g Hb Hg Pg. pose proof (residual_lip e m b (newton e m a) He) as L. pose proof (newton_residual e m a ltac:(lra)) as N. cbv zeta in N.
    assert (W : Rabs (newton e m a - a) <= g + eta). { replace (newton e m a - a) with ((b - a) - (b - newton e m a)) by ring. eapply Rle_trans; [apply Rabs_triang|]. rewrite Rabs_Ropp. lra. }
    assert (W2 : (newton e m a - a) ^ 2 <= (g + eta) ^ 2). { rewrite <- (pow2_abs (newton e m a - a)). pose proof (Rabs_pos (newton e m a - a)). nra. }
    assert (e * (newton e m a - a) ^ 2 <= e * (g + eta) ^ 2) by (apply Rmult_le_compat_l; lra). lra. }
  pose proof (A x0 x1 d H1 (Rle_refl _) Pd) as R1. 
  assert (ND : Rabs (newton e m x1 - x1) <= 4 / 3 * (e * (d + eta) ^ 2 + 5 / 4 * eta)).
  { unfold newton. replace (x1 - (x1 - e * sin x1 - m) / (1 - e * cos x1) - x1) with (- ((x1 - e * sin x1 - m) / (1 - e * cos x1))) by ring. rewrite Rabs_Ropp. unfold Rdiv. pose proof (one_e_cos e x1 ltac:(lra)) as P. rewrite Rabs_mult, Rabs_inv, (Rabs_right (1 - _)) by lra.
    rewrite (Rmult_comm (4 * / 3)). assert (I : / (1 - e * cos x1) <= 4 * / 3). { replace (4 * / 3) with (/ (3 / 4)) by field. apply Rinv_le_contravar; lra. } apply Rmult_le_compat; [apply Rabs_pos|apply Rlt_le, Rinv_0_lt_compat; lra|exact R1|exact I]. }
  assert (DD : D <= 4 / 3 * (e * (d + eta) ^ 2 + 5 / 4 * eta) + eta). { unfold D. replace (x - x1) with ((x - newton e m x1) + (newton e m x1 - x1)) by ring. eapply Rle_trans; [apply Rabs_triang|]. lra. }
  assert (S2 : (d + eta) ^ 2 <= 171 / 100 * (d + eta)) by nra.
  assert (S3 : e * (d + eta) ^ 2 <= / 4 * (171 / 100 * (d + eta))) by (apply Rmult_le_compat; [lra|apply pow2_ge_0|lra|exact S2]).
  assert (Sd : d <= / 1000000000000) by lra. assert (SD : D <= / 500000000000) by lra.
  pose proof (A x1 x D H2 (Rle_refl _) PD) as R2. assert (S4 : (D + eta) ^ 2 <= / 400000000000 * / 400000000000) by nra. assert (S5 : e * (D + eta) ^ 2 <= / 4 * (/ 400000000000 * / 400000000000)) by (apply Rmult_le_compat; [lra|apply pow2_ge_0|lra|exact S4]). lra.
Qed.
Lemma kepler_loop_F lm e m n : trig_accurate lm -> good e -> good m -> 0 <= f2r e <= / 4 -> Rabs (f2r m) <= 50 ->
  forall x0 x1 x E, good x0 -> good x1 -> good x -> Rabs (f2r x0 - f2r m) <= 1 -> Rabs (f2r x1 - f2r m) <= 1 -> Rabs (f2r x - f2r m) <= 1 ->
  Rabs (f2r x1 - newton (f2r e) (f2r m) (f2r x0)) <= eta -> Rabs (f2r x - newton (f2r e) (f2r m) (f2r x1)) <= eta ->
  kepler_loop (Fops lm) n e m x x1 (fabs (fsub x1 x0)) (fabs (fsub x x1)) = Ok E -> good E /\ Rabs (f2r E - f2r e * sin (f2r E) - f2r m) <= / 10000000000000.
Proof.
  intros HT Ge Gm He Hm. assert (End : forall x0 x1 x, good x0 -> good x1 -> good x -> Rabs (f2r x0 - f2r m) <= 1 -> Rabs (f2r x1 - f2r m) <= 1 -> Rabs (f2r x - f2r m) <= 1 ->
    Rabs (f2r x1 - newton (f2r e) (f2r m) (f2r x0)) <= eta -> Rabs (f2r x - newton (f2r e) (f2r m) (f2r x1)) <= eta ->
    feqb (fabs (fsub x1 x0)) (fabs (fsub x x1)) = true -> Rabs (f2r x - f2r e * sin (f2r x) - f2r m) <= / 10000000000000).
  { intros x0 x1 x G0 G1 G B0 B1 B N1 N Q. destruct (step_size x1 x0 (f2r m) G1 G0 B1 B0) as [Gp Hp]. destruct (step_size x x1 (f2r m) G G1 B B1) as [Gc Hc].
    apply (feqb_real _ _ Gp Gc) in Q. refine (equal_steps (f2r e) (f2r m) (f2r x0) (f2r x1) (f2r x) _ _ He N1 N _ Hp Hc Q).
    destruct (newton_bound (f2r e) (f2r m) (f2r x0) He B0) as [D _]. replace (f2r x1 - f2r x0) with ((f2r x1 - newton (f2r e) (f2r m) (f2r x0)) - (f2r x0 - f2r e * sin (f2r x0) - f2r m) / (1 - f2r e * cos (f2r x0))) by (unfold newton; ring).
    eapply Rle_trans; [apply Rabs_triang|]. rewrite Rabs_Ropp. unfold eta in *. lra. }
  induction n as [|n IH]; intros x0 x1 x E G0 G1 G B0 B1 B N1 N H.
  - cbn [kepler_loop o_eqb Fops] in H. destruct (feqb _ _) eqn:Q; [|discriminate]. injection H as <-. split; [exact G|]. exact (End x0 x1 x G0 G1 G B0 B1 B N1 N Q).
  - destruct (turn_F lm e m x x1 (fabs (fsub x1 x0)) (fabs (fsub x x1)) n HT Ge Gm G He Hm B) as [x' [E' [[G' N'] B']]]. rewrite E' in H. clear E'.
    destruct (feqb _ _) eqn:Q; [injection H as <-; split; [exact G|exact (End x0 x1 x G0 G1 G B0 B1 B N1 N Q)]|]. exact (IH x1 x x' E G1 G G' B1 B B' N N' H).
Qed.
Lemma kepler_binary64 lm e m n E : trig_accurate lm -> good e -> good m -> 0 <= f2r e <= / 4 -> Rabs (f2r m) <= 50 ->
  kepler_loop (Fops lm) n e m m (o_add (Fops lm) m (o_int (Fops lm) 1)) (o_int (Fops lm) 0) (o_int (Fops lm) 1) = Ok E ->
  good E /\ Rabs (f2r E - f2r e * sin (f2r E) - f2r m) <= / 10000000000000.
Proof.
  intros HT Ge Gm He Hm H. destruct (int1 lm) as [Gi Hi]. pose proof (Rabs_le_inv _ _ Hm) as Hm'.
  assert (Ei : f2r (o_int (Fops lm) 1) = 1) by (apply abs_split in Hi; lra).
  set (a := o_add (Fops lm) m (o_int (Fops lm) 1)) in *. assert (Aa : good a /\ Rabs (f2r a - (f2r m + 1)) <= u128).
  { unfold a. cbn [o_add Fops]. destruct (fadd_correct m (o_int (Fops lm) 1) Gm Gi) as [Ga Ea]; [apply big_1000; rewrite Ei; apply Rabs_le; lra|]. split; [exact Ga|]. rewrite Ea, Ei. apply rnd_128. apply Rabs_le; lra. }
  destruct Aa as [Ga Ha]. assert (B0 : Rabs (f2r m - f2r m) <= 1) by (rewrite Rminus_eq_0, Rabs_R0; lra).
  destruct n as [|n]; [vm_compute in H; discriminate H|].
  destruct (turn_F lm e m m a (o_int (Fops lm) 0) (o_int (Fops lm) 1) n HT Ge Gm Gm He Hm B0) as [x1 [E1 [[G1 N1] B1]]]. rewrite E1 in H. clear E1.
  replace (feqb (o_int (Fops lm) 0) (o_int (Fops lm) 1)) with false in H by (vm_compute; reflexivity).
  assert (F : feqb (fabs (fsub m a)) (fabs (fsub x1 m)) = false).
  { destruct (feqb _ _) eqn:Q; [|reflexivity]. exfalso. destruct (step_size x1 m (f2r m) G1 Gm B1 B0) as [Gc Hc].
    assert (Bm : Rabs (f2r m - f2r a) <= 2) by (apply Rabs_le_inv in Ha; unfold u128 in Ha; apply Rabs_le; lra).
    destruct (fsub_correct m a Gm Ga (big_1000 (f2r m - f2r a) ltac:(lra))) as [Gs Es]. destruct (fabs_good _ Gs) as [Gp Ep]. apply (feqb_real _ _ Gp Gc) in Q. rewrite Ep, Es in Q.
    pose proof (rnd_2 _ Bm) as Rm. apply Rabs_le_inv in Ha, Rm. rewrite Rabs_left in Q by (unfold u128, u2 in *; lra).
    pose proof (first_step (f2r e) (f2r m) ltac:(lra)) as _.
    assert (St : Rabs (newton (f2r e) (f2r m) (f2r m) - f2r m) <= / 3).
    { pose proof (one_e_cos (f2r e) (f2r m) ltac:(lra)) as P. unfold newton. replace (f2r m - (f2r m - f2r e * sin (f2r m) - f2r m) / (1 - f2r e * cos (f2r m)) - f2r m) with (f2r e * sin (f2r m) / (1 - f2r e * cos (f2r m))) by (field; lra).
      unfold Rdiv. rewrite Rabs_mult, Rabs_inv, (Rabs_right (1 - _)) by lra. apply Rle_trans with (/ 4 * / (3 / 4)); [|lra]. apply Rmult_le_compat; [apply Rabs_pos|apply Rlt_le, Rinv_0_lt_compat; lra| |apply Rinv_le_contravar; lra].
      pose proof (SIN_bound (f2r m)). apply Rabs_le. nra. }
    assert (X1 : Rabs (f2r x1 - f2r m) <= / 2). { replace (f2r x1 - f2r m) with ((f2r x1 - newton (f2r e) (f2r m) (f2r m)) + (newton (f2r e) (f2r m) (f2r m) - f2r m)) by ring. eapply Rle_trans; [apply Rabs_triang|]. unfold eta in N1. lra. }
    apply Rabs_le_inv in Hc. unfold u2, u128 in *. lra. }
  destruct n as [|n]; [cbn [kepler_loop o_eqb Fops] in H; rewrite F in H; discriminate H|].
  destruct (turn_F lm e m x1 m (fabs (fsub m a)) (fabs (fsub x1 m)) n HT Ge Gm G1 He Hm B1) as [x2 [E2 [[G2 N2] B2]]]. rewrite E2, F in H. clear E2.
  exact (kepler_loop_F lm e m n HT Ge Gm He Hm m x1 x2 E Gm G1 G2 B0 B1 B2 N1 N2 H).
Qed.
