(** A satellite below the horizon with a positive elevation. *)
From Coq Require Import Reals Lra Psatz.
From Verif Require Import Base M_Num M_Sat P_Tec S_Sat P_Sat1 P_Sat2 P_Sat3.
Open Scope R_scope.

Lemma equator fuel x y : (1 <= fuel)%nat -> 0 < x ^ 2 + y ^ 2 -> xyz2lbh Rops fuel x y 0 = Ok (lon_of x y, 0, sqrt (x ^ 2 + y ^ 2) - semi_a).
Proof.
  intros Hf H. destruct fuel as [|n]; [lia|]. rewrite xyz2lbh_R. cbn zeta. pose proof (sqrt_lt_R0 _ H) as Q. set (q := sqrt _) in *. destruct (Req_EM_T q 0); [lra|].
  replace (0 / q * 1 / (1 - E2)) with 0 by (unfold Rdiv; ring). rewrite lat_loop_R. assert (E : lat_next 0 q 0 = 0).
  { unfold lat_next. rewrite sin_0. replace (0 + _ * 0) with 0 by ring. unfold Ratan2. destruct (Rlt_dec 0 q); [|lra]. replace (0 / q) with 0 by (unfold Rdiv; ring). apply atan_0. }
  rewrite E. destruct (Rle_dec _ _) as [_|L]; [|exfalso; apply L; rewrite Rminus_0_r, Rabs_R0; lra]. rewrite cos_0, sin_0. f_equal. f_equal. unfold rad. replace (1 - E2 * 0 ^ 2) with 1 by ring. rewrite sqrt_1. field.
Qed.
Definition low_sat : point := (-2500000, 26000000, 0).
Lemma low_elevation fuel : (1 <= fuel)%nat -> exists el az, compute_el_az Rops fuel (6378137, 0, 0) low_sat = Ok (el, az) /\ 0 < el < 90.
Proof.
  intros Hf. pose proof (equator fuel 6378137 0 Hf ltac:(lra)) as H0. pose proof (equator fuel (-2500000) 26000000 Hf ltac:(lra)) as Hs.
  unfold low_sat. rewrite (el_az_R _ _ _ _ _ _ _ _ _ _ _ _ _ H0 Hs). cbn zeta. unfold cosc. rewrite sin_0, cos_0.
  assert (L0 : lon_of 6378137 0 = 0). { unfold lon_of, Ratan2. destruct (Req_EM_T _ 0); [lra|]. destruct (Rlt_dec 0 6378137); [|lra]. unfold Rdiv. rewrite Rmult_0_l. apply atan_0. }
  rewrite L0. assert (L1 : lon_of (-2500000) 26000000 = Ratan2 26000000 (-2500000)). { unfold lon_of. destruct (Req_EM_T _ 0); [lra|reflexivity]. } rewrite L1.
  unfold norm2. destruct (atan2_polar 26000000 (-2500000)) as [P _]. replace (-2500000 * -2500000 + 26000000 * 26000000) with ((-2500000) ^ 2 + 26000000 ^ 2 + 0 ^ 2) in P by ring.
  clear H0 Hs. set (rk := sqrt ((-2500000) ^ 2 + 26000000 ^ 2 + 0 ^ 2)) in *. replace (0 * 0 + 1 * 1 * cos (Ratan2 26000000 (-2500000) - 0)) with (cos (Ratan2 26000000 (-2500000))) by (rewrite Rminus_0_r; ring). set (c := cos _) in *.
  assert (R0 : 0 <= rk) by apply sqrt_pos. assert (R2 : rk ^ 2 = 682250000000000) by (unfold rk; rewrite pow2_sqrt; lra).
  assert (R1 : 26000000 <= rk <= 27000000) by (clear - R0 R2; clearbody rk; split; apply Rnot_lt_le; intros X; [assert (rk * rk <= 26000000 * 26000000 - 1 * (26000000 - rk)) by nra; nra|nra]).
  assert (C1 : -0.1 <= c < -0.09) by nra. assert (S1 : 0 < sqrt (1 - c ^ 2)) by (apply sqrt_lt_R0; nra). set (s := sqrt (1 - c ^ 2)) in *.
  destruct (Req_EM_T c 0); [lra|]. destruct (Req_EM_T rk 0); [lra|]. destruct (Req_EM_T s 0); [lra|]. eexists _, _. split; [reflexivity|].
  assert (T : 0 < tan_el c s rk).
  { unfold tan_el. destruct (Rlt_dec 0 c); [lra|]. rewrite Rabs_left by lra. replace ((- c - mean_radius / rk) / (s * -1)) with ((c + mean_radius / rk) * / s) by (field; lra).
    apply Rmult_lt_0_compat; [|apply Rinv_0_lt_compat; exact S1]. assert (0.2 <= mean_radius / rk); [|lra]. unfold mean_radius. apply (Rmult_le_reg_r rk); [lra|]. unfold Rdiv. rewrite Rmult_assoc, Rinv_l; lra. }
  pose proof (atan_increasing _ _ T) as A. rewrite atan_0 in A. destruct (atan_bound (tan_el c s rk)) as [_ B]. unfold degrees. pose proof PI_RGT_0. assert (K : 0 < 180 / PI) by (apply Rdiv_lt_0_compat; lra). assert (E1 : 180 / PI * PI = 180) by (field; lra). split; nra.
Qed.
(** its site is at longitude, latitude and height zero, and it is below the site's tangent plane *)
Lemma low_site : geodetic (6378137, 0, 0) 0 0 0.
Proof.
  unfold geodetic, close, cartesian. rewrite cos_0, sin_0. replace (vertical_radius 0) with 6378137.
  - replace (6378137 - (6378137 + 0) * 1 * 1) with 0 by ring. replace (0 - (6378137 + 0) * 1 * 0) with 0 by ring. replace (0 - (6378137 * (1 - wgs_e2) + 0) * 0) with 0 by ring. rewrite Rabs_R0. pose proof PI_RGT_0. repeat split; lra.
  - unfold vertical_radius, wgs_a. rewrite sin_0. replace (1 - wgs_e2 * 0 ^ 2) with 1 by ring. rewrite sqrt_1. field.
Qed.
Lemma low_below : dot (sub low_sat (6378137, 0, 0)) (up 0 0) = -8878137.
Proof. unfold low_sat, sub, dot, up. rewrite cos_0, sin_0. ring. Qed.
Lemma el_az_total fuel obs sat : (11 <= fuel)%nat -> off_axis obs -> far_out obs -> off_axis sat -> far_out sat ->
  (exists el az, compute_el_az Rops fuel obs sat = Ok (el, az)) \/ compute_el_az Rops fuel obs sat = Err ZeroDivisionError.
Proof.
  destruct obs as [[x0 y0] z0]. destruct sat as [[xs ys] zs]. intros Hf Ao Fo As Fs. unfold off_axis, far_out, norm2 in *. replace (1000000 ^ 2) with 1000000000000 in * by ring.
  destruct (xyz2lbh_ends fuel x0 y0 z0 Hf Ao Fo) as (l0 & b0 & h0 & E0). destruct (xyz2lbh_ends fuel xs ys zs Hf As Fs) as (ls & bs & hs & Es). rewrite (el_az_R _ _ _ _ _ _ _ _ _ _ _ _ _ E0 Es). cbn zeta.
  destruct (Req_EM_T _ 0); [auto|]. destruct (Req_EM_T _ 0); [auto|]. destruct (Req_EM_T _ 0); [auto|]. left. eauto.
Qed.
