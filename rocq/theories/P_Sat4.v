(** The GPS orbit over the real numbers. *)
From Coq Require Import Reals Lra Psatz.
From Coquelicot Require Import Coquelicot.
From Verif Require Import Base M_Num M_Sat P_Tec S_Sat P_Sat1 P_Sat2 P_Sat3.
Open Scope R_scope.

Lemma mu_R : datum_mu Rops = pz_mu.
Proof. unfold datum_mu, pz_mu. cbn [o_lit Rops]. unfold Rlit. change (0 <=? 7)%Z with true. cbv iota. change (10 ^ 7)%Z with 10000000%Z. lra. Qed.
Lemma omega_R : datum_omega Rops = omega_earth.
Proof. unfold datum_omega, omega_earth. cbn [o_lit Rops]. unfold Rlit. change (0 <=? -15)%Z with false. cbv iota. change (10 ^ (- -15))%Z with 1000000000000000%Z. lra. Qed.
Lemma time_from_R t toe : half_week (t - toe) (time_from Rops t toe).
Proof.
  unfold half_week, time_from. cbn [o_sub o_ltb o_add Rops]. rewrite !Rint. unfold Rltb. destruct (Rlt_dec 302400 (t - toe)); [split; [auto|lra]|]. destruct (Rlt_dec (t - toe) (-302400)); (split; [auto|lra]).
Qed.

(** ** Newton's iteration *)
Definition newton (e m x : R) : R := x - (x - e * sin x - m) / (1 - e * cos x).
Lemma abs_cos_diff a b : Rabs (cos a - cos b) <= Rabs (a - b).
Proof. rewrite <- !sin_shift. eapply Rle_trans; [apply abs_sin_diff|]. replace (PI / 2 - a - (PI / 2 - b)) with (- (a - b)) by ring. rewrite Rabs_Ropp. lra. Qed.
Lemma sin_second x d : Rabs (sin (x + d) - sin x - d * cos x) <= d ^ 2.
Proof.
  destruct (MVT_gen sin x (x + d) cos) as [c [Hc E]].
  - intros y _. apply is_derive_Reals, derivable_pt_lim_sin.
  - intros y _. apply continuity_pt_filterlim. apply continuity_pt_filterlim, continuity_sin.
  - rewrite E. replace (cos c * (x + d - x) - d * cos x) with (d * (cos c - cos x)) by ring. rewrite Rabs_mult. pose proof (abs_cos_diff c x) as C. pose proof (Rabs_pos d).
    assert (B : Rabs (c - x) <= Rabs d). { unfold Rmin, Rmax in Hc. destruct (Rle_dec x (x + d)); [rewrite (Rabs_right d) by lra|rewrite (Rabs_left d) by lra]; apply Rabs_le; lra. }
    assert (D : d ^ 2 = Rabs d * Rabs d) by (rewrite <- Rabs_mult, Rabs_right; nra). rewrite D. apply Rmult_le_compat_l; lra.
Qed.
Lemma one_e_cos e x : 0 <= e < 1 -> 0 < 1 - e <= 1 - e * cos x.
Proof. intros H. pose proof (COS_bound x). nra. Qed.
(** the residual after a step of size d *)
Lemma newton_residual e m x : 0 <= e < 1 -> let x' := newton e m x in Rabs (x' - e * sin x' - m) <= e * (x' - x) ^ 2.
Proof.
  intros He x'. pose proof (one_e_cos e x He) as P. set (d := x' - x). assert (Ex : x' = x + d) by (unfold d; ring).
  assert (F : x - e * sin x - m = - (1 - e * cos x) * d). { unfold d, x', newton. field. lra. }
  rewrite Ex. replace (x + d - e * sin (x + d) - m) with ((x - e * sin x - m) + (1 - e * cos x) * d - e * (sin (x + d) - sin x - d * cos x)) by ring.
  rewrite F. replace (- (1 - e * cos x) * d + (1 - e * cos x) * d - e * (sin (x + d) - sin x - d * cos x)) with (- (e * (sin (x + d) - sin x - d * cos x))) by ring.
  rewrite Rabs_Ropp, Rabs_mult, (Rabs_right e) by lra. apply Rmult_le_compat_l; [lra|]. apply sin_second.
Qed.
Lemma newton_step e m x : 0 <= e < 1 / 2 -> let x' := newton e m x in Rabs (x' - x) <= 1 -> x' <> x -> Rabs (newton e m x' - x') < Rabs (x' - x).
Proof.
  intros He x' Hd N. pose proof (newton_residual e m x ltac:(lra)) as Q. cbn zeta in Q. fold x' in Q. pose proof (one_e_cos e x' ltac:(lra)) as P. unfold newton at 1.
  replace (x' - (x' - e * sin x' - m) / (1 - e * cos x') - x') with (- ((x' - e * sin x' - m) / (1 - e * cos x'))) by ring. rewrite Rabs_Ropp. unfold Rdiv. rewrite Rabs_mult, Rabs_inv, (Rabs_right (1 - _)) by lra.
  set (d := Rabs (x' - x)) in *. assert (D : (x' - x) ^ 2 = d * d) by (unfold d; rewrite <- Rabs_mult, Rabs_right; nra). rewrite D in Q. assert (D0 : 0 < d) by (apply Rabs_pos_lt; lra).
  apply (Rmult_lt_reg_r (1 - e * cos x')); [lra|]. rewrite Rmult_assoc, Rinv_l, Rmult_1_r by lra. eapply Rle_lt_trans; [exact Q|].
  apply Rlt_le_trans with (d * (1 - e)); [|apply Rmult_le_compat_l; lra]. assert (d * d <= d) by nra. assert (e * (d * d) <= e * d) by (apply Rmult_le_compat_l; lra). assert (0 < d * (1 - 2 * e)) by (apply Rmult_lt_0_compat; lra). lra.
Qed.
Lemma kepler_loop_R n e m x x1 p c : 0 <= e < 1 -> kepler_loop Rops n e m x x1 p c =
  if Req_EM_T p c then Ok x else match n with O => Err OutOfFuel | S n => kepler_loop Rops n e m (newton e m x) x (Rabs (x - x1)) (Rabs (newton e m x - x)) end.
Proof.
  intros He. destruct n as [|n]; cbn [kepler_loop]; cbn [o_eqb Rops]; unfold Reqb; destruct (Req_EM_T p c); try reflexivity.
  cbn [o_sin o_cos Rops bind o_sub o_mul o_abs]. rewrite Rint. rewrite div_R by (pose proof (one_e_cos e x He); lra). reflexivity.
Qed.
Lemma kepler_loop_inv n e m : 0 <= e < 1 / 2 -> forall x0 E, let x1 := newton e m x0 in let x := newton e m x1 in Rabs (x1 - x0) <= 1 ->
  kepler_loop Rops n e m x x1 (Rabs (x1 - x0)) (Rabs (x - x1)) = Ok E -> kepler e m E.
Proof.
  intros He. induction n as [|n IH]; intros x0 E x1 x Hd H; rewrite kepler_loop_R in H by lra; destruct (Req_EM_T _ _) as [K|K]; try discriminate H.
  1,2: injection H as <-; destruct (Req_dec x1 x0) as [Q|Q]; [|exfalso; pose proof (newton_step e m x0 He Hd Q) as X; fold x1 in X; fold x in X; lra].
  1,2: assert (D0 : x1 - x0 = 0) by lra; rewrite D0, Rabs_R0 in K; symmetry in K; assert (Z : x - x1 = 0) by (destruct (Req_dec (x - x1) 0) as [|N]; [assumption|apply Rabs_no_R0 in N; contradiction]).
  1,2: pose proof (newton_residual e m x1 ltac:(lra)) as R1; cbn zeta in R1; fold x in R1; rewrite Z in R1; replace (e * 0 ^ 2) with 0 in R1 by ring.
  1,2: assert (Z2 : x - e * sin x - m = 0) by (destruct (Req_dec (x - e * sin x - m) 0) as [|N]; [assumption|apply Rabs_pos_lt in N; lra]); unfold kepler; lra.
  apply (IH x1 E) in H; [exact H|]. fold x. destruct (Req_dec x1 x0) as [Q|Q].
  - unfold x. rewrite Q. fold x1. rewrite Q, Rminus_eq_0, Rabs_R0. lra.
  - pose proof (newton_step e m x0 He Hd Q) as X. fold x1 in X. fold x in X. lra.
Qed.
Lemma first_step e m : 0 <= e < 1 / 2 -> Rabs (newton e m m - m) < 1.
Proof.
  intros He. pose proof (one_e_cos e m ltac:(lra)) as P. unfold newton. replace (m - (m - e * sin m - m) / (1 - e * cos m) - m) with (e * sin m / (1 - e * cos m)) by (field; lra).
  unfold Rdiv. rewrite Rabs_mult, Rabs_inv, (Rabs_right (1 - _)) by lra. apply (Rmult_lt_reg_r (1 - e * cos m)); [lra|]. rewrite Rmult_assoc, Rinv_l by lra. rewrite Rabs_mult, (Rabs_right e) by lra.
  pose proof (SIN_bound m). assert (Rabs (sin m) <= 1) by (apply Rabs_le; lra). nra.
Qed.
Lemma kepler_solved n e m E : 0 <= e < 1 / 2 -> kepler_loop Rops n e m m (m + 1) 0 1 = Ok E -> kepler e m E.
Proof.
  intros He H. rewrite kepler_loop_R in H by lra. destruct (Req_EM_T 0 1); [lra|]. destruct n as [|n]; [discriminate|]. pose proof (first_step e m He) as F.
  replace (m - (m + 1)) with (-1) in H by ring. rewrite (Rabs_left (-1)) in H by lra. rewrite kepler_loop_R in H by lra. destruct (Req_EM_T _ _) as [K|K]; [lra|].
  destruct n as [|n]; [discriminate|]. apply (kepler_loop_inv n e m He m E) in H; [exact H|lra].
Qed.
Lemma kepler_circular n m : (2 <= n)%nat -> kepler_loop Rops n 0 m m (m + 1) 0 1 = Ok m.
Proof.
  intros Hn. destruct n as [|[|n]]; [lia|lia|]. assert (N : newton 0 m m = m) by (unfold newton; field).
  rewrite kepler_loop_R by lra. destruct (Req_EM_T 0 1); [lra|]. rewrite N. replace (m - (m + 1)) with (-1) by ring. rewrite Rminus_eq_0, (Rabs_left (-1)), Rabs_R0 by lra.
  rewrite kepler_loop_R by lra. destruct (Req_EM_T _ _); [lra|]. rewrite N, Rminus_eq_0, Rabs_R0. rewrite kepler_loop_R by lra. destruct (Req_EM_T 0 0); [reflexivity|congruence].
Qed.

(** ** the position *)
Lemma true_anomaly_atan2 e E : 0 <= e < 1 -> true_anomaly e E (Ratan2 (sqrt (1 - e ^ 2) * sin E / (1 - e * cos E)) ((cos E - e) / (1 - e * cos E))).
Proof.
  intros He. pose proof (one_e_cos e E He) as P. set (fs := sqrt _ * _ / _). set (fc := (_ - _) / _). destruct (atan2_polar fs fc) as [A B]. cbn zeta in *.
  assert (S2 : sqrt (1 - e ^ 2) * sqrt (1 - e ^ 2) = 1 - e ^ 2) by (apply sqrt_sqrt; nra). pose proof (sin2_cos2 E) as SC. unfold Rsqr in SC.
  assert (U : fc * fc + fs * fs = 1).
  { unfold fc, fs. replace ((cos E - e) / (1 - e * cos E) * ((cos E - e) / (1 - e * cos E)) + sqrt (1 - e ^ 2) * sin E / (1 - e * cos E) * (sqrt (1 - e ^ 2) * sin E / (1 - e * cos E)))
      with (((cos E - e) ^ 2 + (sqrt (1 - e ^ 2) * sqrt (1 - e ^ 2)) * (sin E * sin E)) / (1 - e * cos E) ^ 2) by (field; lra).
    rewrite S2. replace (sin E * sin E) with (1 - cos E * cos E) by lra. field. lra. }
  rewrite U, sqrt_1 in A, B. split; [fold fc; lra|fold fs; lra].
Qed.
Lemma pow_R x n : o_pow Rops x n = Ok (x ^ n). Proof. reflexivity. Qed.
Lemma cos_R x : o_cos Rops x = Ok (cos x). Proof. reflexivity. Qed.
Lemma anomaly_R e E : 0 <= e < 1 -> gps_anomaly Rops e E = Ok (Ratan2 (sqrt (1 - e ^ 2) * sin E / (1 - e * cos E)) ((cos E - e) / (1 - e * cos E))).
Proof.
  intros He. pose proof (one_e_cos e E He) as P. unfold gps_anomaly. cbn [o_pow Rops bind o_sub]. rewrite Rint. rewrite sqrt_R by nra. cbn [bind o_sin o_cos Rops o_mul o_sub]. rewrite !div_R by lra. reflexivity.
Qed.
Lemma corrected_R v cc cs u : corrected Rops v cc cs u = Ok (v + (cs * sin (2 * u) + cc * cos (2 * u))).
Proof. unfold corrected. cbn [o_cos o_sin Rops bind o_mul o_add]. rewrite Rint. apply f_equal. ring. Qed.
Lemma corrected_sum_R v cc cs u : corrected_sum Rops v cc cs u = Ok (v + (cs * sin (2 * u) + cc * cos (2 * u))).
Proof. unfold corrected_sum. cbn [o_cos o_sin Rops bind o_mul o_add]. rewrite Rint. apply f_equal. ring. Qed.
Lemma place_R r u i om : gps_place Rops r u i om = Ok (in_plane u r i om).
Proof. unfold gps_place, in_plane. cbn [o_cos o_sin Rops bind o_mul o_add o_sub]. apply f_equal. apply (f_equal2 pair); [apply (f_equal2 pair)|]; ring. Qed.
Lemma mean_R m0 dn sa tk : sa <> 0 -> gps_mean Rops m0 dn (sa ^ 2) tk = Ok (m0 + (sqrt (pz_mu / (sa ^ 2) ^ 3) + dn) * tk).
Proof.
  intros Ha. unfold gps_mean. rewrite mu_R. assert (A2 : 0 < sa ^ 2) by nra. assert (A3 : 0 < (sa ^ 2) ^ 3) by (apply pow_lt; exact A2). rewrite pow_R. cbn [bind]. assert (0 < pz_mu) by (unfold pz_mu; lra).
  rewrite div_R by lra. cbn [bind]. rewrite sqrt_R by (apply Rlt_le, Rdiv_lt_0_compat; assumption). reflexivity.
Qed.
Lemma bind_Ok {A B} (a : A) (f : A -> res B) : bind (Ok a) f = f a.
Proof. reflexivity. Qed.
Lemma gps_unfold {T} (o : ops T) fuel iode crs dn m0 cuc e0 cus sa toe cic omega_0 cis i0 crc w0 omega_dot i_dot rest sec :
  gps_xyz o fuel (iode :: crs :: dn :: m0 :: cuc :: e0 :: cus :: sa :: toe :: cic :: omega_0 :: cis :: i0 :: crc :: w0 :: omega_dot :: i_dot :: rest) sec =
  bind (o_pow o sa 2) (fun a0 =>
  bind (gps_mean o m0 dn a0 (time_from o sec toe)) (fun mk =>
  bind (kepler_loop o fuel e0 mk mk (o_add o mk (o_int o 1)) (o_int o 0) (o_int o 1)) (fun ek =>
  bind (gps_anomaly o e0 ek) (fun tettak =>
  bind (corrected o (o_add o tettak w0) cuc cus (o_add o tettak w0)) (fun uk =>
  bind (o_cos o ek) (fun cek =>
  bind (corrected o (o_mul o a0 (o_add o (o_int o 1) (o_mul o e0 cek))) crc crs (o_add o tettak w0)) (fun rk =>
  bind (corrected_sum o i0 cic cis (o_add o tettak w0)) (fun ik =>
  gps_place o rk uk (o_add o ik (o_mul o i_dot (time_from o sec toe)))
    (o_sub o (o_add o omega_0 (o_mul o (o_sub o omega_dot (datum_omega o)) (time_from o sec toe))) (o_mul o (datum_omega o) toe)))))))))).
Proof. reflexivity. Qed.
Lemma gps_R fuel eph el t : broadcast eph el -> 0 <= el_e el < 1 -> el_sqrt_a el <> 0 -> gps_xyz Rops fuel eph t =
  let tk := time_from Rops t (el_toe el) in let e := el_e el in
  match kepler_loop Rops fuel e (mean_anomaly pz_mu el tk) (mean_anomaly pz_mu el tk) (mean_anomaly pz_mu el tk + 1) 0 1 with
  | Ok E => Ok (orbit_position el (Ratan2 (sqrt (1 - e ^ 2) * sin E / (1 - e * cos E)) ((cos E - e) / (1 - e * cos E))) (el_sqrt_a el ^ 2 * (1 + e * cos E)) tk)
  | Err x => Err x
  end.
Proof.
  intros [iode [rest ->]] He Ha. rewrite gps_unfold, pow_R, bind_Ok. cbv zeta. rewrite omega_R. rewrite mean_R by exact Ha. rewrite bind_Ok, !Rint.
  unfold mean_anomaly. generalize (time_from Rops t (el_toe el)). intros tk. change (o_add Rops) with Rplus. change (o_sub Rops) with Rminus. change (o_mul Rops) with Rmult. set (mk := el_m0 el + _). generalize mk. clear mk. intros mk.
  destruct (kepler_loop _ _ _ _ _ _ _ _) as [E|x]; [|reflexivity]. rewrite bind_Ok, anomaly_R, bind_Ok by exact He. set (v := Ratan2 _ _). generalize v. clear v. intros v.
  rewrite corrected_R, bind_Ok, cos_R, bind_Ok, corrected_R, bind_Ok, corrected_sum_R, bind_Ok, place_R.
  unfold orbit_position, latitude_argument, radius, inclination, node. cbv zeta. reflexivity.
Qed.
Lemma gps_orbit fuel eph el t p : broadcast eph el -> 0 <= el_e el < 1 / 2 -> el_sqrt_a el <> 0 -> gps_xyz Rops fuel eph t = Ok p ->
  exists tk E v, half_week (t - el_toe el) tk /\ kepler (el_e el) (mean_anomaly pz_mu el tk) E /\ true_anomaly (el_e el) E v /\
    p = orbit_position el v (el_sqrt_a el ^ 2 * (1 + el_e el * cos E)) tk.
Proof.
  intros Hb He Ha H. rewrite (gps_R fuel eph el t Hb ltac:(lra) Ha) in H. cbn zeta in H. set (tk := time_from Rops t (el_toe el)) in *.
  destruct (kepler_loop _ _ _ _ _ _ _ _) as [E|] eqn:K; [|discriminate]. apply kepler_solved in K; [|exact He]. injection H as <-. exists tk, E, (Ratan2 (sqrt (1 - el_e el ^ 2) * sin E / (1 - el_e el * cos E)) ((cos E - el_e el) / (1 - el_e el * cos E))).
  split; [apply time_from_R|]. split; [exact K|]. split; [apply true_anomaly_atan2; lra|reflexivity].
Qed.
Lemma gps_circular fuel eph el t : (2 <= fuel)%nat -> broadcast eph el -> el_e el = 0 -> el_sqrt_a el <> 0 ->
  exists p, gps_xyz Rops fuel eph t = Ok p /\ is_gps_200 pz_mu el t p.
Proof.
  intros Hf Hb He Ha. pose proof (gps_R fuel eph el t Hb ltac:(rewrite He; lra) Ha) as H. cbn zeta in H. set (tk := time_from Rops t (el_toe el)) in *. rewrite He in H at 1. rewrite kepler_circular in H by exact Hf.
  set (E := mean_anomaly pz_mu el tk) in *. eexists. split; [exact H|]. exists tk, E. eexists. split; [apply time_from_R|]. split; [unfold kepler; fold E; rewrite He; ring|].
  split; [apply true_anomaly_atan2; rewrite He; lra|]. f_equal. unfold ellipse_radius. rewrite He. ring.
Qed.
(** the plane *)
Lemma in_plane_norm u r i om : norm2 (in_plane u r i om) = r ^ 2.
Proof.
  unfold norm2, in_plane. cbn zeta. pose proof (sin2_cos2 u) as U. pose proof (sin2_cos2 i) as I. pose proof (sin2_cos2 om) as O. unfold Rsqr in *.
  replace ((r * cos u * cos om - r * sin u * cos i * sin om) ^ 2 + (r * cos u * sin om + r * sin u * cos i * cos om) ^ 2 + (r * sin u * sin i) ^ 2)
    with (r ^ 2 * ((sin om * sin om + cos om * cos om) * (cos u * cos u + sin u * sin u * (cos i * cos i)) + sin u * sin u * (sin i * sin i))) by ring.
  rewrite O. replace (1 * (cos u * cos u + sin u * sin u * (cos i * cos i)) + sin u * sin u * (sin i * sin i)) with (cos u * cos u + sin u * sin u * (sin i * sin i + cos i * cos i)) by ring. rewrite I.
  replace (cos u * cos u + sin u * sin u * 1) with (sin u * sin u + cos u * cos u) by ring. rewrite U. ring.
Qed.

(** ** the radius is wrong: at the perigee *)
Definition perigee (sa e : R) : elements := mkElements 0 0 0 0 e 0 sa 0 0 0 0 0 0 0 0 0.
Definition perigee_eph (sa e : R) : list R := [0; 0; 0; 0; 0; e; 0; sa; 0; 0; 0; 0; 0; 0; 0; 0; 0].
Lemma perigee_broadcast sa e : broadcast (perigee_eph sa e) (perigee sa e).
Proof. exists 0, []. reflexivity. Qed.
Lemma kepler_zero n e : (2 <= n)%nat -> 0 <= e < 1 -> kepler_loop Rops n e 0 0 (0 + 1) 0 1 = Ok 0.
Proof.
  intros Hn He. destruct n as [|[|n]]; [lia|lia|]. assert (N : newton e 0 0 = 0) by (unfold newton; rewrite sin_0; field; rewrite cos_0; lra).
  rewrite kepler_loop_R by exact He. destruct (Req_EM_T 0 1); [lra|]. rewrite N. replace (0 - (0 + 1)) with (-1) by ring. rewrite Rminus_eq_0, (Rabs_left (-1)), Rabs_R0 by lra.
  rewrite kepler_loop_R by lra. destruct (Req_EM_T _ _); [lra|]. rewrite N, Rminus_eq_0, Rabs_R0. rewrite kepler_loop_R by lra. destruct (Req_EM_T 0 0); [reflexivity|congruence].
Qed.
Lemma kepler_zero_unique e E : 0 <= e < 1 -> kepler e 0 E -> E = 0.
Proof.
  intros He H. unfold kepler in H. assert (A : E = e * sin E) by lra. pose proof (abs_sin_diff E 0) as D. rewrite sin_0, !Rminus_0_r in D. 
  assert (Rabs E = e * Rabs (sin E)) by (rewrite A at 1; rewrite Rabs_mult, (Rabs_right e) by lra; reflexivity). pose proof (Rabs_pos E). pose proof (Rabs_pos (sin E)).
  destruct (Req_dec E 0) as [|N]; [assumption|]. apply Rabs_pos_lt in N. nra.
Qed.
Lemma perigee_tk tk : half_week (0 - 0) tk -> mean_anomaly pz_mu (perigee 5153 0.01) tk = 0 -> tk = 0.
Proof. intros [[H|[H|H]] B] _; lra. Qed.
Lemma radius_wrong fuel : (2 <= fuel)%nat -> exists p, gps_xyz Rops fuel (perigee_eph 5153 0.01) 0 = Ok p /\ norm2 p = (5153 ^ 2 * 1.01) ^ 2 /\
  forall mu q, is_gps_200 mu (perigee 5153 0.01) 0 q -> norm2 q = (5153 ^ 2 * 0.99) ^ 2.
Proof.
  intros Hf. pose proof (gps_R fuel _ _ 0 (perigee_broadcast 5153 0.01) ltac:(cbn; lra) ltac:(cbn; lra)) as H. cbn zeta in H.
  assert (T : time_from Rops 0 (el_toe (perigee 5153 0.01)) = 0).
  { unfold time_from. cbn [o_sub o_ltb o_add Rops el_toe perigee]. rewrite !Rint. unfold Rltb. destruct (Rlt_dec 302400 (0 - 0)); [lra|]. destruct (Rlt_dec (0 - 0) (-302400)); lra. }
  rewrite T in H. assert (M : forall mu, mean_anomaly mu (perigee 5153 0.01) 0 = 0) by (intros; unfold mean_anomaly; cbn [el_m0 perigee]; ring). rewrite M in H.
  rewrite kepler_zero in H by (try exact Hf; cbn [el_e perigee]; lra). eexists. split; [exact H|]. split.
  - unfold orbit_position. rewrite in_plane_norm. unfold radius. cbn [el_crs el_crc el_e el_w el_sqrt_a perigee]. rewrite cos_0, !Rmult_0_l. lra.
  - intros mu q (tk & E & v & Ht & Hk & _ & ->). cbn [el_toe perigee] in Ht. assert (tk = 0) by (destruct Ht as [[K|[K|K]] B]; lra). subst tk. rewrite M in Hk. apply kepler_zero_unique in Hk; [|cbn; lra]. subst E.
    unfold orbit_position. rewrite in_plane_norm. unfold radius, ellipse_radius. cbn [el_crs el_crc el_e el_w el_sqrt_a perigee]. rewrite cos_0, !Rmult_0_l. lra.
Qed.
