(** Elevation and azimuth over the real numbers. *)
From Coq Require Import Reals Lra Psatz.
From Verif Require Import Base M_Num M_Sat P_Tec S_Sat P_Sat1 P_Sat2.
Open Scope R_scope.

Lemma wgs_E2 : wgs_e2 = E2.
Proof. unfold wgs_e2, E2, wgs_a, wgs_b, semi_a, semi_b. field. Qed.
Lemma vertical_rad b : vertical_radius b = rad (sin b).
Proof. unfold vertical_radius, rad. rewrite wgs_E2. reflexivity. Qed.
Lemma geodetic_ok fuel x y z l b h : xyz2lbh Rops fuel x y z = Ok (l, b, h) -> geodetic (x, y, z) l b h.
Proof.
  intros H. split; [|exact (xyz2lbh_lat _ _ _ _ _ _ _ H)]. apply lbh_equations in H. cbn zeta in H. unfold close, cartesian. rewrite vertical_rad, wgs_E2. exact H.
Qed.

(** ** degrees *)
Lemma radians_degrees t : radians (degrees t) = t.
Proof. unfold radians, degrees. field. pose proof PI_RGT_0. lra. Qed.
Lemma radians_360 d : radians (d + 360) = radians d + 2 * PI.
Proof. unfold radians. field. Qed.
Definition to_360 (d : R) : R := if Rlt_dec d 0 then d + 360 else d.
Lemma to_360_range t : - PI < t < 2 * PI -> 0 <= to_360 (degrees t) < 360.
Proof.
  intros H. pose proof PI_RGT_0 as P. assert (K : 0 < 180 / PI) by (apply Rdiv_lt_0_compat; lra). unfold to_360, degrees.
  assert (E : 180 / PI * PI = 180) by (field; lra). destruct (Rlt_dec (t * (180 / PI)) 0); nra.
Qed.
Lemma to_360_sin d : sin (radians (to_360 d)) = sin (radians d).
Proof. unfold to_360. destruct (Rlt_dec d 0); [|reflexivity]. rewrite radians_360. pose proof (sin_period (radians d) 1) as X. cbn [INR] in X. rewrite Rmult_1_r in X. exact X. Qed.
Lemma to_360_cos d : cos (radians (to_360 d)) = cos (radians d).
Proof. unfold to_360. destruct (Rlt_dec d 0); [|reflexivity]. rewrite radians_360. pose proof (cos_period (radians d) 1) as X. cbn [INR] in X. rewrite Rmult_1_r in X. exact X. Qed.

(** ** the central angle *)
Definition cosc (l0 b0 ls bs : R) : R := sin b0 * sin bs + cos b0 * cos bs * cos (ls - l0).
Lemma cosc_dot l0 b0 ls bs : cosc l0 b0 ls bs = dot (up l0 b0) (up ls bs).
Proof. unfold cosc, dot, up. rewrite cos_minus. ring. Qed.
Lemma unit_up l b : dot (up l b) (up l b) = 1.
Proof.
  unfold dot, up. pose proof (sin2_cos2 l) as L. pose proof (sin2_cos2 b) as B. unfold Rsqr in *.
  replace (cos b * cos l * (cos b * cos l) + cos b * sin l * (cos b * sin l) + sin b * sin b) with (cos b * cos b * (sin l * sin l + cos l * cos l) + sin b * sin b) by ring. rewrite L. lra.
Qed.
Lemma dot_bound u v : dot u u = 1 -> dot v v = 1 -> dot u v ^ 2 <= 1.
Proof.
  destruct u as [[a b] c]. destruct v as [[d e] f]. cbn [dot]. intros U V.
  assert (X : (a * a + b * b + c * c) * (d * d + e * e + f * f) - (a * d + b * e + c * f) ^ 2 = (a * e - b * d) ^ 2 + (a * f - c * d) ^ 2 + (b * f - c * e) ^ 2) by ring.
  rewrite U, V in X. pose proof (pow2_ge_0 (a * e - b * d)). pose proof (pow2_ge_0 (a * f - c * d)). pose proof (pow2_ge_0 (b * f - c * e)). lra.
Qed.
Lemma cosc_bound l0 b0 ls bs : cosc l0 b0 ls bs ^ 2 <= 1.
Proof. rewrite cosc_dot. apply dot_bound; apply unit_up. Qed.
(** atan(s/c) of a unit vector *)
Lemma atan_ratio c s : c <> 0 -> c ^ 2 + s ^ 2 = 1 -> cos (atan (s / c)) = Rabs c /\ sin (atan (s / c)) = s * (if Rlt_dec 0 c then 1 else -1).
Proof.
  intros Hc H. pose proof (cos_atan2 (s / c)) as C. pose proof (sin_cos_atan (s / c)) as S. pose proof (sin2_cos2 (atan (s / c))) as P. unfold Rsqr in P.
  set (k := cos (atan (s / c))) in *. set (m := sin (atan (s / c))) in *.
  assert (M : m * c = s * k) by (rewrite S; field; exact Hc).
  assert (K : k * k = c * c). { assert (X : (m * c) * (m * c) = (s * k) * (s * k)) by (rewrite M; reflexivity). assert (s * s = 1 - c * c) by nra. assert (m * m = 1 - k * k) by nra. nra. }
  destruct (Rlt_dec 0 c) as [Q|Q].
  - assert (k = c) by nra. rewrite Rabs_right by lra. split; [assumption|]. apply (Rmult_eq_reg_r c); [|exact Hc]. rewrite M. subst k. rewrite H0. ring.
  - assert (k = - c) by nra. rewrite Rabs_left by lra. split; [assumption|]. apply (Rmult_eq_reg_r c); [|exact Hc]. rewrite M, H0. ring.
Qed.

(** ** what compute_el_az returns *)
Definition tan_el (c s rk : R) : R := (Rabs c - mean_radius / rk) / (s * (if Rlt_dec 0 c then 1 else -1)).
Lemma re_R : datum_re Rops = mean_radius.
Proof. unfold datum_re, mean_radius. cbn [o_lit Rops]. unfold Rlit. cbn. lra. Qed.
Lemma el_az_R fuel x0 y0 z0 xs ys zs l0 b0 h0 ls bs hs : xyz2lbh Rops fuel x0 y0 z0 = Ok (l0, b0, h0) -> xyz2lbh Rops fuel xs ys zs = Ok (ls, bs, hs) ->
  compute_el_az Rops fuel (x0, y0, z0) (xs, ys, zs) =
    let d := sub (xs, ys, zs) (x0, y0, z0) in
    let c := cosc l0 b0 ls bs in let s := sqrt (1 - c ^ 2) in let rk := sqrt (norm2 (xs, ys, zs)) in
    if Req_EM_T c 0 then Err ZeroDivisionError else
    if Req_EM_T rk 0 then Err ZeroDivisionError else
    if Req_EM_T s 0 then Err ZeroDivisionError else
    Ok (degrees (atan (tan_el c s rk)), to_360 (degrees (Ratan2 (dot d (east l0 b0)) (dot d (north l0 b0))))).
Proof.
  intros H0 Hs. unfold compute_el_az. rewrite H0, Hs. cbn [bind o_pow Rops o_add]. unfold norm2, sub. cbn zeta.
  rewrite sqrt_R by (pose proof (pow2_ge_0 xs); pose proof (pow2_ge_0 ys); pose proof (pow2_ge_0 zs); lra). cbn [bind o_sin o_cos o_sub o_mul Rops].
  fold (cosc l0 b0 ls bs). pose proof (cosc_bound l0 b0 ls bs) as CB. set (c := cosc l0 b0 ls bs) in *. rewrite !Rint. rewrite sqrt_R by lra. cbn [bind].
  set (s := sqrt (1 - c ^ 2)). assert (CS : c ^ 2 + s ^ 2 = 1) by (unfold s; rewrite pow2_sqrt; lra).
  destruct (Req_EM_T c 0) as [K|K]; [cbn [o_div Rops]; rewrite K; destruct (Req_EM_T 0 0); [reflexivity|congruence]|].
  rewrite (div_R s c) by exact K. cbn [bind o_atan Rops]. destruct (atan_ratio c s K CS) as [Ec Es]. rewrite Ec, Es, re_R.
  set (rk := sqrt _). destruct (Req_EM_T rk 0) as [R0|R0]; [cbn [o_div Rops]; rewrite R0; destruct (Req_EM_T 0 0); [reflexivity|congruence]|].
  rewrite (div_R mean_radius rk) by exact R0. cbn [bind].
  destruct (Req_EM_T s 0) as [S0|S0].
  - rewrite S0, Rmult_0_l. cbn [o_div Rops]. destruct (Req_EM_T 0 0); [reflexivity|congruence].
  - rewrite div_R by (destruct (Rlt_dec 0 c); lra). cbn [bind o_pi o_atan2 o_ltb o_add o_neg Rops]. rewrite div_R by (pose proof PI_RGT_0; lra). cbn [bind].
    fold (tan_el c s rk). fold (degrees (atan (tan_el c s rk))). f_equal. f_equal. unfold Rltb, to_360, degrees, dot, east, north.
    replace ((xs - x0) * - sin l0 + (ys - y0) * cos l0 + (zs - z0) * 0) with (- (xs - x0) * sin l0 + (ys - y0) * cos l0) by ring.
    replace ((xs - x0) * (- sin b0 * cos l0) + (ys - y0) * (- sin b0 * sin l0) + (zs - z0) * cos b0) with (- (xs - x0) * cos l0 * sin b0 - (ys - y0) * sin l0 * sin b0 + (zs - z0) * cos b0) by ring.
    destruct (Rlt_dec _ 0); reflexivity.
Qed.
Lemma el_az_inv fuel obs sat r : compute_el_az Rops fuel obs sat = Ok r ->
  exists l0 b0 h0 ls bs hs, (let '(x, y, z) := obs in xyz2lbh Rops fuel x y z = Ok (l0, b0, h0)) /\ (let '(x, y, z) := sat in xyz2lbh Rops fuel x y z = Ok (ls, bs, hs)).
Proof.
  destruct obs as [[x0 y0] z0]. destruct sat as [[xs ys] zs]. unfold compute_el_az. destruct (xyz2lbh Rops fuel x0 y0 z0) as [[[l0 b0] h0]|]; cbn [bind]; [|congruence].
  destruct (xyz2lbh Rops fuel xs ys zs) as [[[ls bs] hs]|]; cbn [bind]; [|congruence]. intros _. exists l0, b0, h0, ls, bs, hs. auto.
Qed.
Lemma geodetic_pt fuel p l b h : (let '(x, y, z) := p in xyz2lbh Rops fuel x y z = Ok (l, b, h)) -> geodetic p l b h.
Proof. destruct p as [[x y] z]. apply geodetic_ok. Qed.

(** azimuth *)
Lemma azimuth_bearing fuel obs sat el az : compute_el_az Rops fuel obs sat = Ok (el, az) ->
  exists l b h, geodetic obs l b h /\ bearing l b (sub sat obs) az /\ 0 <= az < 360.
Proof.
  intros H. destruct (el_az_inv _ _ _ _ H) as (l0 & b0 & h0 & ls & bs & hs & H0 & Hs). exists l0, b0, h0. split; [exact (geodetic_pt _ _ _ _ _ H0)|].
  destruct obs as [[x0 y0] z0]. destruct sat as [[xs ys] zs]. rewrite (el_az_R _ _ _ _ _ _ _ _ _ _ _ _ _ H0 Hs) in H. cbn zeta in H.
  destruct (Req_EM_T _ 0); [discriminate|]. destruct (Req_EM_T _ 0); [discriminate|]. destruct (Req_EM_T _ 0); [discriminate|]. injection H as _ <-.
  split.
  - match goal with |- context [Ratan2 ?a ?b] => destruct (atan2_polar a b) as [P Q]; set (A := a) in *; set (B := b) in * end.
    exists (sqrt (B * B + A * A)). split; [apply sqrt_pos|]. rewrite to_360_sin, to_360_cos, radians_degrees. split; [exact Q|exact P].
  - apply to_360_range. match goal with |- context [Ratan2 ?a ?b] => pose proof (atan2_range a b); set (A := Ratan2 a b) in * end. pose proof PI_RGT_0. lra.
Qed.
(** longitude *)
Lemma lon_range x y : - PI < lon_of x y < 2 * PI.
Proof. pose proof PI_RGT_0. unfold lon_of. destruct (Req_EM_T x 0); [destruct (Rlt_dec 0 y); lra|]. pose proof (atan2_range y x). lra. Qed.
Lemma lbh_deg_R fuel x y z l b h : xyz2lbh Rops fuel x y z = Ok (l, b, h) -> xyz2lbh_deg Rops fuel x y z = Ok (to_360 (degrees l), degrees b, h) /\ l = lon_of x y.
Proof.
  intros H. unfold xyz2lbh_deg. rewrite H. cbn [o_mul o_pi Rops]. rewrite !Rint. pose proof PI_RGT_0. rewrite !div_R by lra. cbn [bind o_ltb o_add Rops]. split.
  - f_equal. f_equal. f_equal; unfold to_360, degrees, Rltb.
    + replace (l * 180 / PI) with (l * (180 / PI)) by (field; lra). destruct (Rlt_dec _ 0); reflexivity.
    + field. lra.
  - revert H. rewrite xyz2lbh_R. cbn zeta. destruct (Req_EM_T _ 0); [discriminate|]. destruct (lat_loop _ _ _ _ _ _) as [[b' n']|]; [|discriminate]. intros E. now injection E.
Qed.
Lemma lbh_deg_ok fuel x y z : (11 <= fuel)%nat -> off_axis (x, y, z) -> far_out (x, y, z) ->
  exists l b h, xyz2lbh_deg Rops fuel x y z = Ok (l, b, h) /\ 0 <= l < 360 /\ -90 < b < 90 /\ geodetic (x, y, z) (radians l) (radians b) h.
Proof.
  intros Hf Ha Hr. unfold off_axis, far_out, norm2 in *. assert (Hr2 : 1000000000000 <= x ^ 2 + y ^ 2 + z ^ 2) by (replace 1000000000000 with (1000000 ^ 2) by lra; exact Hr). destruct (xyz2lbh_ends fuel x y z Hf Ha Hr2) as (l & b & h & E).
  destruct (lbh_deg_R _ _ _ _ _ _ _ E) as [D L]. exists (to_360 (degrees l)), (degrees b), h. split; [exact D|]. split; [rewrite L; apply to_360_range, lon_range|].
  pose proof (geodetic_ok _ _ _ _ _ _ _ E) as [G B]. pose proof PI_RGT_0 as P. assert (K : 0 < 180 / PI) by (apply Rdiv_lt_0_compat; lra). assert (E1 : 180 / PI * PI = 180) by (field; lra).
  split; [unfold degrees; nra|]. unfold geodetic. rewrite radians_degrees. split; [|exact B]. unfold close, cartesian in *. rewrite to_360_sin, to_360_cos, radians_degrees. exact G.
Qed.
Lemma lbh_deg_axis fuel z : xyz2lbh_deg Rops fuel 0 0 z = Ok (0, 0, 0).
Proof. unfold xyz2lbh_deg. rewrite xyz2lbh_axis. cbn [existsb arithmetic exn_eqb orb]. rewrite Rint. reflexivity. Qed.

(** ** elevation *)
Lemma degrees_pos t : 0 <= degrees t <-> 0 <= t.
Proof. pose proof PI_RGT_0. assert (K : 0 < 180 / PI) by (apply Rdiv_lt_0_compat; lra). unfold degrees. split; intros; nra. Qed.
Lemma atan_pos t : 0 <= atan t <-> 0 <= t.
Proof.
  rewrite <- atan_0 at 1. split; intros H.
  - destruct (Rle_dec 0 t) as [L|L]; [exact L|]. assert (t < 0) by lra. apply atan_increasing in H0. lra.
  - destruct (Req_dec t 0) as [->|N]; [lra|]. apply Rlt_le, atan_increasing. lra.
Qed.
Lemma div_pos a b : 0 < b -> (0 <= a / b <-> 0 <= a).
Proof. intros H. assert (0 < / b) by (apply Rinv_0_lt_compat; exact H). unfold Rdiv. split; intros; nra. Qed.
Lemma elevation_sign fuel obs sat el az : compute_el_az Rops fuel obs sat = Ok (el, az) ->
  exists l b h l' b' h', geodetic obs l b h /\ geodetic sat l' b' h' /\ -90 < el < 90 /\
    let rk := sqrt (norm2 sat) in let c := dot (up l b) (up l' b') in
    0 < rk /\ c <> 0 /\ c ^ 2 < 1 /\
    (0 < c -> tan (radians el) = (rk * c - mean_radius) / (rk * sqrt (1 - c ^ 2)) /\ (0 <= el <-> 0 <= above_horizon (up l b) (up l' b') rk)) /\
    (c < 0 -> 0 <= el <-> - mean_radius <= rk * c).
Proof.
  intros H. destruct (el_az_inv _ _ _ _ H) as (l0 & b0 & h0 & ls & bs & hs & H0 & Hs). exists l0, b0, h0, ls, bs, hs.
  split; [exact (geodetic_pt _ _ _ _ _ H0)|]. split; [exact (geodetic_pt _ _ _ _ _ Hs)|].
  destruct obs as [[x0 y0] z0]. destruct sat as [[xs ys] zs]. rewrite (el_az_R _ _ _ _ _ _ _ _ _ _ _ _ _ H0 Hs) in H. cbn zeta in *.
  pose proof (cosc_bound l0 b0 ls bs) as CB. rewrite cosc_dot in *. set (c := dot (up l0 b0) (up ls bs)) in *.
  destruct (Req_EM_T c 0) as [|C0]; [discriminate|]. set (rk := sqrt _) in *. destruct (Req_EM_T rk 0) as [|R0]; [discriminate|]. set (s := sqrt (1 - c ^ 2)) in *. destruct (Req_EM_T s 0) as [|S0]; [discriminate|].
  injection H as <- _. assert (RP : 0 < rk) by (assert (0 <= rk) by apply sqrt_pos; lra). assert (SP : 0 < s) by (assert (0 <= s) by apply sqrt_pos; lra).
  assert (CS : c ^ 2 < 1). { assert (s ^ 2 = 1 - c ^ 2) by (apply pow2_sqrt; lra). nra. }
  pose proof PI_RGT_0 as P. assert (K : 0 < 180 / PI) by (apply Rdiv_lt_0_compat; lra). assert (E1 : 180 / PI * PI = 180) by (field; lra).
  split; [destruct (atan_bound (tan_el c s rk)); unfold degrees; nra|]. split; [exact RP|]. split; [exact C0|]. split; [exact CS|]. split.
  - intros Cp. rewrite radians_degrees, tan_atan. unfold tan_el. rewrite Rabs_right by lra. destruct (Rlt_dec 0 c) as [_|]; [|lra]. split; [field; lra|].
    rewrite degrees_pos, atan_pos, div_pos by lra. unfold above_horizon. fold c. assert (X : rk * (c - mean_radius / rk) = rk * c - mean_radius) by (field; lra). rewrite <- X. split; intros; nra.
  - intros Cn. rewrite degrees_pos, atan_pos. unfold tan_el. rewrite Rabs_left by lra. destruct (Rlt_dec 0 c); [lra|].
    replace ((- c - mean_radius / rk) / (s * -1)) with ((c + mean_radius / rk) / s) by (field; lra). rewrite div_pos by lra.
    assert (X : rk * (c + mean_radius / rk) = rk * c + mean_radius) by (field; lra). split; intros; nra.
Qed.
