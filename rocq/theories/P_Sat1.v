(** Geodetic coordinates over the real numbers. *)
From Coq Require Import Reals Lra Psatz.
From Coquelicot Require Import Coquelicot.
From Verif Require Import Base M_Num M_Sat P_Tec.
Open Scope R_scope.

Lemma sqrt_R x : 0 <= x -> o_sqrt Rops x = Ok (sqrt x).
Proof. intros H. cbn. destruct (Rlt_dec x 0); [lra|reflexivity]. Qed.
Lemma lit_R a e : o_lit Rops a e = Rlit a e. Proof. reflexivity. Qed.
Definition semi_a : R := 6378137.
Definition semi_b : R := 6356752.314245.
Definition E2 : R := 1 - (semi_b / semi_a) ^ 2.
Definition ecc : R := sqrt E2.
Lemma a_R : datum_a Rops = semi_a.
Proof. unfold datum_a, semi_a. cbn [o_lit Rops]. unfold Rlit. cbn. lra. Qed.
Lemma b_R : datum_b Rops = semi_b.
Proof. unfold datum_b, semi_b. cbn [o_lit Rops]. unfold Rlit. cbn. lra. Qed.
Lemma E2_bounds : 66 / 10000 < E2 < 67 / 10000.
Proof. unfold E2, semi_a, semi_b. lra. Qed.
Lemma e_R : datum_e Rops = Ok ecc.
Proof.
  unfold datum_e. rewrite a_R, b_R. cbn [o_pow Rops bind]. rewrite div_R by (unfold semi_a; lra). cbn [bind]. rewrite Rint. cbn [o_sub Rops].
  replace (1 - semi_b ^ 2 / semi_a ^ 2) with E2 by (unfold E2; field; unfold semi_a; lra). apply sqrt_R. pose proof E2_bounds. lra.
Qed.
Lemma ecc_sq : ecc ^ 2 = E2.
Proof. unfold ecc. rewrite pow2_sqrt; [reflexivity|]. pose proof E2_bounds. lra. Qed.

(** prime vertical radius, as a function of the sine of the latitude *)
Definition rad (s : R) : R := semi_a / sqrt (1 - E2 * s ^ 2).
Lemma sin_sq_le b : 0 <= sin b ^ 2 <= 1.
Proof. pose proof (sin2_cos2 b). unfold Rsqr in *. pose proof (Rle_0_sqr (cos b)). pose proof (Rle_0_sqr (sin b)). unfold Rsqr in *. lra. Qed.
Lemma w_pos s : s ^ 2 <= 1 -> 99 / 100 < 1 - E2 * s ^ 2 <= 1.
Proof. intros H. pose proof E2_bounds. pose proof (pow2_ge_0 s). nra. Qed.
Lemma sqrt_w s : s ^ 2 <= 1 -> 99 / 100 < sqrt (1 - E2 * s ^ 2) <= 1.
Proof.
  intros H. destruct (w_pos s H) as [W1 W2]. split.
  - assert (X : sqrt (99 / 100 * (99 / 100)) < sqrt (1 - E2 * s ^ 2)) by (apply sqrt_lt_1_alt; lra). rewrite sqrt_square in X by (apply Rlt_le, Rdiv_lt_0_compat; lra). exact X.
  - assert (X : sqrt (1 - E2 * s ^ 2) <= sqrt 1) by (apply sqrt_le_1_alt; lra). rewrite sqrt_1 in X. exact X.
Qed.
Lemma rad_bounds s : s ^ 2 <= 1 -> 6378137 <= rad s <= 6450000.
Proof.
  intros H. pose proof (sqrt_w s H) as [A B]. unfold rad, semi_a. set (w := sqrt _) in *. split.
  - apply (Rmult_le_reg_r w); [lra|]. unfold Rdiv. rewrite Rmult_assoc, Rinv_l by lra. lra.
  - apply (Rmult_le_reg_r w); [lra|]. unfold Rdiv. rewrite Rmult_assoc, Rinv_l by lra. lra.
Qed.

(** one turn of the loop *)
Definition lat_next (z q b : R) : R := Ratan2 (z + rad (sin b) * E2 * sin b) q.
Lemma lat_loop_R n z q b : lat_loop Rops (S n) ecc z q b =
  if Rle_dec (Rabs (lat_next z q b - b)) (/ 1000000000000) then Ok (lat_next z q b, rad (sin b)) else lat_loop Rops n ecc z q (lat_next z q b).
Proof.
  cbn [lat_loop]. cbn [o_pow o_sin Rops bind]. rewrite ecc_sq, Rint. cbn [o_sub o_mul Rops]. rewrite sqrt_R by (pose proof (w_pos (sin b)); pose proof (sin_sq_le b); lra). cbn [bind].
  rewrite a_R. rewrite div_R by (pose proof (sqrt_w (sin b)); pose proof (sin_sq_le b); lra). cbn [bind o_add o_mul o_leb o_abs o_atan2 o_lit Rops].
  fold (rad (sin b)). fold (lat_next z q b). unfold Rleb. replace (Rlit 1 (-12)) with (/ 1000000000000).
  - now destruct (Rle_dec _ _).
  - unfold Rlit. change (0 <=? -12)%Z with false. cbv iota. change (10 ^ (- -12))%Z with 1000000000000%Z. lra.
Qed.
(** when the loop ends *)
Lemma lat_loop_ok n : forall z q b0 b N, lat_loop Rops n ecc z q b0 = Ok (b, N) ->
  exists bi, N = rad (sin bi) /\ b = lat_next z q bi /\ Rabs (b - bi) <= / 1000000000000.
Proof.
  induction n as [|n IH]; intros z q b0 b N; [discriminate|]. rewrite lat_loop_R. destruct (Rle_dec _ _) as [L|L]; [|apply IH].
  intros E. injection E as <- <-. exists b0. auto.
Qed.

(** ** polar coordinates *)
Lemma cos_atan2 x : 0 < cos (atan x).
Proof. destruct (atan_bound x). apply cos_gt_0; lra. Qed.
Lemma sin_cos_atan x : sin (atan x) = x * cos (atan x).
Proof. pose proof (tan_atan x) as H. unfold tan in H. pose proof (cos_atan2 x). rewrite <- H at 2. field. lra. Qed.
(** the angle given by atan2 *)
Lemma atan2_polar y x : let r := sqrt (x * x + y * y) in x = r * cos (Ratan2 y x) /\ y = r * sin (Ratan2 y x).
Proof.
  cbn zeta. set (r := sqrt (x * x + y * y)).
  assert (P : forall c s : R, c * c + s * s = 1 -> forall k, 0 <= k -> x = k * c -> y = k * s -> x = r * c /\ y = r * s).
  { intros c s H k Hk Ex Ey. replace r with k; [tauto|]. unfold r. rewrite Ex, Ey. replace (k * c * (k * c) + k * s * (k * s)) with (k * k) by nra. rewrite sqrt_square; [reflexivity|exact Hk]. }
  assert (S1 : forall t, cos t * cos t + sin t * sin t = 1) by (intros t; pose proof (sin2_cos2 t); unfold Rsqr in *; lra).
  unfold Ratan2. destruct (Rlt_dec 0 x) as [H|H].
  - pose proof (cos_atan2 (y / x)) as C. apply (P _ _ (S1 _) (x / cos (atan (y / x)))).
    + apply Rlt_le, Rdiv_lt_0_compat; lra.
    + field. lra.
    + rewrite sin_cos_atan. field. lra.
  - destruct (Rlt_dec x 0) as [H2|H2].
    + pose proof (cos_atan2 (y / x)) as C.
      destruct (Rle_dec 0 y) as [H3|H3].
      * rewrite neg_cos, neg_sin. apply P with (k := - x / cos (atan (y / x))); [pose proof (S1 (atan (y / x))); nra| | |].
        -- apply Rlt_le, Rdiv_lt_0_compat; lra.
        -- field. lra.
        -- rewrite sin_cos_atan. field. lra.
      * assert (EC : cos (atan (y / x) - PI) = - cos (atan (y / x))) by (rewrite cos_minus, cos_PI, sin_PI; ring).
        assert (ES : sin (atan (y / x) - PI) = - sin (atan (y / x))) by (rewrite sin_minus, cos_PI, sin_PI; ring).
        rewrite EC, ES. apply P with (k := - x / cos (atan (y / x))); [pose proof (S1 (atan (y / x))); nra| | |].
        -- apply Rlt_le, Rdiv_lt_0_compat; lra.
        -- field. lra.
        -- rewrite sin_cos_atan. field. lra.
    + assert (x = 0) by lra. subst x. destruct (Rlt_dec 0 y) as [H3|H3].
      * rewrite cos_PI2, sin_PI2. apply P with (k := y); lra.
      * destruct (Rlt_dec y 0) as [H4|H4].
        -- rewrite cos_neg, sin_neg, cos_PI2, sin_PI2. apply P with (k := - y); lra.
        -- rewrite cos_0, sin_0. apply P with (k := 0); lra.
Qed.
Lemma atan2_range y x : - PI < Ratan2 y x <= PI.
Proof.
  pose proof PI_RGT_0 as HP. unfold Ratan2. destruct (Rlt_dec 0 x) as [H|H]; [destruct (atan_bound (y / x)); lra|].
  destruct (Rlt_dec x 0) as [H2|H2].
  - destruct (Rle_dec 0 y) as [H3|H3].
    + destruct (atan_bound (y / x)). split; [lra|]. assert (atan (y / x) <= 0); [|lra]. rewrite <- atan_0. destruct (Req_dec y 0) as [->|Hy].
      * unfold Rdiv. rewrite Rmult_0_l. lra.
      * apply Rlt_le, atan_increasing. assert (0 < y) by lra. assert (/ x < 0) by (apply Rinv_lt_0_compat; lra). unfold Rdiv. nra.
    + destruct (atan_bound (y / x)). split; [|lra]. assert (0 < atan (y / x)); [|lra]. rewrite <- atan_0. apply atan_increasing. assert (/ x < 0) by (apply Rinv_lt_0_compat; lra). unfold Rdiv. nra.
  - destruct (Rlt_dec 0 y); [lra|]. destruct (Rlt_dec y 0); lra.
Qed.

(** ** what xyz2lbh returns *)
Definition lon_of (x y : R) : R := if Req_EM_T x 0 then (if Rlt_dec 0 y then PI / 2 else 3 * PI / 2) else Ratan2 y x.
Lemma xyz2lbh_R fuel x y z : xyz2lbh Rops fuel x y z =
  let q := sqrt (x ^ 2 + y ^ 2) in
  if Req_EM_T q 0 then Err ZeroDivisionError else
  match lat_loop Rops fuel ecc z q (z / q * 1 / (1 - E2)) with
  | Ok (b, n) => Ok (lon_of x y, b, q * cos b + z * sin b - n * (1 - E2 * sin b ^ 2))
  | Err e => Err e
  end.
Proof.
  unfold xyz2lbh. rewrite e_R. cbn [bind o_pow Rops o_add]. rewrite sqrt_R by (pose proof (pow2_ge_0 x); pose proof (pow2_ge_0 y); lra). cbn [bind o_eqb o_ltb o_pi o_mul].
  rewrite !Rint. rewrite !(div_R _ 2) by lra. unfold Reqb, Rltb. cbn zeta. 
  match goal with |- context [bind ?l _] => replace l with (Ok (lon_of x y)) end.
  2:{ unfold lon_of. cbn [o_eqb o_ltb o_pi o_mul o_atan2 Rops]. unfold Reqb, Rltb. destruct (Req_EM_T x 0); [|reflexivity]. destruct (Rlt_dec 0 y); reflexivity. }
  cbn [bind]. set (q := sqrt _). destruct (Req_EM_T q 0) as [Hq|Hq].
  - cbn [o_div Rops]. rewrite Hq. destruct (Req_EM_T 0 0); [reflexivity|congruence].
  - rewrite div_R by exact Hq. cbn [bind o_sub Rops]. rewrite ecc_sq. rewrite div_R by (pose proof E2_bounds; lra). cbn [bind o_mul Rops].
    destruct (lat_loop Rops fuel ecc z q _) as [[b n]|]; reflexivity.
Qed.
Lemma lon_polar x y : x = sqrt (x ^ 2 + y ^ 2) * cos (lon_of x y) /\ y = sqrt (x ^ 2 + y ^ 2) * sin (lon_of x y).
Proof.
  replace (x ^ 2 + y ^ 2) with (x * x + y * y) by ring. unfold lon_of. destruct (Req_EM_T x 0) as [->|H]; [|apply atan2_polar].
  replace (0 * 0 + y * y) with (y * y) by ring. destruct (Rlt_dec 0 y).
  - rewrite sqrt_square, cos_PI2, sin_PI2 by lra. lra.
  - replace (y * y) with ((- y) * (- y)) by ring. rewrite sqrt_square by lra. replace (3 * PI / 2) with (3 * (PI / 2)) by field. rewrite cos_3PI2, sin_3PI2. lra.
Qed.

(** ** convergence to the defining equations *)
Lemma abs_sin_diff a b : Rabs (sin a - sin b) <= Rabs (a - b).
Proof.
  destruct (MVT_gen sin b a cos) as [c [_ E]].
  - intros x _. apply is_derive_Reals, derivable_pt_lim_sin.
  - intros x _. apply continuity_pt_filterlim. apply continuity_pt_filterlim, continuity_sin.
  - rewrite E, Rabs_mult. pose proof (COS_bound c). assert (Rabs (cos c) <= 1) by (apply Rabs_le; lra). pose proof (Rabs_pos (a - b)). nra.
Qed.
Lemma sq_le1 s : s ^ 2 <= 1 -> -1 <= s <= 1.
Proof. intros H. split; nra. Qed.
Lemma rad_diff s t : s ^ 2 <= 1 -> t ^ 2 <= 1 -> Rabs (rad s - rad t) <= 45000 * Rabs (s - t).
Proof.
  intros Hs Ht. pose proof (sqrt_w s Hs) as [A B]. pose proof (sqrt_w t Ht) as [C D]. pose proof (w_pos s Hs). pose proof (w_pos t Ht). unfold rad.
  assert (Ea : sqrt (1 - E2 * s ^ 2) * sqrt (1 - E2 * s ^ 2) = 1 - E2 * s ^ 2) by (apply sqrt_sqrt; lra).
  assert (Eb : sqrt (1 - E2 * t ^ 2) * sqrt (1 - E2 * t ^ 2) = 1 - E2 * t ^ 2) by (apply sqrt_sqrt; lra).
  set (u := sqrt (1 - E2 * s ^ 2)) in *. set (v := sqrt (1 - E2 * t ^ 2)) in *.
  assert (X : (v - u) * (v + u) = E2 * (s + t) * (s - t)) by nra.
  replace (semi_a / u - semi_a / v) with (semi_a * E2 * (s + t) * (s - t) / (u * v * (v + u))).
  2:{ replace (semi_a * E2 * (s + t) * (s - t)) with (semi_a * ((v - u) * (v + u))) by (rewrite X; ring). field. lra. }
  unfold Rdiv. rewrite !Rabs_mult, Rabs_inv. rewrite (Rabs_right semi_a) by (unfold semi_a; lra). rewrite (Rabs_right E2) by (pose proof E2_bounds; lra).
  assert (P : 19 / 10 <= u * v * (v + u)) by nra. rewrite (Rabs_right (u * v * (v + u))) by lra.
  assert (I : / (u * v * (v + u)) <= 10 / 19). { replace (10 / 19) with (/ (19 / 10)) by field. apply Rinv_le_contravar; lra. }
  assert (I0 : 0 < / (u * v * (v + u))) by (apply Rinv_0_lt_compat; lra).
  assert (Y : Rabs (s + t) <= 2) by (pose proof (sq_le1 s Hs); pose proof (sq_le1 t Ht); apply Rabs_le; split; lra).
  assert (Z0 : semi_a * E2 * Rabs (s + t) <= 85468). { unfold semi_a. pose proof E2_bounds. pose proof (Rabs_pos (s + t)). nra. }
  pose proof (Rabs_pos (s - t)). set (d := Rabs (s - t)) in *.
  replace (semi_a * E2 * Rabs (s + t) * d * / (u * v * (v + u))) with ((semi_a * E2 * Rabs (s + t)) * / (u * v * (v + u)) * d) by ring.
  apply Rmult_le_compat_r; [assumption|]. assert (0 <= semi_a * E2 * Rabs (s + t)) by (unfold semi_a; pose proof E2_bounds; pose proof (Rabs_pos (s + t)); nra).
  apply Rle_trans with (85468 * (10 / 19)); [apply Rmult_le_compat; lra|lra].
Qed.
Lemma lbh_equations fuel x y z l b h : xyz2lbh Rops fuel x y z = Ok (l, b, h) ->
  let N := semi_a / sqrt (1 - E2 * sin b ^ 2) in
  Rabs (x - (N + h) * cos b * cos l) <= / 10000000 /\
  Rabs (y - (N + h) * cos b * sin l) <= / 10000000 /\
  Rabs (z - (N * (1 - E2) + h) * sin b) <= / 10000000.
Proof.
  rewrite xyz2lbh_R. cbn zeta. set (q := sqrt (x ^ 2 + y ^ 2)). destruct (Req_EM_T q 0) as [Hq|Hq]; [discriminate|].
  destruct (lat_loop _ _ _ _ _ _) as [[b' n]|] eqn:E; [|discriminate]. intros K. injection K as <- <- <-.
  apply lat_loop_ok in E as [bi [-> [Eb Hb]]]. destruct (lon_polar x y) as [Lx Ly]. fold q in Lx, Ly.
  set (l := lon_of x y) in *. fold (rad (sin b')).
  assert (Q : 0 < q) by (assert (0 <= q) by apply sqrt_pos; lra).
  unfold lat_next in Eb. set (t := z + rad (sin bi) * E2 * sin bi) in *. destruct (atan2_polar t q) as [Pq Pt]. rewrite <- Eb in Pq, Pt.
  set (rho := sqrt (q * q + t * t)) in *. set (s := sin bi) in *. set (S := sin b') in *. set (C := cos b') in *.
  assert (CS : C * C + S * S = 1) by (unfold C, S; pose proof (sin2_cos2 b'); unfold Rsqr in *; lra).
  assert (D : Rabs (S - s) <= / 1000000000000) by (eapply Rle_trans; [apply abs_sin_diff|exact Hb]).
  assert (Hs : s ^ 2 <= 1) by apply sin_sq_le. assert (HS : S ^ 2 <= 1) by apply sin_sq_le.
  pose proof (rad_bounds s Hs) as Bs. pose proof (rad_diff S s HS Hs) as Rd. pose proof E2_bounds as BE.
  assert (Ez : z = rho * S - rad s * E2 * s) by (unfold t in Pt; lra).
  assert (Eh : q * C + z * S - rad s * (1 - E2 * S ^ 2) = rho - rad s + rad s * E2 * S * (S - s)).
  { transitivity (rho * (C * C + S * S) - rad s + rad s * E2 * S * (S - s)); [rewrite Ez; replace (q * C) with (rho * C * C) by (rewrite <- Pq; reflexivity); ring|rewrite CS; ring]. }
  change (S * (S * 1)) with (S ^ 2). rewrite Eh. set (N := rad S) in *. set (n := rad s) in *. set (d := S - s) in *.
  assert (Dn : Rabs (N - n) <= / 20000000) by (eapply Rle_trans; [exact Rd|]; lra).
  assert (De : Rabs (n * E2 * d) <= / 22000000).
  { rewrite !Rabs_mult. rewrite (Rabs_right n), (Rabs_right E2) by lra. assert (n * E2 <= 43300) by nra. pose proof (Rabs_pos d). nra. }
  assert (C1 : Rabs C <= 1) by (apply Rabs_le, sq_le1; nra). assert (S1 : Rabs S <= 1) by (apply Rabs_le, sq_le1; nra).
  assert (Ab : forall a b B, Rabs a <= B -> Rabs b <= 1 -> Rabs (a * b) <= B).
  { intros u v B Hu Hv. rewrite Rabs_mult. pose proof (Rabs_pos u). pose proof (Rabs_pos v). nra. }
  assert (Main : Rabs (((N - n) + n * E2 * d * S) * C) <= / 10000000).
  { apply Ab; [|exact C1]. eapply Rle_trans; [apply Rabs_triang|]. assert (Rabs (n * E2 * d * S) <= / 22000000) by (apply Ab; assumption). lra. }
  assert (Eq : q - (N + (rho - n + n * E2 * S * d)) * C = - (((N - n) + n * E2 * d * S) * C)) by (replace q with (rho * C) by (symmetry; exact Pq); ring).
  assert (Lc : Rabs (cos l) <= 1) by (apply Rabs_le; apply COS_bound). assert (Ls : Rabs (sin l) <= 1) by (apply Rabs_le; apply SIN_bound).
  assert (Mq : Rabs (q - (N + (rho - n + n * E2 * S * d)) * C) <= / 10000000) by (rewrite Eq, Rabs_Ropp; exact Main).
  repeat split.
  - rewrite Lx at 1. replace (q * cos l - (N + (rho - n + n * E2 * S * d)) * C * cos l) with ((q - (N + (rho - n + n * E2 * S * d)) * C) * cos l) by ring. now apply Ab.
  - rewrite Ly at 1. replace (q * sin l - (N + (rho - n + n * E2 * S * d)) * C * sin l) with ((q - (N + (rho - n + n * E2 * S * d)) * C) * sin l) by ring. now apply Ab.
  - replace (z - (N * (1 - E2) + (rho - n + n * E2 * S * d)) * S) with (- ((N - n) * S * (1 - E2)) + n * E2 * d * (1 - S ^ 2)) by (rewrite Ez; unfold d; ring).
    eapply Rle_trans; [apply Rabs_triang|]. rewrite Rabs_Ropp.
    assert (Rabs ((N - n) * S * (1 - E2)) <= / 20000000) by (apply Ab; [now apply Ab|apply Rabs_le; lra]).
    assert (Rabs (n * E2 * d * (1 - S ^ 2)) <= / 22000000) by (apply Ab; [exact De|apply Rabs_le; pose proof (pow2_ge_0 S); lra]). lra.
Qed.
