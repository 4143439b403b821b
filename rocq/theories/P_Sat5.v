(** GLONASS and SBAS positions over the real numbers. *)
From Coq Require Import Reals Lra Psatz.
From Verif Require Import Base M_Num M_Sat P_Tec S_Sat P_Sat1 P_Sat4.
Open Scope R_scope.

Lemma geo_glo {T} (o : ops T) eph dt : geo_xyz o eph dt = glo_xyz o eph dt.
Proof. reflexivity. Qed.

(** ** functions of the step equal to c up to the order of the step *)
Definition near0 (D : R) (g : R -> R) (c : R) : Prop := exists K, 0 <= K /\ forall t, Rabs t <= D -> Rabs (g t - c) <= K * Rabs t.
Lemma near0_const D c : near0 D (fun _ => c) c.
Proof. exists 0. split; [lra|]. intros t _. rewrite Rminus_eq_0, Rabs_R0. lra. Qed.
Lemma near0_id D : near0 D (fun t => t) 0.
Proof. exists 1. split; [lra|]. intros t _. rewrite Rminus_0_r. lra. Qed.
Lemma near0_add D f g a b : near0 D f a -> near0 D g b -> near0 D (fun t => f t + g t) (a + b).
Proof.
  intros [K [K0 HK]] [L [L0 HL]]. exists (K + L). split; [lra|]. intros t Ht. specialize (HK t Ht). specialize (HL t Ht).
  replace (f t + g t - (a + b)) with ((f t - a) + (g t - b)) by ring. eapply Rle_trans; [apply Rabs_triang|]. lra.
Qed.
Lemma near0_opp D f a : near0 D f a -> near0 D (fun t => - f t) (- a).
Proof. intros [K [K0 HK]]. exists K. split; [exact K0|]. intros t Ht. replace (- f t - - a) with (- (f t - a)) by ring. rewrite Rabs_Ropp. auto. Qed.
Lemma near0_sub D f g a b : near0 D f a -> near0 D g b -> near0 D (fun t => f t - g t) (a - b).
Proof. intros H1 H2. exact (near0_add D f (fun t => - g t) a (- b) H1 (near0_opp D g b H2)). Qed.
Lemma near0_mul D f g a b : near0 D f a -> near0 D g b -> near0 D (fun t => f t * g t) (a * b).
Proof.
  intros [K [K0 HK]] [L [L0 HL]]. destruct (Rle_dec 0 D) as [HD|HD].
  2:{ exists 0. split; [lra|]. intros t Ht. pose proof (Rabs_pos t). lra. }
  exists (K * (Rabs b + L * D) + Rabs a * L). pose proof (Rabs_pos a). pose proof (Rabs_pos b).
  assert (P1 : 0 <= L * D) by nra. assert (P2 : 0 <= K * (Rabs b + L * D)) by nra. assert (P3 : 0 <= Rabs a * L) by nra. split; [lra|].
  intros t Ht. specialize (HK t Ht). specialize (HL t Ht). pose proof (Rabs_pos t).
  replace (f t * g t - a * b) with ((f t - a) * g t + a * (g t - b)) by ring. eapply Rle_trans; [apply Rabs_triang|]. rewrite !Rabs_mult.
  assert (G : Rabs (g t) <= Rabs b + L * D). { replace (g t) with (b + (g t - b)) by ring. eapply Rle_trans; [apply Rabs_triang|]. assert (L * Rabs t <= L * D) by nra. lra. }
  pose proof (Rabs_pos (f t - a)). pose proof (Rabs_pos (g t)).
  assert (Rabs (f t - a) * Rabs (g t) <= K * Rabs t * (Rabs b + L * D)) by (apply Rmult_le_compat; lra).
  assert (Rabs a * Rabs (g t - b) <= Rabs a * (L * Rabs t)) by (apply Rmult_le_compat_l; lra). lra.
Qed.
Lemma near0_div D f a c : near0 D f a -> near0 D (fun t => f t / c) (a / c).
Proof. intros H. apply (near0_mul D f (fun _ => / c) a (/ c) H). apply near0_const. Qed.
Lemma near0_pow2 D f a : near0 D f a -> near0 D (fun t => f t ^ 2) (a ^ 2).
Proof. intros H. apply (near0_mul D f (fun t => f t * 1) a (a * 1) H). apply (near0_mul D f (fun _ => 1) a 1 H). apply near0_const. Qed.

(** ** the computation, in formulas *)
Definition fx_f (fs sd r vY aX x z : R) : R := fs * x - sd * x * (1 - 5 * z ^ 2 / r ^ 2) + omega_earth ^ 2 * x + 2 * omega_earth * vY + aX.
Definition fy_f (fs sd r vX aY y z : R) : R := fs * y - sd * y * (1 - 5 * z ^ 2 / r ^ 2) + omega_earth ^ 2 * y - 2 * omega_earth * vX + aY.
Definition fz_f (fs sd r aZ z : R) : R := fs * z - sd * z * (3 - 5 * z ^ 2 / r ^ 2) + aZ.
Definition half_f (dt p v k : R) : R := p + v * dt / 2 + k * dt / 8.
Definition last_f (dt p v k1 k2 k3 : R) : R := p + v * dt + (k1 + k2 + k3) * dt / 6.
Lemma oblate_R r z n : r <> 0 -> glo_oblate Rops r z n = Ok (IZR n - 5 * z ^ 2 / r ^ 2).
Proof. intros H. unfold glo_oblate. rewrite !pow_R, !bind_Ok, !Rint. rewrite div_R by (apply pow_nonzero; exact H). reflexivity. Qed.
Lemma fx_R fs sd r vY aX x z : r <> 0 -> glo_fx Rops fs sd r vY aX x z = Ok (fx_f fs sd r vY aX x z).
Proof. intros H. unfold glo_fx. rewrite oblate_R by exact H. rewrite bind_Ok, omega_R, pow_R, bind_Ok, Rint. reflexivity. Qed.
Lemma fy_R fs sd r vX aY y z : r <> 0 -> glo_fy Rops fs sd r vX aY y z = Ok (fy_f fs sd r vX aY y z).
Proof. intros H. unfold glo_fy. rewrite oblate_R by exact H. rewrite bind_Ok, omega_R, pow_R, bind_Ok, Rint. reflexivity. Qed.
Lemma fz_R fs sd r aZ z : r <> 0 -> glo_fz Rops fs sd r aZ z = Ok (fz_f fs sd r aZ z).
Proof. intros H. unfold glo_fz. rewrite oblate_R by exact H. reflexivity. Qed.
Lemma lit2 : o_lit Rops 2 0 = 2. Proof. cbn [o_lit Rops]. unfold Rlit. change (0 <=? 0)%Z with true. cbv iota. change (10 ^ 0)%Z with 1%Z. lra. Qed.
Lemma lit8 : o_lit Rops 8 0 = 8. Proof. cbn [o_lit Rops]. unfold Rlit. change (0 <=? 0)%Z with true. cbv iota. change (10 ^ 0)%Z with 1%Z. lra. Qed.
Lemma half_R dt p v k : glo_half Rops dt p v k = Ok (half_f dt p v k).
Proof. unfold glo_half. rewrite lit2, lit8. rewrite div_R, bind_Ok, div_R, bind_Ok by lra. reflexivity. Qed.
Lemma last_R dt p v k1 k2 k3 : glo_last Rops dt p v k1 k2 k3 = Ok (last_f dt p v k1 k2 k3).
Proof. unfold glo_last. rewrite Rint. rewrite div_R, bind_Ok by lra. reflexivity. Qed.
Lemma j_R : datum_j Rops = pz_j.
Proof. unfold datum_j, pz_j. cbn [o_lit Rops]. unfold Rlit. change (0 <=? -10)%Z with false. cbv iota. change (10 ^ (- -10))%Z with 10000000000%Z. lra. Qed.
Definition sd_of (r : R) : R := 3 / 2 * pz_j * pz_mu * pz_ae ^ 2 / r ^ 5.
Lemma factors_R x y z : let r := sqrt (x ^ 2 + y ^ 2 + z ^ 2) in r <> 0 -> glo_factors Rops x y z = Ok (r, - (pz_mu / r ^ 3), sd_of r).
Proof.
  intros r Hr. unfold glo_factors. rewrite !pow_R, !bind_Ok. change (o_add Rops) with Rplus. rewrite sqrt_R by (pose proof (pow2_ge_0 x); pose proof (pow2_ge_0 y); pose proof (pow2_ge_0 z); lra).
  rewrite bind_Ok. fold r. rewrite pow_R, bind_Ok, mu_R, j_R, lit2, !Rint. rewrite div_R, bind_Ok by (apply pow_nonzero; exact Hr). rewrite div_R, bind_Ok by lra. rewrite pow_R, bind_Ok, div_R, bind_Ok by (apply pow_nonzero; exact Hr).
  change (o_mul Rops) with Rmult. change (o_neg Rops) with Ropp. apply f_equal. apply (f_equal2 pair); [reflexivity|]. unfold sd_of. replace (IZR (datum_ae * datum_ae)) with (pz_ae ^ 2); [reflexivity|].
  unfold datum_ae, pz_ae. rewrite mult_IZR. ring.
Qed.
(** one coordinate, for the three approximations f1, f2, f3 of the acceleration *)
Definition coord (p v f1 f2 f3 dt : R) : R := last_f dt p v (f1 * dt) (f2 * dt) (f3 * dt).
Lemma coord_near D p v a f1 f2 f3 : near0 D f1 a -> near0 D f2 a -> near0 D f3 a ->
  exists K, 0 <= K /\ forall t, Rabs t <= D -> Rabs (coord p v (f1 t) (f2 t) (f3 t) t - (p + v * t + a * t ^ 2 / 2)) <= K * Rabs t ^ 3.
Proof.
  intros H1 H2 H3. destruct (near0_add D _ _ _ _ (near0_add D _ _ _ _ H1 H2) H3) as [K [K0 HK]]. exists (K / 6). split; [lra|]. intros t Ht. specialize (HK t Ht).
  unfold coord, last_f. replace (p + v * t + (f1 t * t + f2 t * t + f3 t * t) * t / 6 - (p + v * t + a * t ^ 2 / 2)) with ((f1 t + f2 t + f3 t - (a + a + a)) * (t * t) * / 6) by field.
  rewrite !Rabs_mult, (Rabs_right (/ 6)) by lra. assert (P : 0 <= Rabs t * Rabs t) by (pose proof (Rabs_pos t); nra).
  replace (K / 6 * Rabs t ^ 3) with (K * Rabs t * (Rabs t * Rabs t) * / 6) by field. apply Rmult_le_compat_r; [lra|]. apply Rmult_le_compat_r; assumption.
Qed.
Lemma half_near D p v f a : near0 D f a -> near0 D (fun t => half_f t p v (f t * t)) p.
Proof.
  intros H. unfold half_f. cut (near0 D (fun t => p + v * t / 2 + f t * t * t / 8) (p + v * 0 / 2 + a * 0 * 0 / 8)); [intros X; replace (p + v * 0 / 2 + a * 0 * 0 / 8) with p in X by field; exact X|].
  apply near0_add; [apply near0_add; [apply near0_const|apply near0_div, near0_mul; [apply near0_const|apply near0_id]]|]. apply near0_div. apply near0_mul; [apply near0_mul; [exact H|apply near0_id]|apply near0_id].
Qed.
Ltac near0_tac := match goal with
  | |- near0 ?D (fun t => @?f t + @?g t) (?a + ?b) => apply (near0_add D f g a b); cbv beta
  | |- near0 ?D (fun t => @?f t - @?g t) (?a - ?b) => apply (near0_sub D f g a b); cbv beta
  | |- near0 ?D (fun t => @?f t * @?g t) (?a * ?b) => apply (near0_mul D f g a b); cbv beta
  | |- near0 ?D (fun t => @?f t / ?c) (?a / ?c) => apply (near0_div D f a c); cbv beta
  | |- near0 ?D (fun t => @?f t ^ 2) (?a ^ 2) => apply (near0_pow2 D f a); cbv beta
  | |- near0 ?D (fun _ => ?c) ?c => apply (near0_const D c)
  | H : near0 ?D ?f ?a |- near0 ?D _ ?a => exact H
  end.
Lemma fx_near D fs sd r vY aX fxx fzz x z : near0 D fxx x -> near0 D fzz z -> near0 D (fun t => fx_f fs sd r vY aX (fxx t) (fzz t)) (fx_f fs sd r vY aX x z).
Proof.
  intros Hx Hz. unfold fx_f. repeat near0_tac.
Qed.
Lemma fy_near D fs sd r vX aY fyy fzz y z : near0 D fyy y -> near0 D fzz z -> near0 D (fun t => fy_f fs sd r vX aY (fyy t) (fzz t)) (fy_f fs sd r vX aY y z).
Proof.
  intros Hx Hz. unfold fy_f. repeat near0_tac.
Qed.
Lemma fz_near D fs sd r aZ fzz z : near0 D fzz z -> near0 D (fun t => fz_f fs sd r aZ (fzz t)) (fz_f fs sd r aZ z).
Proof.
  intros Hz. unfold fz_f. repeat near0_tac.
Qed.

(** the intermediate points; fx, fy, fz: the accelerations as functions of the position *)
Definition z1_of (fz : R -> R) (z0 vZ t : R) : R := half_f t z0 vZ (fz z0 * t).
Definition z2_of (fz : R -> R) (z0 vZ t : R) : R := half_f t z0 vZ (fz (z1_of fz z0 vZ t) * t).
Definition x1_of (fx : R -> R -> R) (x0 vX z0 t : R) : R := half_f t x0 vX (fx x0 z0 * t).
Definition x2_of (fx : R -> R -> R) (fz : R -> R) (x0 vX z0 vZ t : R) : R := half_f t x0 vX (fx (x1_of fx x0 vX z0 t) (z1_of fz z0 vZ t) * t).
Definition x_end (fx : R -> R -> R) (fz : R -> R) (x0 vX z0 vZ t : R) : R :=
  coord x0 vX (fx x0 z0) (fx (x1_of fx x0 vX z0 t) (z1_of fz z0 vZ t)) (fx (x2_of fx fz x0 vX z0 vZ t) (z2_of fz z0 vZ t)) t.
Definition z_end (fz : R -> R) (z0 vZ t : R) : R := coord z0 vZ (fz z0) (fz (z1_of fz z0 vZ t)) (fz (z2_of fz z0 vZ t)) t.
Lemma move_R t x0 vX aX y0 vY aY z0 vZ aZ : let r := sqrt (x0 ^ 2 + y0 ^ 2 + z0 ^ 2) in let fs := - (pz_mu / r ^ 3) in let sd := sd_of r in r <> 0 ->
  glo_move Rops t x0 vX aX y0 vY aY z0 vZ aZ =
    Ok (x_end (fx_f fs sd r vY aX) (fz_f fs sd r aZ) x0 vX z0 vZ t, x_end (fy_f fs sd r vX aY) (fz_f fs sd r aZ) y0 vY z0 vZ t, z_end (fz_f fs sd r aZ) z0 vZ t).
Proof.
  intros r fs sd Hr. unfold glo_move. pose proof (factors_R x0 y0 z0 Hr) as F. fold r in F. fold fs sd in F. rewrite F. clear F. rewrite bind_Ok. cbv beta iota zeta. clearbody fs sd. clearbody r.
  change (o_mul Rops) with Rmult.
  rewrite fx_R, bind_Ok, fy_R, bind_Ok, fz_R, bind_Ok by exact Hr. rewrite half_R, bind_Ok, half_R, bind_Ok, half_R, bind_Ok.
  rewrite fx_R, bind_Ok, fy_R, bind_Ok, fz_R, bind_Ok by exact Hr. rewrite half_R, bind_Ok, half_R, bind_Ok, half_R, bind_Ok.
  rewrite fx_R, bind_Ok, fy_R, bind_Ok, fz_R, bind_Ok by exact Hr. rewrite last_R, bind_Ok, last_R, bind_Ok, last_R, bind_Ok. reflexivity.
Qed.
Lemma z1_near D fz z0 vZ : near0 D (z1_of fz z0 vZ) z0.
Proof. apply (half_near D z0 vZ (fun _ => fz z0) (fz z0)). apply near0_const. Qed.
Lemma x1_near D fx x0 vX z0 : near0 D (x1_of fx x0 vX z0) x0.
Proof. apply (half_near D x0 vX (fun _ => fx x0 z0) (fx x0 z0)). apply near0_const. Qed.
(** functions that preserve near0 *)
Definition smooth2 (f : R -> R -> R) : Prop := forall D g h a b, near0 D g a -> near0 D h b -> near0 D (fun t => f (g t) (h t)) (f a b).
Definition smooth1 (f : R -> R) : Prop := forall D g a, near0 D g a -> near0 D (fun t => f (g t)) (f a).
Lemma z2_near D fz z0 vZ : smooth1 fz -> near0 D (z2_of fz z0 vZ) z0.
Proof. intros S. apply (half_near D z0 vZ (fun t => fz (z1_of fz z0 vZ t)) (fz z0)). apply S, z1_near. Qed.
Lemma x2_near D fx fz x0 vX z0 vZ : smooth2 fx -> near0 D (x2_of fx fz x0 vX z0 vZ) x0.
Proof. intros S. apply (half_near D x0 vX (fun t => fx (x1_of fx x0 vX z0 t) (z1_of fz z0 vZ t)) (fx x0 z0)). apply S; [apply x1_near|apply z1_near]. Qed.
Lemma x_end_near D fx fz x0 vX z0 vZ : smooth2 fx -> smooth1 fz ->
  exists K, 0 <= K /\ forall t, Rabs t <= D -> Rabs (x_end fx fz x0 vX z0 vZ t - (x0 + vX * t + fx x0 z0 * t ^ 2 / 2)) <= K * Rabs t ^ 3.
Proof.
  intros Sx Sz. apply (coord_near D x0 vX (fx x0 z0) (fun _ => fx x0 z0) (fun t => fx (x1_of fx x0 vX z0 t) (z1_of fz z0 vZ t)) (fun t => fx (x2_of fx fz x0 vX z0 vZ t) (z2_of fz z0 vZ t))).
  - apply near0_const.
  - apply Sx; [apply x1_near|apply z1_near].
  - apply Sx; [apply x2_near; exact Sx|apply z2_near; exact Sz].
Qed.
Lemma z_end_near D fz z0 vZ : smooth1 fz ->
  exists K, 0 <= K /\ forall t, Rabs t <= D -> Rabs (z_end fz z0 vZ t - (z0 + vZ * t + fz z0 * t ^ 2 / 2)) <= K * Rabs t ^ 3.
Proof.
  intros Sz. apply (coord_near D z0 vZ (fz z0) (fun _ => fz z0) (fun t => fz (z1_of fz z0 vZ t)) (fun t => fz (z2_of fz z0 vZ t))).
  - apply near0_const.
  - apply Sz, z1_near.
  - apply Sz, z2_near, Sz.
Qed.

(** ** the position *)
Lemma glo_unfold {T} (o : ops T) x vx ax h y vy ay k z vz az rest dt :
  glo_xyz o (x :: vx :: ax :: h :: y :: vy :: ay :: k :: z :: vz :: az :: rest) dt =
    let m c := o_mul o c (o_int o 1000) in
    if o_eqb o dt (o_int o 0) then Ok (m x, m y, m z) else glo_move o dt (m x) (m vx) (m ax) (m y) (m vy) (m ay) (m z) (m vz) (m az).
Proof. reflexivity. Qed.
Lemma eqb_R x y : o_eqb Rops x y = if Req_EM_T x y then true else false. Proof. reflexivity. Qed.
Lemma glo_zero eph m : glonass_broadcast eph m -> glo_xyz Rops eph 0 = Ok (m_pos m).
Proof.
  intros (x & vx & ax & h & y & vy & ay & k & z & vz & az & rest & -> & ->). rewrite glo_unfold. cbv zeta. rewrite eqb_R, !Rint. destruct (Req_EM_T 0 0); [reflexivity|congruence].
Qed.
Lemma glo_second_order eph m D : glonass_broadcast eph m -> 0 < norm2 (m_pos m) ->
  exists K, forall t, Rabs t <= D -> exists p, glo_xyz Rops eph t = Ok p /\ within (K * Rabs t ^ 3) p (second_order m t).
Proof.
  intros Hb Hr. pose proof (glo_zero eph m Hb) as Z. destruct Hb as (x & vx & ax & h & y & vy & ay & k & z & vz & az & rest & -> & ->). cbn [m_pos] in *.
  unfold norm2 in Hr. set (X := x * 1000) in *. set (Y := y * 1000) in *. set (W := z * 1000) in *. assert (Rr : sqrt (X ^ 2 + Y ^ 2 + W ^ 2) <> 0) by (apply Rgt_not_eq, sqrt_lt_R0; exact Hr).
  pose proof (fun t => move_R t X (vx * 1000) (ax * 1000) Y (vy * 1000) (ay * 1000) W (vz * 1000) (az * 1000) Rr) as M. cbv zeta in M.
  set (r := sqrt (X ^ 2 + Y ^ 2 + W ^ 2)) in *.
  pose proof (fun a b c d e D g h a0 b0 Hg Hh => fx_near D a b c d e g h a0 b0 Hg Hh : near0 D _ _) as SX. pose proof (fun a b c d e D g h a0 b0 Hg Hh => fy_near D a b c d e g h a0 b0 Hg Hh : near0 D _ _) as SY. pose proof (fun a b c d D g a0 Hg => fz_near D a b c d g a0 Hg : near0 D _ _) as SZ.
  destruct (x_end_near D (fx_f (- (pz_mu / r ^ 3)) (sd_of r) r (vy * 1000) (ax * 1000)) (fz_f (- (pz_mu / r ^ 3)) (sd_of r) r (az * 1000)) X (vx * 1000) W (vz * 1000) (SX _ _ _ _ _) (SZ _ _ _ _)) as [Kx [Kx0 Hx]].
  destruct (x_end_near D (fy_f (- (pz_mu / r ^ 3)) (sd_of r) r (vx * 1000) (ay * 1000)) (fz_f (- (pz_mu / r ^ 3)) (sd_of r) r (az * 1000)) Y (vy * 1000) W (vz * 1000) (SY _ _ _ _ _) (SZ _ _ _ _)) as [Ky [Ky0 Hy]].
  destruct (z_end_near D (fz_f (- (pz_mu / r ^ 3)) (sd_of r) r (az * 1000)) W (vz * 1000) (SZ _ _ _ _)) as [Kz [Kz0 Hz]].
  exists (Kx + Ky + Kz). intros t Ht. specialize (Hx t Ht). specialize (Hy t Ht). specialize (Hz t Ht).
  assert (T0 : 0 <= Rabs t ^ 3) by (apply pow_le, Rabs_pos).
  assert (Ex : fx_f (- (pz_mu / r ^ 3)) (sd_of r) r (vy * 1000) (ax * 1000) X W = - pz_mu / r ^ 3 * X - 3 / 2 * pz_j * pz_mu * pz_ae ^ 2 / r ^ 5 * X * (1 - 5 * W ^ 2 / r ^ 2) + omega_earth ^ 2 * X + 2 * omega_earth * (vy * 1000) + ax * 1000) by (unfold fx_f, sd_of; field; exact Rr).
  assert (Ey : fy_f (- (pz_mu / r ^ 3)) (sd_of r) r (vx * 1000) (ay * 1000) Y W = - pz_mu / r ^ 3 * Y - 3 / 2 * pz_j * pz_mu * pz_ae ^ 2 / r ^ 5 * Y * (1 - 5 * W ^ 2 / r ^ 2) + omega_earth ^ 2 * Y - 2 * omega_earth * (vx * 1000) + ay * 1000) by (unfold fy_f, sd_of; field; exact Rr).
  assert (Ez : fz_f (- (pz_mu / r ^ 3)) (sd_of r) r (az * 1000) W = - pz_mu / r ^ 3 * W - 3 / 2 * pz_j * pz_mu * pz_ae ^ 2 / r ^ 5 * W * (3 - 5 * W ^ 2 / r ^ 2) + az * 1000) by (unfold fz_f, sd_of; field; exact Rr).
  rewrite Ex in Hx. rewrite Ey in Hy. rewrite Ez in Hz. clear Ex Ey Ez.
  destruct (Req_EM_T t 0) as [->|N].
  - exists (X, Y, W). split; [exact Z|]. unfold within, second_order, acceleration. cbn [m_pos m_vel m_acc]. fold X Y W. unfold norm2. fold r. rewrite Rabs_R0. repeat split.
    1-3: match goal with |- Rabs (?p - (?p + ?v * 0 + ?A * 0 ^ 2 / 2)) <= _ => generalize A; intros A0; replace (p - (p + v * 0 + A0 * 0 ^ 2 / 2)) with 0 by field; rewrite Rabs_R0; replace (0 ^ 3) with 0 by ring; rewrite Rmult_0_r; apply Rle_refl end.
  - rewrite glo_unfold. cbv zeta. rewrite eqb_R, !Rint. destruct (Req_EM_T t 0); [contradiction|]. change (o_mul Rops) with Rmult. fold X Y W. rewrite M. eexists. split; [reflexivity|].
    unfold within, second_order, acceleration. cbn [m_pos m_vel m_acc]. unfold norm2. fold X Y W. fold r. repeat split; (eapply Rle_trans; [eassumption|]; nra).
Qed.
