(** The latitude iteration ends. *)
From Coq Require Import Reals Lra Psatz.
From Coquelicot Require Import Coquelicot.
From Verif Require Import Base M_Num M_Sat P_Tec P_Sat1.
Open Scope R_scope.

(** the shift of the iteration, as a function of the sine *)
Definition shift (s : R) : R := rad s * E2 * s.
Lemma shift_bound s : s ^ 2 <= 1 -> Rabs (shift s) <= 43300.
Proof.
  intros H. pose proof (rad_bounds s H). pose proof E2_bounds. pose proof (sq_le1 s H). unfold shift. rewrite Rabs_mult.
  assert (0 <= rad s * E2 <= 43215) by nra. rewrite (Rabs_right (rad s * E2)) by lra. assert (Rabs s <= 1) by (apply Rabs_le; lra). pose proof (Rabs_pos s). nra.
Qed.
Lemma shift_diff s t : s ^ 2 <= 1 -> t ^ 2 <= 1 -> Rabs (shift s - shift t) <= 43600 * Rabs (s - t).
Proof.
  intros Hs Ht. pose proof (rad_bounds s Hs). pose proof (rad_diff s t Hs Ht) as D. pose proof E2_bounds. unfold shift.
  replace (rad s * E2 * s - rad t * E2 * t) with (E2 * (rad s * (s - t) + (rad s - rad t) * t)) by ring.
  rewrite Rabs_mult, (Rabs_right E2) by lra.
  assert (X : Rabs (rad s * (s - t) + (rad s - rad t) * t) <= 6495000 * Rabs (s - t)).
  { eapply Rle_trans; [apply Rabs_triang|]. rewrite !Rabs_mult, (Rabs_right (rad s)) by lra. pose proof (sq_le1 t Ht). assert (Rabs t <= 1) by (apply Rabs_le; lra).
    pose proof (Rabs_pos (s - t)). pose proof (Rabs_pos t). pose proof (Rabs_pos (rad s - rad t)). assert (Rabs (rad s - rad t) * Rabs t <= Rabs (rad s - rad t)) by nra. nra. }
  pose proof (Rabs_pos (s - t)). apply Rle_trans with (E2 * (6495000 * Rabs (s - t))); [apply Rmult_le_compat_l; lra|nra].
Qed.
(** the angle changes by at most the shift over the distance *)
Lemma atan2_diff q t u rho : 0 < q -> 0 < rho -> (forall v, Rmin t u <= v <= Rmax t u -> rho ^ 2 <= q ^ 2 + v ^ 2) ->
  Rabs (Ratan2 u q - Ratan2 t q) <= Rabs (u - t) / rho.
Proof.
  intros Hq Hr Hv. unfold Ratan2. destruct (Rlt_dec 0 q) as [_|K]; [|contradiction].
  destruct (MVT_gen (fun v => atan (v / q)) t u (fun v => q / (q ^ 2 + v ^ 2))) as [c [Hc E]].
  - intros x _. auto_derive; [exact I|]. field. split; [|lra]. assert (0 < q ^ 2) by (apply pow_lt; exact Hq). pose proof (pow2_ge_0 x). nra.
  - intros x _. apply continuity_pt_filterlim. apply (ex_derive_continuous (fun v => atan (v / q))). auto_derive. exact I.
  - rewrite E. specialize (Hv c Hc). assert (0 < q ^ 2) by (apply pow_lt; exact Hq). pose proof (pow2_ge_0 c). rewrite Rabs_mult.
    rewrite (Rmult_comm (Rabs (u - t))) || idtac. unfold Rdiv at 2. rewrite (Rmult_comm _ (/ rho)). apply Rmult_le_compat_r; [apply Rabs_pos|].
    assert (0 < q / (q ^ 2 + c ^ 2)) by (apply Rdiv_lt_0_compat; lra). rewrite Rabs_right by lra.
    apply (Rmult_le_reg_r ((q ^ 2 + c ^ 2) * rho)); [nra|]. unfold Rdiv. replace (q * / (q ^ 2 + c ^ 2) * ((q ^ 2 + c ^ 2) * rho)) with (q * rho) by (field; lra).
    replace (/ rho * ((q ^ 2 + c ^ 2) * rho)) with (q ^ 2 + c ^ 2) by (field; lra).
    destruct (Rle_dec q rho); [|destruct (Rle_dec rho q)]; nra.
Qed.
Lemma lat_next_diff z q b c : 0 < q -> 1000000000000 <= q ^ 2 + z ^ 2 ->
  Rabs (lat_next z q b - lat_next z q c) <= / 20 * Rabs (sin b - sin c).
Proof.
  intros Hq HR. unfold lat_next. fold (shift (sin b)). fold (shift (sin c)).
  pose proof (sin_sq_le b) as [_ Sb]. pose proof (sin_sq_le c) as [_ Sc].
  pose proof (shift_bound _ Sb) as Bb. pose proof (shift_bound _ Sc) as Bc. pose proof (shift_diff _ _ Sb Sc) as D.
  apply Rabs_le_between in Bb, Bc.
  eapply Rle_trans; [apply (atan2_diff q (z + shift (sin c)) (z + shift (sin b)) 950000 Hq)|]; [lra| |].
  - intros v Hv. assert (K : z - 43300 <= v <= z + 43300). { destruct Hv as [H1 H2]. split; [eapply Rle_trans; [|exact H1]; apply Rmin_glb; lra|eapply Rle_trans; [exact H2|]; apply Rmax_lub; lra]. }
    destruct (Rle_dec z 0); destruct (Rle_dec 43300 (Rabs z)) as [A|A].
    all: try (rewrite Rabs_left1 in A by lra). all: try (rewrite Rabs_right in A by lra).
    + assert ((z + 43300) ^ 2 <= v ^ 2) by nra. destruct (Rle_dec 950000 q); [nra|]. nra.
    + assert (z ^ 2 <= 1874890000) by nra. pose proof (pow2_ge_0 v). nra.
    + assert ((z - 43300) ^ 2 <= v ^ 2) by nra. nra.
    + assert (z ^ 2 <= 1874890000) by nra. pose proof (pow2_ge_0 v). nra.
  - replace (z + shift (sin b) - (z + shift (sin c))) with (shift (sin b) - shift (sin c)) by ring. pose proof (Rabs_pos (sin b - sin c)). lra.
Qed.
Lemma loop_ends z q : 0 < q -> 1000000000000 <= q ^ 2 + z ^ 2 -> forall k b, Rabs (lat_next z q b - b) <= 20 ^ k / 1000000000000 ->
  exists r, lat_loop Rops (S k) ecc z q b = Ok r.
Proof.
  intros Hq HR. induction k as [|k IH]; intros b Hb; rewrite lat_loop_R.
  - destruct (Rle_dec _ _) as [L|L]; [eauto|]. cbn [pow] in Hb. exfalso. apply L. eapply Rle_trans; [exact Hb|]. lra.
  - destruct (Rle_dec _ _) as [L|L]; [eauto|]. apply IH. eapply Rle_trans; [apply (lat_next_diff z q _ b Hq HR)|].
    pose proof (abs_sin_diff (lat_next z q b) b) as A. cbn [pow] in Hb. set (d := Rabs (sin _ - sin _)) in *. set (e := Rabs (lat_next z q b - b)) in *. lra.
Qed.
Lemma lat_loop_ends z q b : 0 < q -> 1000000000000 <= q ^ 2 + z ^ 2 -> exists r, lat_loop Rops 11 ecc z q b = Ok r.
Proof.
  intros Hq HR. rewrite lat_loop_R. destruct (Rle_dec _ _) as [L|L]; [eauto|]. apply (loop_ends z q Hq HR 9).
  eapply Rle_trans; [apply (lat_next_diff z q _ b Hq HR)|].
  assert (Rabs (sin (lat_next z q b) - sin b) <= 2). { pose proof (SIN_bound (lat_next z q b)). pose proof (SIN_bound b). apply Rabs_le; lra. }
  replace (20 ^ 9) with 512000000000 by ring. lra.
Qed.
Lemma lat_loop_more n : forall e z q b r, lat_loop Rops n e z q b = Ok r -> forall m, (n <= m)%nat -> lat_loop Rops m e z q b = Ok r.
Proof.
  induction n as [|n IH]; intros e z q b r H m Hm; [discriminate|]. destruct m as [|m]; [lia|]. cbn [lat_loop] in *. revert H.
  destruct (o_pow Rops e 2) as [e2|]; cbn [bind]; [|congruence]. destruct (o_sin Rops b) as [s|]; cbn [bind]; [|congruence]. destruct (o_pow Rops s 2) as [s2|]; cbn [bind]; [|congruence].
  destruct (o_sqrt Rops _) as [w|]; cbn [bind]; [|congruence]. destruct (o_div Rops _ w) as [v|]; cbn [bind]; [|congruence]. cbn zeta.
  destruct (o_leb Rops _ _); [auto|]. intros H. eapply IH; [exact H|lia].
Qed.
(** xyz2lbh ends for every point off the axis at least 1000 km from the centre *)
Lemma xyz2lbh_ends fuel x y z : (11 <= fuel)%nat -> 0 < x ^ 2 + y ^ 2 -> 1000000000000 <= x ^ 2 + y ^ 2 + z ^ 2 ->
  exists l b h, xyz2lbh Rops fuel x y z = Ok (l, b, h).
Proof.
  intros Hf Hq HR. rewrite xyz2lbh_R. cbn zeta. set (q := sqrt (x ^ 2 + y ^ 2)). assert (Q : 0 < q) by (apply sqrt_lt_R0; exact Hq).
  destruct (Req_EM_T q 0) as [K|_]; [lra|]. assert (Eq : q ^ 2 = x ^ 2 + y ^ 2) by (apply pow2_sqrt; lra).
  destruct (lat_loop_ends z q (z / q * 1 / (1 - E2)) Q ltac:(lra)) as [[b n] E]. rewrite (lat_loop_more _ _ _ _ _ _ E fuel Hf). eauto.
Qed.
Lemma xyz2lbh_lat fuel x y z l b h : xyz2lbh Rops fuel x y z = Ok (l, b, h) -> - (PI / 2) < b < PI / 2.
Proof.
  rewrite xyz2lbh_R. cbn zeta. set (q := sqrt (x ^ 2 + y ^ 2)). assert (Q0 : 0 <= q) by apply sqrt_pos. destruct (Req_EM_T q 0) as [Hq|Hq]; [discriminate|].
  destruct (lat_loop _ _ _ _ _ _) as [[b' n]|] eqn:E; [|discriminate]. intros K. injection K as _ <- _. apply lat_loop_ok in E as [bi [_ [-> _]]].
  unfold lat_next, Ratan2. destruct (Rlt_dec 0 q); [|lra]. match goal with |- context [atan ?a] => destruct (atan_bound a) end. lra.
Qed.
Lemma xyz2lbh_axis fuel z : xyz2lbh Rops fuel 0 0 z = Err ZeroDivisionError.
Proof. rewrite xyz2lbh_R. cbn zeta. replace (0 ^ 2 + 0 ^ 2) with 0 by ring. rewrite sqrt_0. destruct (Req_EM_T 0 0); [reflexivity|congruence]. Qed.
