(** Seconds are split into whole seconds and microseconds exactly (error analysis). *)
From Coq Require Import Reals Lra ZifyBool ZifyNat.
From Flocq Require Import Core.Core IEEE754.BinarySingleNaN.
From Verif Require Import Base PyStr PyFloat M_Common S_Text P_Str P_Float.
Open Scope Z_scope.

Lemma rnd_error y e : (-1000 <= e) -> (Rabs y < bpow radix2 e)%R -> (Rabs (rnd64 y - y) <= bpow radix2 (e - 54))%R.
Proof.
  intros He Hy. destruct (Req_dec y 0) as [->|Hnz].
  { rewrite round_0 by typeclasses eauto. rewrite Rminus_0_r, Rabs_R0. apply bpow_ge_0. }
  eapply Rle_trans; [apply error_le_half_ulp; typeclasses eauto|].
  rewrite ulp_neq_0 by exact Hnz. unfold cexp, FLT_exp.
  replace (bpow radix2 (e - 54)) with (/ 2 * bpow radix2 (e - 53))%R.
  2:{ replace (e - 53) with ((e - 54) + 1) by lia. rewrite bpow_plus. change (bpow radix2 1) with 2%R. lra. }
  apply Rmult_le_compat_l; [lra|]. apply bpow_le.
  pose proof (mag_le_bpow radix2 y e Hnz Hy). lia.
Qed.

Lemma rnd_IZR n : Z.abs n <= 2 ^ 53 -> rnd64 (IZR n) = IZR n.
Proof. intros H. destruct (float_of_Z_correct n H) as [[H1 H2] H3]. rewrite <- H3.
  destruct (good_B _ (conj H1 H2)) as [b [Eb [Fb Rb]]]. rewrite <- Rb. apply round_generic; [typeclasses eauto|].
  apply generic_format_B2R.
Qed.

Lemma rnd_nonneg y : (0 <= y)%R -> (0 <= rnd64 y)%R.
Proof. intros H. rewrite <- (rnd_IZR 0) by lia. apply round_le; try typeclasses eauto. exact H. Qed.

Lemma trunc_rnd y z : 0 <= z < 2 ^ 20 -> (IZR z <= y <= IZR z + 1 - / 10000000)%R -> Ztrunc (rnd64 y) = z.
Proof.
  intros Hz [Hy1 Hy2].
  assert (Hz0 : (0 <= IZR z)%R) by (apply IZR_le; lia).
  assert (Hz1 : (IZR z + 1 <= 1048576)%R). { rewrite <- plus_IZR. apply IZR_le. change (2 ^ 20) with 1048576 in Hz. lia. }
  assert (H0 : (IZR z <= rnd64 y)%R).
  { rewrite <- (rnd_IZR z) by lia. apply round_le; try typeclasses eauto. exact Hy1. }
  assert (He : (Rabs (rnd64 y - y) <= bpow radix2 (21 - 54))%R).
  { apply rnd_error; [lia|]. rewrite Rabs_pos_eq by lra. change (bpow radix2 21) with 2097152%R. lra. }
  assert (Hb : (bpow radix2 (21 - 54) < / 100000000)%R).
  { change (21 - 54) with (-33). rewrite bpow_neg_IZR by lia. apply Rinv_lt_contravar.
    - rewrite <- mult_IZR. apply IZR_lt. reflexivity.
    - apply IZR_lt. reflexivity. }
  apply Rabs_le_inv in He.
  rewrite Ztrunc_floor by lra. apply Zfloor_imp. rewrite plus_IZR. split; lra.
Qed.

Lemma fmt_f_nonneg k x : good x -> (0 <= f2r x)%R ->
  exists s q, fmt_f k x = fixed_str s q k /\ q = ZnearestE (f2r x * IZR (10 ^ Z.of_nat k)) /\ (s = true -> q = 0).
Proof.
  intros [_ Hf] Hx. destruct x as [s|s| |s m e]; try discriminate.
  - exists s, 0. cbn [fmt_f SF2R]. repeat split. rewrite Rmult_0_l. symmetry. apply (Znearest_imp _ 0 0).
    rewrite Rminus_0_r, Rabs_R0. lra.
  - exists s, (scaled m e (Z.of_nat k)). cbn [fmt_f]. split; [reflexivity|]. destruct s.
    + exfalso. rewrite SF2R_finite in Hx. unfold sgn in Hx.
      assert (0 < IZR (Z.pos m) * bpow radix2 e)%R by (apply Rmult_lt_0_compat; [apply IZR_lt; lia|apply bpow_gt_0]). lra.
    + split; [|discriminate]. rewrite scaled_correct by lia. rewrite SF2R_finite. unfold sgn. now rewrite Rmult_1_l.
Qed.

Lemma split_sec_near k n sec : (1 <= k <= 5)%nat -> 0 <= n < 1270000000 -> nearest64 sec (dec_real false n 7) ->
  split_sec k sec = Ok (n / 10000000, n mod 10000000 / 10).
Proof.
  intros Hk Hn [Hv [Hf HX]]. unfold split_sec.
  set (i := n / 10000000). set (j := n mod 10000000).
  assert (Hdm : n = 10000000 * i + j) by (apply Z.div_mod; lia).
  assert (Hj : 0 <= j < 10000000) by (apply Z.mod_pos_bound; lia).
  assert (Hi : 0 <= i < 127) by (unfold i; split; [apply Z.div_pos; lia|apply Z.div_lt_upper_bound; lia]).
  assert (Hx : (dec_real false n 7 = IZR i + IZR j / 10000000)%R).
  { unfold dec_real. rewrite Hdm, plus_IZR, mult_IZR.
    replace (10 ^ 7)%R with (IZR 10000000) by (rewrite (pow_IZR 10 7); reflexivity). field. }
  rewrite Hx in HX. set (x := (IZR i + IZR j / 10000000)%R) in *.
  assert (Hj0 : (0 <= IZR j <= 9999999)%R) by (split; apply IZR_le; lia).
  assert (Hi0 : (0 <= IZR i <= 126)%R) by (split; apply IZR_le; lia).
  (* whole seconds *)
  assert (Ht : Ztrunc (f2r sec) = i).
  { rewrite HX. apply trunc_rnd; [cbn; lia|]. unfold x. split; lra. }
  rewrite float_to_int_correct by exact Hf. rewrite Ht. cbn [bind].
  assert (HX0 : (IZR i <= f2r sec)%R).
  { rewrite HX, <- (rnd_IZR i) by lia. apply round_le; try typeclasses eauto. unfold x. lra. }
  assert (HXe : (Rabs (f2r sec - x) <= bpow radix2 (7 - 54))%R).
  { rewrite HX. apply rnd_error; [lia|]. unfold x. rewrite Rabs_pos_eq by lra. change (bpow radix2 7) with 128%R. lra. }
  assert (Hb47 : (bpow radix2 (7 - 54) = / IZR (2 ^ 47))%R) by (rewrite bpow_neg_IZR by lia; reflexivity).
  rewrite Hb47 in HXe. change (2 ^ 47) with 140737488355328 in HXe. apply Rabs_le_inv in HXe.
  assert (Hbig : forall r, (Rabs r <= 10000000)%R -> (Rabs r <= big)%R).
  { intros r Hr. eapply Rle_trans; [exact Hr|]. apply big_IZR. apply Z.le_trans with (2 ^ 24); [lia|apply Z.pow_le_mono_r; lia]. }
  assert (Hfr : (0 <= f2r sec - IZR i <= 1)%R) by (unfold x in HXe; split; lra).
  (* the fraction *)
  destruct (float_of_Z_correct i) as [Hgi Hvi]; [lia|].
  destruct (fsub_correct sec (float_of_Z i)) as [HgD HD]; [split; assumption|exact Hgi| |].
  { rewrite Hvi. apply Hbig. rewrite Rabs_pos_eq; lra. }
  rewrite Hvi in HD. set (D := fsub sec (float_of_Z i)) in *. clearbody D.
  assert (HDe : (Rabs (f2r D - (f2r sec - IZR i)) <= bpow radix2 (1 - 54))%R).
  { rewrite HD. apply rnd_error; [lia|]. rewrite Rabs_pos_eq by lra. change (bpow radix2 1) with 2%R. lra. }
  assert (Hb53 : (bpow radix2 (1 - 54) = / IZR (2 ^ 53))%R) by (rewrite bpow_neg_IZR by lia; reflexivity).
  rewrite Hb53 in HDe. change (2 ^ 53) with 9007199254740992 in HDe. apply Rabs_le_inv in HDe.
  assert (HD0 : (0 <= f2r D)%R) by (rewrite HD; apply rnd_nonneg; lra).
  (* times 1e6 *)
  destruct (float_of_Z_correct 1000000) as [Hg6 Hv6]; [lia|]. fold f1e6 in Hg6, Hv6.
  destruct (fmul_correct D f1e6) as [HgP HP]; [exact HgD|exact Hg6| |].
  { rewrite Hv6. apply Hbig. rewrite Rabs_pos_eq by lra. lra. }
  rewrite Hv6 in HP. set (P := fmul D f1e6) in *. clearbody P.
  assert (HPe : (Rabs (f2r P - f2r D * 1000000) <= bpow radix2 (20 - 54))%R).
  { rewrite HP. apply rnd_error; [lia|]. rewrite Rabs_pos_eq by lra. change (bpow radix2 20) with 1048576%R. lra. }
  assert (Hb34 : (bpow radix2 (20 - 54) = / IZR (2 ^ 34))%R) by (rewrite bpow_neg_IZR by lia; reflexivity).
  rewrite Hb34 in HPe. change (2 ^ 34) with 17179869184 in HPe. apply Rabs_le_inv in HPe.
  assert (HP0 : (0 <= f2r P)%R) by (rewrite HP; apply rnd_nonneg; lra).
  assert (HPj : (Rabs (f2r P - IZR j / 10) <= / 1000000)%R) by (apply Rabs_le; unfold x in HXe; split; lra).
  (* "%.kf" *)
  destruct (fmt_f_nonneg k P HgP HP0) as [s [q [Hfmt [Hq Hs]]]]. rewrite Hfmt.
  assert (Hq' : q = j * 10 ^ (Z.of_nat k - 1)).
  { rewrite Hq. apply Znearest_imp.
    assert (Hpk : (10 ^ Z.of_nat k = 10 * 10 ^ (Z.of_nat k - 1))) by (rewrite <- Z.pow_succ_r by lia; f_equal; lia).
    rewrite Hpk, !mult_IZR. set (t := IZR (10 ^ (Z.of_nat k - 1))).
    assert (Ht' : (0 < t <= 10000)%R).
    { unfold t. split; [apply IZR_lt, Z.pow_pos_nonneg; lia|]. apply IZR_le. change 10000 with (10 ^ 4). apply Z.pow_le_mono_r; lia. }
    replace (f2r P * (10 * t) - IZR j * t)%R with ((f2r P - IZR j / 10) * (10 * t))%R by field.
    rewrite Rabs_mult, (Rabs_pos_eq (10 * t)) by lra.
    apply Rle_lt_trans with (/ 1000000 * (10 * t))%R; [apply Rmult_le_compat_r; lra|lra]. }
  unfold py_float, py_float_opt. assert (Hq0 : 0 <= q) by (rewrite Hq'; apply Z.mul_nonneg_nonneg; [lia|apply Z.pow_nonneg; lia]).
  rewrite float_lit_fixed_str by lia. cbn [option_map of_option float_of_lit bind].
  assert (Hqb : q <= 2 ^ 1000).
  { rewrite Hq'. apply Z.le_trans with (10000000 * 10000).
    - apply Z.mul_le_mono_nonneg; [lia|lia|apply Z.pow_nonneg; lia|]. change 10000 with (10 ^ 4). apply Z.pow_le_mono_r; lia.
    - apply Z.le_trans with (2 ^ 40); [cbn; lia|apply Z.pow_le_mono_r; lia]. }
  destruct (b64_of_dec_nearest s q k) as [Hv' [Hf' HM]]; [lia|].
  rewrite float_to_int_correct by exact Hf'. cbn [bind]. f_equal. f_equal.
  rewrite HM.
  assert (Hval : (dec_real s q k = IZR j / 10)%R).
  { unfold dec_real. assert (Hsq : ((if s then -1 else 1) * IZR q = IZR q)%R).
    { destruct s; [rewrite (Hs eq_refl)|]; lra. }
    rewrite Hsq, Hq', mult_IZR. rewrite (pow_IZR 10 k).
    replace (10 ^ Z.of_nat k) with (10 * 10 ^ (Z.of_nat k - 1)) by (rewrite <- Z.pow_succ_r by lia; f_equal; lia).
    rewrite mult_IZR. field. apply not_0_IZR. assert (0 < 10 ^ (Z.of_nat k - 1)) by (apply Z.pow_pos_nonneg; lia). lia. }
  rewrite Hval. apply trunc_rnd.
  - split; [apply Z.div_pos; lia|]. apply Z.div_lt_upper_bound; lia.
  - pose proof (Z.div_mod j 10 ltac:(lia)) as Hd10. pose proof (Z.mod_pos_bound j 10 ltac:(lia)) as Hm10.
    assert (Hr : (IZR j = 10 * IZR (j / 10) + IZR (j mod 10))%R) by (rewrite <- mult_IZR, <- plus_IZR; f_equal; exact Hd10).
    assert (0 <= IZR (j mod 10) <= 9)%R by (split; apply IZR_le; lia). split; lra.
Qed.

Lemma split_sec_exact k n : (1 <= k <= 5)%nat -> 0 <= n < 1270000000 ->
  split_sec k (b64_of_dec false n (-7)) = Ok (n / 10000000, n mod 10000000 / 10).
Proof.
  intros Hk Hn. apply split_sec_near; [exact Hk|exact Hn|].
  change (-7) with (- Z.of_nat 7). apply b64_of_dec_nearest.
  split; [lia|]. eapply Z.le_trans with (2 ^ 31); [lia|]. apply Z.pow_le_mono_r; lia.
Qed.
