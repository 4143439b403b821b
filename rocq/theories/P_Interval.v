(** Proofs about the reported observation interval (formatting and reading back). *)
From Coq Require Import ZifyBool ZifyNat Reals Lra.
From Flocq Require Import Core.Core IEEE754.BinarySingleNaN.
From Verif Require Import Base PyStr PyFloat PyDate M_Common M_Header M_Obs2.
From Verif Require Import S_Text S_Time S_Obs2 S_Open2 P_Str P_Float P_Sec P_Date P_Common P_Obs2 P_Obs2b P_Obs2c P_Open2.
Open Scope Z_scope.

Lemma good_inj x y : good x -> good y -> f2r x = f2r y -> f2r x <> 0%R -> x = y.
Proof.
  intros Hx Hy E Hn. destruct (good_B x Hx) as [bx [<- [Fx Rx]]]. destruct (good_B y Hy) as [b_ [<- [Fy Ry]]].
  f_equal. apply B2R_inj; [| |congruence].
  - destruct bx; try discriminate; [|reflexivity]. cbn in Rx, Hn. congruence.
  - destruct b_; try discriminate; [|reflexivity]. cbn in Ry. rewrite E in Hn. cbn in Hn. congruence.
Qed.
Lemma nearest64_inj x y r : nearest64 x r -> nearest64 y r -> f2r x <> 0%R -> x = y.
Proof. intros [H1 [H2 H3]] [H4 [H5 H6]] Hn. apply good_inj; [split; assumption|split; assumption|congruence|exact Hn]. Qed.

(** the text of an interval of q milliseconds *)
Lemma interval_text q : 0 <= q < 10 ^ 9 -> exists ip fp b,
  pad_left " "%char 10 (fixed_str false q 3) = b ++ ip ++ "."%char :: fp /\ blanks b /\ digits ip /\ digits fp /\
  ip <> [] /\ length fp = 3%nat /\ (length b + length ip = 6)%nat /\ dec_value (ip ++ fp) = q /\ dec_value ip = q / 1000.
Proof.
  intros Hq. unfold fixed_str. cbn [app]. change (10 ^ Z.of_nat 3) with 1000.
  destruct (nat_str_spec (q / 1000)) as [H1 [H2 [H3 H4]]]; [apply Z.div_pos; lia|].
  destruct (pad_left_digits 3 (q mod 1000)) as [H5 [H6 H7]]; [change (10 ^ Z.of_nat 3) with 1000; apply Z.mod_pos_bound; lia|lia|].
  set (ip := nat_str (q / 1000)) in *. set (fp := pad_left "0"%char 3 (nat_str (q mod 1000))) in *. clearbody ip fp.
  assert (H8 : (length ip <= 6)%nat).
  { apply H4; [lia|]. change (10 ^ Z.of_nat 6) with 1000000. apply Z.div_lt_upper_bound; [lia|]. change (10 ^ 9) with (1000 * 1000000) in Hq. lia. }
  exists ip, fp, (spaces (6 - length ip)). unfold pad_left. rewrite app_length. cbn [length]. rewrite H6.
  replace (10 - (length ip + 4))%nat with (6 - length ip)%nat by lia. split; [reflexivity|].
  split; [apply spaces_blanks|]. split; [exact H1|]. split; [exact H5|]. split; [exact H2|]. split; [first [exact H6|reflexivity]|].
  split; [unfold spaces, repeat_c; rewrite repeat_length; lia|]. split; [|exact H3].
  rewrite dec_value_app, H3, H6, H7. change (10 ^ Z.of_nat 3) with 1000. pose proof (Z.div_mod q 1000 ltac:(lia)). lia.
Qed.

Lemma set_interval_float v q : 0 <= q < 10 ^ 9 -> ver_is20 v = false ->
  exists f, set_interval v (pad_left " "%char 10 (fixed_str false q 3)) = Ok (PFloat f) /\ nearest64 f (dec_real false q 3).
Proof.
  intros Hq Hv. destruct (interval_text q Hq) as [ip [fp [b [-> [Hb [Hi [Hf [Hn [Hl [Hbl [Hd _]]]]]]]]]]].
  unfold set_interval. rewrite Hv.
  replace (slice 0 10 (b ++ ip ++ "."%char :: fp)) with (b ++ ip ++ "."%char :: fp).
  2:{ unfold slice. cbn [skipn]. rewrite firstn_all2; [reflexivity|]. rewrite !app_length. cbn [length]. lia. }
  assert (Hfix : fix_field 10 3 (b ++ ip ++ "."%char :: fp) false q).
  { split; [rewrite !app_length; cbn [length]; lia|]. exists b, ip, fp. split; [reflexivity|]. repeat (split; [assumption|]).
    split; [destruct ip; [congruence|discriminate]|congruence]. }
  destruct (py_float_fix _ _ _ _ _ Hfix ltac:(lia)) as [f [H1 [_ H2]]]. exists f. rewrite H1. split; [reflexivity|exact H2].
Qed.
Lemma set_interval_int v q : 0 <= q < 10 ^ 9 -> ver_is20 v = true ->
  set_interval v (pad_left " "%char 10 (fixed_str false q 3)) = Ok (PInt (q / 1000)).
Proof.
  intros Hq Hv. destruct (interval_text q Hq) as [ip [fp [b [-> [Hb [Hi [Hf [Hn [Hl [Hbl [_ Hd]]]]]]]]]]].
  unfold set_interval. rewrite Hv. rewrite app_assoc, slice_0 by (rewrite app_length; lia).
  rewrite (py_int_field 6 (b ++ ip) (q / 1000)); [reflexivity|]. split; [rewrite app_length; lia|].
  exists b, ip. auto.
Qed.

(** milliseconds printed for a difference of us microseconds *)
Lemma fmt_interval us : 0 < us < 999999000000 -> exists s q, fmt_f 3 (total_seconds us) = fixed_str s q 3 /\
  (s = true -> q = 0) /\ 0 <= q < 10 ^ 9 /\ (500 < us -> 0 < q) /\ (us mod 1000 = 0 -> q = us / 1000).
Proof.
  intros Hus. assert (Hb : Z.abs us <= 2 ^ 1000).
  { apply Z.le_trans with (2 ^ 40); [change (2 ^ 40) with 1099511627776; lia|]. apply Z.pow_le_mono_r; lia. }
  destruct (total_seconds_nearest us Hb) as [Hv [Hf HX]]. set (x := total_seconds us) in *. clearbody x.
  replace (us <? 0) with false in HX by lia. rewrite Z.abs_eq in HX by lia.
  set (y := dec_real false us 6) in *.
  assert (Hy : (y = IZR us / 1000000)%R).
  { unfold y, dec_real. replace (10 ^ 6)%R with (IZR 1000000) by (rewrite (pow_IZR 10 6); reflexivity). field. }
  assert (Hu0 : (1 <= IZR us <= 999999000000)%R) by (split; apply IZR_le; lia).
  assert (Hy0 : (0 < y < 999999)%R).
  { rewrite Hy. unfold Rdiv. split; [apply Rmult_lt_0_compat; lra|].
    apply (Rmult_lt_reg_r 1000000); [lra|]. rewrite Rmult_assoc, Rinv_l by lra.
    assert (IZR us < 999999000000)%R by (apply IZR_lt; lia). lra. }
  assert (He : (Rabs (rnd64 y - y) <= bpow radix2 (20 - 54))%R).
  { apply rnd_error; [lia|]. rewrite Rabs_pos_eq by lra. change (bpow radix2 20) with 1048576%R. lra. }
  assert (Hbb : (bpow radix2 (20 - 54) < / 10000000000)%R).
  { change (20 - 54) with (-34). rewrite bpow_neg_IZR by lia. apply Rinv_lt_contravar.
    - rewrite <- mult_IZR. apply IZR_lt. reflexivity.
    - apply IZR_lt. reflexivity. }
  assert (Hx0 : (0 <= f2r x)%R) by (rewrite HX; apply rnd_nonneg; lra).
  destruct (fmt_f_nonneg 3 x (conj Hv Hf) Hx0) as [s [q [H1 [H2 H3]]]]. exists s, q. split; [exact H1|]. split; [exact H3|].
  rewrite HX in H2. change (IZR (10 ^ Z.of_nat 3)) with 1000%R in H2. apply Rabs_le_inv in He.
  set (r := rnd64 y) in *. clearbody r.
  assert (Hr : (y - / 10000000000 < r < y + / 10000000000)%R) by lra.
  assert (Hlo : (0 <= ZnearestE (r * 1000))%Z).
  { rewrite HX in Hx0. apply (Znearest_ge_floor (fun x => negb (Z.even x)) _) || idtac.
    assert (Hfl : (0 <= Zfloor (r * 1000))%Z) by (apply Zfloor_lub; cbn; lra).
    pose proof (Znearest_ge_floor (fun x => negb (Z.even x)) (r * 1000)). lia. }
  assert (Hhi : (ZnearestE (r * 1000) < 10 ^ 9)%Z).
  { pose proof (Znearest_le_ceil (fun x => negb (Z.even x)) (r * 1000)).
    assert (Zceil (r * 1000) <= 999999001)%Z by (apply Zceil_glb; cbn; lra). change (10 ^ 9) with 1000000000. lia. }
  split; [lia|]. split.
  - intros H5. assert (Hu5 : (501 <= IZR us)%R) by (apply IZR_le; lia).
    assert (Hy5 : (0.000501 <= y)%R) by (rewrite Hy; lra).
    assert (Hz : (1 <= ZnearestE (r * 1000))%Z); [|lia].
    destruct (Z_le_gt_dec 1 (ZnearestE (r * 1000))) as [|Hgt]; [assumption|exfalso].
    assert (Hz0 : ZnearestE (r * 1000) = 0) by lia.
    pose proof (Znearest_half (fun x => negb (Z.even x)) (r * 1000)) as Hh. rewrite Hz0 in Hh. apply Rabs_le_inv in Hh. lra.
  - intros Hm. rewrite H2. apply Znearest_imp.
    assert (Hq : (IZR us = IZR (us / 1000) * 1000)%R).
    { rewrite <- mult_IZR. f_equal. pose proof (Z.div_mod us 1000 ltac:(lia)). lia. }
    apply Rabs_def1; rewrite Hy, Hq in Hr; lra.
Qed.

Lemma fixed_str_sign s q k : 0 <= q -> (s = true -> q = 0) -> 0 < q -> fixed_str s q k = fixed_str false q k.
Proof. intros H1 H2 H3. destruct s; [specialize (H2 eq_refl); lia|reflexivity]. Qed.

(** a positive interval of at least 501 microseconds is reported as a positive number,
    exactly when it is a whole number of milliseconds (seconds for version 2.00) *)
Lemma interval_reported v us : 500 < us < 999999000000 -> exists iv, set_interval v (fmt_wf 10 3 (total_seconds us)) = Ok iv /\
  match iv with
  | PFloat f => ver_is20 v = false /\ (0 < f2r f)%R /\ (us mod 1000 = 0 -> f = total_seconds us)
  | PInt n => ver_is20 v = true /\ 0 <= n /\ (us mod 1000000 = 0 -> n = us / 1000000 /\ 0 < n)
  end.
Proof.
  intros Hus. destruct (fmt_interval us ltac:(lia)) as [s [q [H1 [H2 [H3 [H4 H5]]]]]].
  specialize (H4 ltac:(lia)). unfold fmt_wf. rewrite H1, fixed_str_sign by (try assumption; lia).
  destruct (ver_is20 v) eqn:Ev.
  - rewrite set_interval_int by (try assumption; lia). eexists. split; [reflexivity|]. split; [reflexivity|].
    split; [apply Z.div_pos; lia|]. intros Hm.
    assert (Hm3 : us mod 1000 = 0).
    { pose proof (Z.div_mod us 1000000 ltac:(lia)) as Hd. rewrite Hm in Hd.
      rewrite Hd. replace (1000000 * (us / 1000000) + 0) with (1000 * (us / 1000000) * 1000) by lia. apply Z_mod_mult. }
    rewrite (H5 Hm3). rewrite Z.div_div by lia. change (1000 * 1000) with 1000000. split; [reflexivity|].
    pose proof (Z.div_mod us 1000000 ltac:(lia)). lia.
  - destruct (set_interval_float v q H3 Ev) as [f [Hf1 Hf2]]. exists (PFloat f). split; [exact Hf1|]. split; [reflexivity|].
    assert (Hpos : (0 < f2r f)%R).
    { destruct Hf2 as [_ [_ ->]]. assert (Hq1 : (/ 1000 <= dec_real false q 3)%R).
      { unfold dec_real. replace (10 ^ 3)%R with 1000%R by (rewrite (pow_IZR 10 3); reflexivity).
        assert (1 <= IZR q)%R by (apply IZR_le; lia). lra. }
      apply Rlt_le_trans with (rnd64 (bpow radix2 (-10))).
      - rewrite round_generic; [apply bpow_gt_0|typeclasses eauto|]. apply generic_format_bpow. unfold FLT_exp. lia.
      - apply round_le; try typeclasses eauto. eapply Rle_trans; [|exact Hq1]. rewrite bpow_neg_IZR by lia.
        change (IZR (2 ^ - -10)) with 1024%R. lra. }
    split; [exact Hpos|]. intros Hm. apply (nearest64_inj f (total_seconds us) (dec_real false q 3) Hf2); [|lra].
    replace (dec_real false q 3) with (dec_real (us <? 0) (Z.abs us) 6).
    + apply total_seconds_nearest. apply Z.le_trans with (2 ^ 40); [change (2 ^ 40) with 1099511627776; lia|]. apply Z.pow_le_mono_r; lia.
    + replace (us <? 0) with false by lia. rewrite Z.abs_eq by lia. rewrite (H5 Hm). unfold dec_real.
      replace (10 ^ 3)%R with 1000%R by (rewrite (pow_IZR 10 3); reflexivity).
      replace (10 ^ 6)%R with 1000000%R by (rewrite (pow_IZR 10 6); reflexivity).
      assert (Hq : (IZR us = IZR (us / 1000) * 1000)%R).
      { rewrite <- mult_IZR. f_equal. pose proof (Z.div_mod us 1000 ltac:(lia)). lia. }
      rewrite Hq. field.
Qed.
