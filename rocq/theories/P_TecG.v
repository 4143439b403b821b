(** Rounding errors of the TEC values, continued. *)
From Coq Require Import Reals Lra Psatz.
From Flocq Require Import Core Relative.
From Verif Require Import Base PyStr PyFloat S_Text P_Str P_Float P_Div P_NmUtils M_Num M_Label M_Tec S_Tec P_Tec P_TecF P_TecE.
Open Scope R_scope.

Lemma mid_between k x a b : a <= Rabs x <= b -> / IZR (2 ^ k) <= a -> b <= IZR (2 ^ k) -> mid k x.
Proof. unfold mid. lra. Qed.
Lemma inv_pow_le k a n : 0 < a -> 1 <= a * IZR n -> (0 < n <= 2 ^ k)%Z -> / IZR (2 ^ k) <= a.
Proof.
  intros Ha H [Hn Hk]. apply IZR_le in Hk. apply IZR_lt in Hn. apply (Rmult_le_reg_l (IZR (2 ^ k))); [lra|]. rewrite Rinv_r by lra. nra.
Qed.
Lemma lit_near neg a k : (0 < a <= 2 ^ 1000)%Z -> dec_real neg a k <> 0 -> bpow radix2 (-1022) <= Rabs (dec_real neg a k) ->
  near (b64_of_dec neg a (- Z.of_nat k)) (dec_real neg a k) 1.
Proof.
  intros Ha _ H. destruct (b64_of_dec_nearest neg a k) as [V [F E]]; [lia|]. split; [split; assumption|]. rewrite E. apply rel_rnd. now right.
Qed.
Lemma k40_near m : near (k40 (Fops m)) 40.308 1 /\ mid 6 40.308.
Proof.
  split.
  - replace 40.308 with (dec_real false 40308 3) by (unfold dec_real; cbn; lra). apply (lit_near false 40308 3).
    + split; [lia|]. vm_compute; discriminate.
    + unfold dec_real; cbn; lra.
    + replace (Rabs (dec_real false 40308 3)) with 40.308 by (unfold dec_real; cbn; rewrite Rabs_right; lra).
      assert (bpow radix2 (-1022) <= bpow radix2 0) by (apply bpow_le; lia). cbn in H. cbn. lra.
  - apply (mid_between _ _ 40.308 40.308); [rewrite Rabs_right; lra| |change (2 ^ 6)%Z with 64%Z; lra]. change (2 ^ 6)%Z with 64%Z. lra.
Qed.
Lemma tecu_near m : near (tecu (Fops m)) (/ 10000000000000000) 1 /\ mid 54 (/ 10000000000000000).
Proof.
  assert (E : dec_real false 1 16 = / 10000000000000000).
  { unfold dec_real. rewrite Rmult_1_l. unfold Rdiv. rewrite Rmult_1_l. f_equal. lra. }
  assert (P : 0 < / 10000000000000000) by (apply Rinv_0_lt_compat; lra).
  split.
  - rewrite <- E. apply (lit_near false 1 16).
    + split; [lia|]. vm_compute; discriminate.
    + rewrite E. lra.
    + rewrite E. rewrite Rabs_right by lra. apply Rle_trans with (bpow radix2 (-54)); [apply bpow_le; lia|].
      rewrite (bpow_small (-54)) by lia. change (2 ^ (- -54))%Z with 18014398509481984%Z. apply Rinv_le_contravar; lra.
  - apply (mid_between _ _ (/ 10000000000000000) (/ 10000000000000000)); [rewrite Rabs_right; lra| |].
    + change (2 ^ 54)%Z with 18014398509481984%Z. apply Rinv_le_contravar; lra.
    + change (2 ^ 54)%Z with 18014398509481984%Z. assert (/ 10000000000000000 <= / 1) by (apply Rinv_le_contravar; lra). lra.
Qed.
Lemma exact_near x n : exactly x n -> near x (IZR n) 0.
Proof. intros [G E]. split; [exact G|]. rewrite E. apply rel_refl. lra. Qed.
Lemma int_near m n : (0 <= n < 2 ^ 53)%Z -> o_lit (Fops m) n 0 = float_of_Z n -> near (o_int (Fops m) n) (IZR n) 0.
Proof. intros H E. unfold o_int. rewrite E. apply exact_near. apply float_of_Z_correct. lia. Qed.
Lemma float_near x : good x -> near x (f2r x) 0.
Proof. intros H. split; [exact H|]. apply rel_refl. lra. Qed.

Section Carrier.
Variable m : libm.
Lemma square_near f : carrier m f -> o_pow (Fops m) f 2 = Ok (l_pow m f 2) /\ near (l_pow m f 2) (real f * real f) 2 /\ mid 62 (real f * real f).
Proof.
  intros [G [B [Gs Hs]]]. assert (Q : 1000000000000000000 <= real f * real f <= 4000000000000000000) by nra. repeat split.
  - cbn [o_pow Fops]. unfold float_pow. destruct Gs as [_ F]. destruct (l_pow m f 2); try discriminate F; reflexivity.
  - exact (proj1 Gs).
  - exact (proj2 Gs).
  - exists ((real (l_pow m f 2) - real f * real f) / (real f * real f)). split.
    + unfold real in *. field. nra.
    + unfold Rdiv. rewrite Rabs_mult, Rabs_inv, (Rabs_right (real f * real f)) by lra.
      apply (Rmult_le_reg_r (real f * real f)); [lra|]. rewrite Rmult_assoc, Rinv_l, Rmult_1_r by lra. eapply Rle_trans; [exact Hs|].
      unfold u53. lra.
  - rewrite Rabs_right by lra. apply (inv_pow_le _ _ 1); [lra|lra|]. split; [lia|]. vm_compute; discriminate.
  - rewrite Rabs_right by lra. change (2 ^ 62)%Z with 4611686018427387904%Z. lra.
Qed.

Definition factor (f1 f2 : float) : R := 1 / 40.308 * ((real f1 * real f1) * (real f2 * real f2)) / (real f1 * real f1 - real f2 * real f2) * / 10000000000000000.
Lemma factor_near f1 f2 : carrier m f1 -> carrier m f2 -> apart f1 f2 ->
  exists k, tec_factor (Fops m) f1 f2 = Ok k /\ near k (factor f1 f2) 75 /\ mid 270 (factor f1 f2).
Proof.
  intros H1 H2 Ha. destruct (square_near _ H1) as [E1 [N1 M1]]. destruct (square_near _ H2) as [E2 [N2 M2]].
  destruct H1 as [G1 [B1 _]], H2 as [G2 [B2 _]]. unfold apart in Ha. unfold tec_factor.
  destruct (k40_near m) as [Nk Mk]. destruct (tecu_near m) as [Nt Mt].
  assert (None : near (o_int (Fops m) 1) 1 0) by (apply int_near; [lia|vm_compute; reflexivity]).
  assert (Mone : mid 0 1) by (unfold mid; rewrite Rabs_R1; cbn; lra).
  destruct (near_div 0 6 _ _ _ _ _ _ None Nk) as [a [Ea [Na Ma]]]; [lra|lra|exact Mone|exact Mk|lia|lia|lra|].
  cbn [o_div Fops]. rewrite Ea. cbn [bind]. rewrite E1. cbn [bind]. rewrite E2. cbn [bind o_mul o_sub Fops].
  destruct (near_mul 62 62 _ _ _ _ _ _ N1 N2) as [N3 M3]; [lra|lra|exact M1|exact M2|lia|lia|lra|].
  destruct (near_mul 6 124 _ _ _ _ _ _ Na N3) as [N4 M4]; [lra|lra|exact Ma|exact M3|lia|lia|lra|].
  set (F1 := real f1 * real f1) in *. set (F2 := real f2 * real f2) in *.
  assert (Q1 : 1000000000000000000 <= F1 <= 4000000000000000000) by (unfold F1; nra).
  assert (Q2 : 1000000000000000000 <= F2 <= 4000000000000000000) by (unfold F2; nra).
  assert (Md : mid 62 (F1 - F2)).
  { apply (mid_between _ _ 1 4000000000000000000).
    - split; [lra|]. apply Rabs_le. lra.
    - apply (inv_pow_le _ _ 1); [lra|lra|]. split; [lia|]. vm_compute; discriminate.
    - change (2 ^ 62)%Z with 4611686018427387904%Z. lra. }
  assert (Nz : F1 - F2 <> 0) by (apply (mid_inv 62 _ Md); lia).
  assert (Nd : near (fsub (l_pow m f1 2) (l_pow m f2 2)) (F1 - F2) 52).
  { destruct N1 as [G1' R1], N2 as [G2' R2]. pose proof u53_pos as Hu.
    assert (R3 : rel (f2r (l_pow m f1 2) - f2r (l_pow m f2 2)) (F1 - F2) 50).
    { destruct R1 as [d1 [Q3 D1]], R2 as [d2 [Q4 D2]]. rewrite Q3, Q4. exists ((F1 * d1 - F2 * d2) / (F1 - F2)). split; [field; exact Nz|].
      unfold Rdiv. rewrite Rabs_mult, Rabs_inv.
      assert (P : 0 < Rabs (F1 - F2)) by now apply Rabs_pos_lt. apply (Rmult_le_reg_r (Rabs (F1 - F2))); [exact P|]. rewrite Rmult_assoc, Rinv_l, Rmult_1_r by lra.
      eapply Rle_trans with (2 * u53 * (F1 + F2)).
      - apply Rabs_le_inv in D1, D2. apply Rabs_le. nra.
      - nra. }
    pose proof (mid_rel _ _ _ _ Md R3 ltac:(lra) ltac:(lia)) as M5. destruct (mid_good _ _ M5) as [B S]; [lia|].
    destruct (fsub_correct _ _ G1' G2' B) as [G E]. split; [exact G|]. rewrite E.
    eapply rel_weaken; [apply (rel_trans _ _ _ _ _ (rel_rnd _ S) R3); lra|lra]. }
  destruct (near_div 130 62 _ _ _ _ _ _ N4 Nd) as [q [Eq [Nq Mq]]]; [lra|lra|exact M4|exact Md|lia|lia|lra|].
  rewrite Eq. cbn [bind]. eexists. split; [reflexivity|].
  destruct (near_mul 192 54 _ _ _ _ _ _ Nq Nt) as [N5 M5]; [lra|lra|exact Mq|exact Mt|lia|lia|lra|].
  split; [|eapply mid_mono; [exact M5|lia]]. destruct N5 as [G R]. split; [exact G|]. eapply rel_weaken; [exact R|lra].
Qed.
Lemma factor_real f1 f2 : carrier m f1 -> carrier m f2 -> apart f1 f2 ->
  tec_factor Rops (real f1) (real f2) = Ok (factor f1 f2) /\ real f1 <> 0 /\ real f2 <> 0.
Proof.
  intros [_ [B1 _]] [_ [B2 _]] Ha. assert (N : real f1 <> real f2).
  { intros E. unfold apart in Ha. rewrite E in Ha. rewrite Rminus_diag_eq, Rabs_R0 in Ha by reflexivity. nra. }
  rewrite factor_R by lra. split; [|lra]. unfold factor. do 2 f_equal. f_equal; [|ring]. f_equal. ring.
Qed.

(** the pseudorange combination *)
Lemma fmt_mult52 x : good x -> 1 <= f2r x -> exists n, f2r x = IZR n * bpow radix2 (-52).
Proof.
  intros G H. assert (Fm : generic_format radix2 fexp64 (f2r x)).
  { rewrite <- (rnd_fmt x G). apply generic_format_round; typeclasses eauto. }
  assert (Mg : (1 <= mag radix2 (f2r x))%Z).
  { apply mag_ge_bpow. cbn. rewrite Rabs_right; lra. }
  rewrite Fm. set (mm := Ztrunc _). unfold F2R. cbn [Fnum Fexp]. unfold cexp, FLT_exp.
  set (e := Z.max _ _). assert (He : (-52 <= e)%Z) by (unfold e; lia). exists (mm * 2 ^ (e + 52))%Z.
  rewrite mult_IZR. change 2%Z with (radix_val radix2). rewrite IZR_Zpower by lia. rewrite Rmult_assoc, <- bpow_plus. f_equal. f_equal. lia.
Qed.
Lemma diff_mid p q : pseudorange p -> pseudorange q -> real q - real p = 0 \/ mid 52 (real q - real p).
Proof.
  intros [G1 B1] [G2 B2]. destruct (fmt_mult52 p G1) as [a Ea]; [exact (proj1 B1)|]. destruct (fmt_mult52 q G2) as [b Eb]; [exact (proj1 B2)|].
  assert (E : real q - real p = IZR (b - a) * bpow radix2 (-52)) by (unfold real; rewrite Ea, Eb, minus_IZR; ring).
  destruct (Z.eq_dec (b - a) 0) as [Z0|N]; [left; rewrite E, Z0; ring|]. right. split.
  - rewrite E, Rabs_mult, (Rabs_right (bpow radix2 (-52))) by (apply Rle_ge, bpow_ge_0). rewrite (bpow_small (-52)) by lia. change (- -52)%Z with 52%Z.
    assert (1 <= Rabs (IZR (b - a))) by (rewrite <- abs_IZR; apply IZR_le; lia).
    assert (0 < / IZR (2 ^ 52)) by (apply Rinv_0_lt_compat, IZR_lt; reflexivity). nra.
  - apply Rabs_le. change (2 ^ 52)%Z with 4503599627370496%Z. lra.
Qed.
Lemma truth_real x : is_real x -> real x <> 0 -> truth (Fops m) (Some x) = true.
Proof.
  intros [_ F] H. destruct (truth (Fops m) (Some x)) eqn:E; [reflexivity|]. exfalso. apply truth_missing_f in E as [E|[b E]]; [discriminate|].
  injection E as ->. now apply H.
Qed.

Lemma via_p_rounding p1 p2 f1 f2 : carrier m f1 -> carrier m f2 -> apart f1 f2 -> pseudorange p1 -> pseudorange p2 ->
  exists t T, via_p (Fops m) (Some p1) (Some p2) (Some f1) (Some f2) = Ok (Some t) /\ is_real t /\
    via_p Rops (Some (real p1)) (Some (real p2)) (Some (real f1)) (Some (real f2)) = Ok (Some T) /\
    Rabs (real t - T) <= / 100000000000000 * Rabs T.
Proof.
  intros H1 H2 Ha Hp Hq. destruct (factor_near _ _ H1 H2 Ha) as [k [Ek [Nk Mk]]]. destruct (factor_real _ _ H1 H2 Ha) as [Er [Z1 Z2]].
  unfold via_p. rewrite !truth_real by (first [apply H1|apply H2|apply Hp|apply Hq|assumption|destruct Hp, Hq; lra]).
  rewrite !truth_R_true by (assumption || (destruct Hp, Hq; lra)). cbn [negb andb]. rewrite Ek, Er. cbn [bind o_mul o_sub Fops Rops].
  pose proof (diff_mid _ _ Hp Hq) as D. destruct Hp as [Gp Bp], Hq as [Gq Bq].
  destruct (fsub_correct p2 p1 Gq Gp) as [Gd Ed].
  { apply (big_num _ 1000000000); [|lia]. apply Rabs_le. fold (real p2) (real p1). lra. }
  fold (real p2) (real p1) in Ed.
  exists (fmul k (fsub p2 p1)), (factor f1 f2 * (real p2 - real p1)). 
  destruct D as [D|D].
  - rewrite D in *. rewrite round_0 in Ed by typeclasses eauto.
    destruct (fmul_correct k _ (proj1 Nk) Gd) as [Gt Et]; [rewrite Ed, Rmult_0_r; apply (big_num _ 1); [rewrite Rabs_R0; lra|lia]|].
    split; [reflexivity|]. split; [exact Gt|]. split; [reflexivity|]. unfold real. rewrite Et, Ed, !Rmult_0_r, round_0 by typeclasses eauto.
    rewrite Rminus_0_r, Rabs_R0. lra.
  - assert (Nd : near (fsub p2 p1) (real p2 - real p1) 1).
    { split; [exact Gd|]. rewrite Ed. apply rel_rnd. apply (mid_good 52); [exact D|lia]. }
    destruct (near_mul 270 52 _ _ _ _ _ _ Nk Nd) as [[Gt [d [Et Hd]]] _]; [lra|lra|exact Mk|exact D|lia|lia|lra|].
    split; [reflexivity|]. split; [exact Gt|]. split; [reflexivity|]. unfold real at 1. rewrite Et. set (T := factor f1 f2 * _).
    replace (T * (1 + d) - T) with (d * T) by ring. rewrite Rabs_mult. apply Rmult_le_compat_r; [apply Rabs_pos|]. eapply Rle_trans; [exact Hd|].
    unfold u53. lra.
Qed.

(** a rounded difference against the sum of the absolute values *)
Lemma rnd_abs z : Rabs (rnd64 z - z) <= u53 * Rabs z + / IZR (2 ^ 1000).
Proof.
  destruct (error_N_FLT radix2 (-1074) 53 ltac:(lia) (fun z => negb (Z.even z)) z) as [e [t [He [Ht [_ E]]]]]. 
  assert (E' : rnd64 z = z * (1 + e) + t) by exact E. rewrite E'.
  replace (z * (1 + e) + t - z) with (e * z + t) by ring. eapply Rle_trans; [apply Rabs_triang|]. rewrite Rabs_mult. apply Rplus_le_compat.
  - apply Rmult_le_compat_r; [apply Rabs_pos|]. eapply Rle_trans; [exact He|]. rewrite <- u53_bpow, bpow_plus. change (bpow radix2 1) with 2. change (- (53))%Z with (-53)%Z. pose proof (bpow_gt_0 radix2 (-53)). lra.
  - eapply Rle_trans; [exact Ht|]. change (2 ^ 1000)%Z with (2 ^ (- -1000))%Z. rewrite <- (bpow_small (-1000)) by lia.
    assert (bpow radix2 (-1074) <= bpow radix2 (-1000)) by (apply bpow_le; lia). pose proof (bpow_gt_0 radix2 (-1074)). lra.
Qed.
(** [x] is within [c] units of [y], relative to [s] *)
Definition within (x y c s : R) : Prop := Rabs (x - y) <= c * u53 * s.
Lemma tiny_le k s : (0 <= k <= 900)%Z -> / IZR (2 ^ k) <= s -> / IZR (2 ^ 1000) <= u53 * s / 2.
Proof.
  intros Hk Hs. apply Rle_trans with (u53 * / IZR (2 ^ k) / 2); [|pose proof u53_pos; nra].
  change (2 ^ 1000)%Z with (2 ^ (- -1000))%Z. rewrite <- (bpow_small (-1000)) by lia. rewrite <- u53_bpow.
  replace (/ IZR (2 ^ k)) with (bpow radix2 (- k)) by (rewrite bpow_small by lia; now rewrite Z.opp_involutive).
  rewrite <- bpow_plus. replace (bpow radix2 (-53 + - k) / 2) with (bpow radix2 (-53 + - k + -1)) by (rewrite bpow_plus; cbn; lra). apply bpow_le. lia.
Qed.
(** x - y where x and y carry relative errors *)
Lemma diff_within j x y a b c c' : near x a c -> near y b c' -> 0 <= c <= 20 -> 0 <= c' <= 20 -> mid j a -> mid j b -> (0 <= j <= 400)%Z ->
  good (fsub x y) /\ within (f2r (fsub x y)) (a - b) (Rmax c c' + 2) (Rabs a + Rabs b).
Proof.
  intros [Gx [d [Ex Hd]]] [Gy [d' [Ey Hd']]] Hc Hc' [A1 A2] [B1 B2] Hj. pose proof u53_pos as Hu.
  set (S := Rabs a + Rabs b). assert (HS : 0 <= S) by (unfold S; pose proof (Rabs_pos a); pose proof (Rabs_pos b); lra).
  set (M := Rmax c c'). assert (HM : 0 <= M <= 20) by (unfold M; unfold Rmax; destruct (Rle_dec c c'); lra).
  assert (Hcm : c <= M) by apply Rmax_l. assert (Hcm' : c' <= M) by apply Rmax_r.
  assert (W : Rabs (f2r x - f2r y - (a - b)) <= M * u53 * S).
  { rewrite Ex, Ey. replace (a * (1 + d) - b * (1 + d') - (a - b)) with (a * d + - (b * d')) by ring. eapply Rle_trans; [apply Rabs_triang|].
    rewrite Rabs_Ropp, !Rabs_mult. unfold S.
    assert (Rabs a * Rabs d <= Rabs a * (M * u53)) by (apply Rmult_le_compat_l; [apply Rabs_pos|nra]).
    assert (Rabs b * Rabs d' <= Rabs b * (M * u53)) by (apply Rmult_le_compat_l; [apply Rabs_pos|nra]). lra. }
  assert (W2 : Rabs (f2r x - f2r y) <= (1 + M * u53) * S).
  { replace (f2r x - f2r y) with ((f2r x - f2r y - (a - b)) + (a - b)) by ring. eapply Rle_trans; [apply Rabs_triang|].
    assert (Rabs (a - b) <= S) by (unfold S; eapply Rle_trans; [apply (Rabs_triang a (- b))|rewrite Rabs_Ropp; lra]). lra. }
  destruct (fsub_correct x y Gx Gy) as [G E].
  { eapply Rle_trans; [exact W2|]. apply Rle_trans with (2 * S); [apply Rmult_le_compat_r; [exact HS|nra]|].
    unfold big, S. rewrite <- (IZR_Zpower radix2 1000) by lia. apply Rle_trans with (IZR (2 ^ (j + 2))).
    - replace (j + 2)%Z with (j + 1 + 1)%Z by lia. rewrite !pow_succ by lia. lra.
    - apply IZR_le. apply (Z.pow_le_mono_r 2); lia. }
  split; [exact G|]. unfold within. rewrite E.
  replace (rnd64 (f2r x - f2r y) - (a - b)) with ((rnd64 (f2r x - f2r y) - (f2r x - f2r y)) + (f2r x - f2r y - (a - b))) by ring.
  eapply Rle_trans; [apply Rabs_triang|]. pose proof (rnd_abs (f2r x - f2r y)) as R.
  pose proof (tiny_le j S ltac:(lia)) as T. specialize (T ltac:(unfold S; pose proof (Rabs_pos b); lra)).
  assert (u53 * Rabs (f2r x - f2r y) <= u53 * ((1 + M * u53) * S)) by (apply Rmult_le_compat_l; lra).
  assert (M * u53 <= / 4) by nra. assert (u53 * ((1 + M * u53) * S) <= u53 * ((1 + / 4) * S)).
  { apply Rmult_le_compat_l; [lra|]. apply Rmult_le_compat_r; lra. }
  nra.
Qed.
(** k * d, where d is within c units of y relative to s *)
Lemma mul_within j k x y a ck c s : near x a ck -> 0 <= ck <= 200 -> mid j a -> good y -> forall b, within (f2r y) b c s -> Rabs b <= s -> mid k s ->
  0 <= s -> (0 <= j <= 400)%Z -> (0 <= k <= 400)%Z -> 0 <= c <= 200 ->
  good (fmul x y) /\ within (f2r (fmul x y)) (a * b) (ck + c + 3) (Rabs a * s).
Proof.
  intros [Gx [d [Ex Hd]]] Hck [A1 A2] Gy b Hw Hb Ms Hs Hj Hk Hc. pose proof u53_pos as Hu. unfold within in *.
  set (S := Rabs a * s). assert (HS : 0 <= S) by (apply Rmult_le_pos; [apply Rabs_pos|exact Hs]).
  assert (Hcu : c * u53 <= / 1000000) by nra. assert (Hku : ck * u53 <= / 1000000) by nra.
  assert (Y : Rabs (f2r y) <= (1 + / 1000000) * s).
  { replace (f2r y) with ((f2r y - b) + b) by ring. eapply Rle_trans; [apply Rabs_triang|]. assert (c * u53 * s <= / 1000000 * s) by (apply Rmult_le_compat_r; lra). lra. }
  assert (W : Rabs (f2r x * f2r y - a * b) <= (ck + c + 1) * u53 * S).
  { rewrite Ex. replace (a * (1 + d) * f2r y - a * b) with (a * (d * f2r y + (f2r y - b))) by ring. rewrite Rabs_mult. unfold S.
    rewrite (Rmult_comm ((ck + c + 1) * u53)), Rmult_assoc. apply Rmult_le_compat_l; [apply Rabs_pos|]. eapply Rle_trans; [apply Rabs_triang|]. rewrite Rabs_mult.
    assert (Rabs d * Rabs (f2r y) <= (ck * u53) * ((1 + / 1000000) * s)) by (apply Rmult_le_compat; auto using Rabs_pos).
    assert (ck * u53 * (/ 1000000 * s) <= 1 * u53 * s).
    { replace (ck * u53 * (/ 1000000 * s)) with ((ck * / 1000000) * (u53 * s)) by ring. replace (1 * u53 * s) with (1 * (u53 * s)) by ring. apply Rmult_le_compat_r; [nra|lra]. }
    lra. }
  assert (P : Rabs (f2r x * f2r y) <= (1 + / 10) * S).
  { replace (f2r x * f2r y) with ((f2r x * f2r y - a * b) + a * b) by ring. eapply Rle_trans; [apply Rabs_triang|].
    assert (Rabs (a * b) <= S) by (rewrite Rabs_mult; apply Rmult_le_compat_l; [apply Rabs_pos|exact Hb]).
    assert ((ck + c + 1) * u53 * S <= / 10 * S) by (apply Rmult_le_compat_r; [exact HS|lra]). lra. }
  assert (MS : mid (j + k) S).
  { destruct (mid_mul j k (Rabs a) s) as [A B]; [split; rewrite Rabs_Rabsolu; assumption|exact Ms|lia|lia|]. split; assumption. }
  assert (MS' : / IZR (2 ^ (j + k)) <= S <= IZR (2 ^ (j + k))) by (destruct MS as [A B]; rewrite (Rabs_right S) in A, B by lra; lra).
  destruct (fmul_correct x y Gx Gy) as [G E].
  { eapply Rle_trans; [exact P|]. unfold big. rewrite <- (IZR_Zpower radix2 1000) by lia. apply Rle_trans with (IZR (2 ^ (j + k + 1))).
    - rewrite pow_succ by lia. lra.
    - apply IZR_le. apply (Z.pow_le_mono_r 2); lia. }
  split; [exact G|]. rewrite E. replace (rnd64 (f2r x * f2r y) - a * b) with ((rnd64 (f2r x * f2r y) - f2r x * f2r y) + (f2r x * f2r y - a * b)) by ring.
  eapply Rle_trans; [apply Rabs_triang|]. pose proof (rnd_abs (f2r x * f2r y)) as R. pose proof (tiny_le (j + k) S ltac:(lia) (proj1 MS')) as T.
  assert (u53 * Rabs (f2r x * f2r y) <= u53 * ((1 + / 10) * S)) by (apply Rmult_le_compat_l; lra). nra.
Qed.

Lemma carrier_mid f : carrier m f -> near f (real f) 0 /\ mid 31 (real f).
Proof.
  intros [G [B _]]. split; [now apply float_near|]. apply (mid_between _ _ 1000000000 2000000000); [rewrite Rabs_right; lra| |].
  - apply (inv_pow_le _ _ 1); [lra|lra|]. split; [lia|]. vm_compute; discriminate.
  - change (2 ^ 31)%Z with 2147483648%Z. lra.
Qed.
Lemma light_near : near (light (Fops m)) 299792458 0 /\ mid 29 299792458.
Proof.
  split; [apply int_near; [lia|vm_compute; reflexivity]|]. apply (mid_between _ _ 1 299792458); [rewrite Rabs_right; lra| |].
  - change (2 ^ 29)%Z with 536870912%Z. lra.
  - change (2 ^ 29)%Z with 536870912%Z. lra.
Qed.
Lemma phase_mid l : phase l -> near l (real l) 0 /\ mid 40 (real l).
Proof.
  intros [G B]. split; [now apply float_near|]. apply (mid_between _ _ _ _ B).
  - change (2 ^ 40)%Z with 1099511627776%Z. lra.
  - change (2 ^ 40)%Z with 1099511627776%Z. lra.
Qed.
Lemma abs_mid k s : mid k s -> mid k (Rabs s).
Proof. unfold mid. now rewrite Rabs_Rabsolu. Qed.
Lemma sum_mid k a b : mid k a -> mid k b -> (0 <= k)%Z -> mid (k + 1) (Rabs a + Rabs b).
Proof.
  intros [A1 A2] [B1 B2] Hk. unfold mid. rewrite pow_succ by lia. assert (0 < IZR (2 ^ k)) by (apply IZR_lt, Z.pow_pos_nonneg; lia).
  pose proof (Rabs_pos a). pose proof (Rabs_pos b). rewrite (Rabs_right (Rabs a + Rabs b)) by lra. rewrite Rinv_mult. assert (0 < / IZR (2 ^ k)) by now apply Rinv_0_lt_compat. lra.
Qed.

Lemma via_l_rounding l1 l2 f1 f2 : carrier m f1 -> carrier m f2 -> apart f1 f2 -> phase l1 -> phase l2 ->
  exists t T K, via_l (Fops m) (Some l1) (Some l2) (Some f1) (Some f2) (o_int (Fops m) 0) = Ok (Some t) /\ is_real t /\
    via_l Rops (Some (real l1)) (Some (real l2)) (Some (real f1)) (Some (real f2)) 0 = Ok (Some T) /\
    tec_factor Rops (real f1) (real f2) = Ok K /\
    Rabs (real t - T) <= / 100000000000000 * (Rabs K * (Rabs (lambda (real f1) * real l1) + Rabs (lambda (real f2) * real l2))).
Proof.
  intros H1 H2 Ha Hp Hq. destruct (factor_near _ _ H1 H2 Ha) as [k [Ek [Nk Mk]]]. destruct (factor_real _ _ H1 H2 Ha) as [Er [Z1 Z2]].
  assert (P1 : real l1 <> 0) by (intros E; destruct Hp as [_ B]; rewrite E, Rabs_R0 in B; lra).
  assert (P2 : real l2 <> 0) by (intros E; destruct Hq as [_ B]; rewrite E, Rabs_R0 in B; lra).
  unfold via_l. rewrite !truth_real by (first [apply H1|apply H2|apply Hp|apply Hq|assumption]).
  rewrite !truth_R_true by assumption. cbn [negb andb]. rewrite Ek, Er. cbn [bind]. rewrite light_R, !div_R by assumption. cbn [bind o_mul o_sub Fops Rops].
  destruct light_near as [Nc Mc]. destruct (carrier_mid _ H1) as [Nf1 Mf1]. destruct (carrier_mid _ H2) as [Nf2 Mf2].
  destruct (phase_mid _ Hp) as [Nl1 Ml1]. destruct (phase_mid _ Hq) as [Nl2 Ml2].
  destruct (near_div 29 31 _ _ _ _ _ _ Nc Nf1) as [w1 [Ew1 [Nw1 Mw1]]]; [lra|lra|exact Mc|exact Mf1|lia|lia|lra|].
  destruct (near_div 29 31 _ _ _ _ _ _ Nc Nf2) as [w2 [Ew2 [Nw2 Mw2]]]; [lra|lra|exact Mc|exact Mf2|lia|lia|lra|].
  cbn [o_div Fops]. rewrite Ew1. cbn [bind]. rewrite Ew2. cbn [bind].
  destruct (near_mul 60 40 _ _ _ _ _ _ Nw1 Nl1) as [N1 M1]; [lra|lra|exact Mw1|exact Ml1|lia|lia|lra|].
  destruct (near_mul 60 40 _ _ _ _ _ _ Nw2 Nl2) as [N2 M2]; [lra|lra|exact Mw2|exact Ml2|lia|lia|lra|].
  destruct (diff_within 100 _ _ _ _ _ _ N1 N2) as [Gd Wd]; [lra|lra|exact M1|exact M2|lia|].
  rewrite Rmax_left in Wd by lra.
  set (A := 299792458 / real f1 * real l1) in *. set (B := 299792458 / real f2 * real l2) in *.
  assert (HS : 0 <= Rabs A + Rabs B) by (pose proof (Rabs_pos A); pose proof (Rabs_pos B); lra).
  destruct (mul_within 270 101 _ _ _ _ _ _ Nk ltac:(lra) Mk Gd _ Wd) as [Gt Wt].
  - eapply Rle_trans; [apply (Rabs_triang A (- B))|rewrite Rabs_Ropp; lra].
  - apply (sum_mid 100); [exact M1|exact M2|lia].
  - exact HS.
  - lia.
  - lia.
  - lra.
  - set (t := fmul k _) in *. destruct (fsub_correct t (o_int (Fops m) 0) Gt) as [Gs Es].
    + change (o_int (Fops m) 0) with (S754_zero false). split; reflexivity.
    + change (f2r (o_int (Fops m) 0)) with 0. rewrite Rminus_0_r. destruct (good_B t Gt) as [bt [Et Ht]]. 
      unfold within in Wt. 
      assert (X : Rabs (f2r t) <= 2 * (Rabs (factor f1 f2) * (Rabs A + Rabs B))).
      { replace (f2r t) with ((f2r t - factor f1 f2 * (A - B)) + factor f1 f2 * (A - B)) by ring. eapply Rle_trans; [apply Rabs_triang|].
        assert (Rabs (factor f1 f2 * (A - B)) <= Rabs (factor f1 f2) * (Rabs A + Rabs B)).
        { rewrite Rabs_mult. apply Rmult_le_compat_l; [apply Rabs_pos|]. eapply Rle_trans; [apply (Rabs_triang A (- B))|rewrite Rabs_Ropp; lra]. }
        assert (0 <= Rabs (factor f1 f2) * (Rabs A + Rabs B)) by (apply Rmult_le_pos; [apply Rabs_pos|exact HS]). pose proof u53_pos. nra. }
      eapply Rle_trans; [exact X|]. destruct (mid_mul 270 101 (factor f1 f2) (Rabs A + Rabs B) Mk) as [_ Y]; [apply (sum_mid 100); [exact M1|exact M2|lia]|lia|lia|].
      rewrite Rabs_mult, (Rabs_right (Rabs A + Rabs B)) in Y by lra. unfold big. rewrite <- (IZR_Zpower radix2 1000) by lia.
      apply Rle_trans with (IZR (2 ^ (270 + 101 + 1))); [rewrite pow_succ by lia; lra|]. apply IZR_le. apply (Z.pow_le_mono_r 2); lia.
    + change (f2r (o_int (Fops m) 0)) with 0 in Es. rewrite Rminus_0_r, rnd_fmt in Es by exact Gt.
      exists (fsub t (o_int (Fops m) 0)), (factor f1 f2 * (A - B)), (factor f1 f2).
      split; [reflexivity|]. split; [exact Gs|]. split; [do 2 f_equal; ring|]. split; [reflexivity|].
      unfold real at 1. rewrite Es. unfold lambda. fold A B. unfold within in Wt. eapply Rle_trans; [exact Wt|]. apply Rmult_le_compat_r; [apply Rmult_le_pos; [apply Rabs_pos|exact HS]|].
      unfold u53. lra.
Qed.

Lemma half_near : near (o_lit (Fops m) 5 (-1)) (1 / 2) 0 /\ mid 1 (1 / 2).
Proof.
  split.
  - destruct (b64_of_dec_nearest false 5 1) as [V [F E]]; [split; [lia|vm_compute; discriminate]|]. cbn [o_lit Fops]. change (- Z.of_nat 1)%Z with (-1)%Z in *.
    split; [split; assumption|]. replace (dec_real false 5 1) with (IZR 1 / 2) in E by (unfold dec_real; cbn; lra). rewrite rnd_half in E by lia.
    change (b64_of_dec (5 <? 0)%Z (Z.abs 5) (-1)) with (b64_of_dec false 5 (-1)). rewrite E. apply rel_refl. lra.
  - apply (mid_between _ _ (1 / 2) (1 / 2)); [rewrite Rabs_right; lra| |]; change (2 ^ 1)%Z with 2%Z; lra.
Qed.
Lemma range_mid p : pseudorange p -> near p (real p) 0 /\ mid 100 (real p).
Proof.
  intros [G B]. split; [now apply float_near|]. apply (mid_between _ _ 1 1000000000); [rewrite Rabs_right; lra| |].
  - apply (inv_pow_le _ _ 1); [lra|lra|]. split; [lia|]. vm_compute; discriminate.
  - apply IZR_le. vm_compute; discriminate.
Qed.
Lemma via_lc_rounding l c f : carrier m f -> phase l -> pseudorange c ->
  exists t T, via_l1_c1 (Fops m) (Some l) (Some c) (Some f) = Ok (Some t) /\ is_real t /\
    via_l1_c1 Rops (Some (real l)) (Some (real c)) (Some (real f)) = Ok (Some T) /\
    Rabs (real t - T) <= / 100000000000000 * (real f * real f / (2 * 40.308 * 10000000000000000) * (Rabs (real c) + Rabs (lambda (real f) * real l))).
Proof.
  intros H1 Hp Hq. destruct (square_near _ H1) as [E1 [N1 M1]].
  assert (Z1 : real f <> 0) by (destruct H1 as [_ [B _]]; lra).
  assert (P1 : real l <> 0) by (intros E; destruct Hp as [_ B]; rewrite E, Rabs_R0 in B; lra).
  assert (P2 : real c <> 0) by (destruct Hq as [_ B]; lra).
  unfold via_l1_c1. rewrite !truth_real by (first [apply H1|apply Hp|apply Hq|assumption]).
  rewrite !truth_R_true by assumption. cbn [negb andb]. rewrite E1. cbn [o_pow Rops bind]. rewrite half_R, light_R, k40_R, tecu_R, !div_R by (assumption || lra).
  cbn [bind o_mul o_sub Fops Rops].
  destruct light_near as [Nc Mc]. destruct (carrier_mid _ H1) as [Nf Mf]. destruct (k40_near m) as [Nk Mk]. destruct (tecu_near m) as [Nt Mt].
  destruct half_near as [Nh Mh]. destruct (phase_mid _ Hp) as [Nl Ml]. destruct (range_mid _ Hq) as [Np Mp].
  destruct (near_mul 1 62 _ _ _ _ _ _ Nh N1) as [N2 M2]; [lra|lra|exact Mh|exact M1|lia|lia|lra|].
  destruct (near_div 63 6 _ _ _ _ _ _ N2 Nk) as [a [Ea [Na Ma]]]; [lra|lra|exact M2|exact Mk|lia|lia|lra|].
  cbn [o_div Fops]. rewrite Ea. cbn [bind].
  destruct (near_mul 40 29 _ _ _ _ _ _ Nl Nc) as [N3 M3]; [lra|lra|exact Ml|exact Mc|lia|lia|lra|].
  destruct (near_div 69 31 _ _ _ _ _ _ N3 Nf) as [w [Ew [Nw Mw]]]; [lra|lra|exact M3|exact Mf|lia|lia|lra|].
  rewrite Ew. cbn [bind].
  destruct (diff_within 100 _ _ _ _ _ _ Np Nw) as [Gd Wd]; [lra|lra|exact Mp|exact Mw|lia|]. rewrite Rmax_right in Wd by lra.
  set (W := real l * 299792458 / real f) in *.
  assert (HS : 0 <= Rabs (real c) + Rabs W) by (pose proof (Rabs_pos (real c)); pose proof (Rabs_pos W); lra).
  assert (MS : mid 101 (Rabs (real c) + Rabs W)) by (apply (sum_mid 100); [exact Mp|exact Mw|lia]).
  set (A := 1 / 2 * (real f * real f) / 40.308) in *.
  assert (HA : 0 <= A) by (unfold A; nra).
  destruct (mul_within 69 101 _ _ _ _ _ _ Na ltac:(lra) Ma Gd _ Wd) as [Gt Wt]; [|exact MS|exact HS|lia|lia|lra|].
  { eapply Rle_trans; [apply (Rabs_triang (real c) (- W))|rewrite Rabs_Ropp; lra]. }
  set (t := fmul a (fsub c w)) in *. set (S := Rabs A * (Rabs (real c) + Rabs W)) in *.
  destruct (mul_within 54 170 _ _ _ _ _ S Nt ltac:(lra) Mt Gt _ Wt) as [Gu Wu]; [| |apply Rmult_le_pos; [apply Rabs_pos|exact HS]|lia|lia|lra|].
  { rewrite Rabs_mult. apply Rmult_le_compat_l; [apply Rabs_pos|]. eapply Rle_trans; [apply (Rabs_triang (real c) (- W))|rewrite Rabs_Ropp; lra]. }
  { apply (mid_mul 69 101); [apply abs_mid, Ma|exact MS|lia|lia]. }
  assert (Cm : good (fmul t (tecu (Fops m))) /\ f2r (fmul t (tecu (Fops m))) = f2r (fmul (tecu (Fops m)) t)).
  { assert (Bd : Rabs (f2r (tecu (Fops m)) * f2r t) <= big).
    { destruct Nt as [_ Rt]. destruct (rel_bounds _ _ _ Rt ltac:(lra)) as [_ B1]. rewrite (Rabs_right (/ 10000000000000000)) in B1 by (apply Rle_ge, Rlt_le, Rinv_0_lt_compat; lra).
      assert (X : Rabs (f2r t) <= 2 * S).
      { replace (f2r t) with ((f2r t - A * (real c - W)) + A * (real c - W)) by ring. eapply Rle_trans; [apply Rabs_triang|].
        assert (Rabs (A * (real c - W)) <= S).
        { rewrite Rabs_mult. apply Rmult_le_compat_l; [apply Rabs_pos|]. eapply Rle_trans; [apply (Rabs_triang (real c) (- W))|rewrite Rabs_Ropp; lra]. }
        unfold within in Wt. assert (0 <= S) by (apply Rmult_le_pos; [apply Rabs_pos|exact HS]). pose proof u53_pos. nra. }
      assert (MM : mid 170 S) by (apply (mid_mul 69 101); [apply abs_mid, Ma|exact MS|lia|lia]). destruct MM as [_ MM]. rewrite (Rabs_right S) in MM by (apply Rle_ge, Rmult_le_pos; [apply Rabs_pos|exact HS]).
      rewrite Rabs_mult. unfold big. rewrite <- (IZR_Zpower radix2 1000) by lia. apply Rle_trans with (IZR (2 ^ (170 + 1))).
      - rewrite pow_succ by lia. assert (Rabs (f2r (tecu (Fops m))) * Rabs (f2r t) <= 1 * (2 * S)); [|lra]. apply Rmult_le_compat; auto using Rabs_pos.
        eapply Rle_trans; [exact B1|]. assert (/ 10000000000000000 <= / 2) by (apply Rinv_le_contravar; lra). lra.
      - apply IZR_le. apply (Z.pow_le_mono_r 2); lia. }
    destruct (fmul_correct _ _ (proj1 Nt) Gt Bd) as [_ E2]. rewrite Rmult_comm in Bd. destruct (fmul_correct _ _ Gt (proj1 Nt) Bd) as [G3 E3].
    split; [exact G3|]. now rewrite E2, E3, Rmult_comm. }
  exists (fmul t (tecu (Fops m))). eexists. split; [reflexivity|]. split; [apply Cm|]. split; [reflexivity|].
  unfold real at 1. rewrite (proj2 Cm). unfold within in Wu.
  replace (real f ^ 2) with (real f * real f) by ring. fold A. replace (A * (real c - W) * / 10000000000000000) with (/ 10000000000000000 * (A * (real c - W))) by ring.
  eapply Rle_trans; [exact Wu|]. replace (lambda (real f) * real l) with W by (unfold W, lambda; field; exact Z1).
  rewrite (Rabs_right (/ 10000000000000000)) by (apply Rle_ge, Rlt_le, Rinv_0_lt_compat; lra). unfold S. rewrite (Rabs_right A) by lra.
  replace (real f * real f / (2 * 40.308 * 10000000000000000) * (Rabs (real c) + Rabs W)) with (/ 10000000000000000 * (A * (Rabs (real c) + Rabs W))) by (unfold A; set (q := real f * real f); set (y := Rabs (real c) + Rabs W); field; lra).
  apply Rmult_le_compat_r; [|unfold u53; lra]. apply Rmult_le_pos; [apply Rlt_le, Rinv_0_lt_compat; lra|]. apply Rmult_le_pos; [exact HA|exact HS].
Qed.
End Carrier.
