(** binary64 facts: the operations of PyFloat round correctly (via Flocq). *)
From Coq Require Import Reals Lra ZifyBool ZifyNat.
From Flocq Require Import Core.Core IEEE754.BinarySingleNaN.
From Verif Require Import Base PyStr PyFloat S_Text P_Str.
Open Scope Z_scope.

#[global] Instance Hprec53 : Prec_gt_0 53. Proof. reflexivity. Qed.
#[global] Instance Hmax1024 : Prec_lt_emax 53 1024. Proof. reflexivity. Qed.

Notation fexp64 := (FLT_exp (-1074) 53).
Notation rnd64 := (Generic_fmt.round radix2 fexp64 ZnearestE).
Notation f2r := (SF2R radix2).

Lemma fexp_eq : SpecFloat.fexp 53 1024 = fexp64.
Proof. reflexivity. Qed.

(** ** equivalence of SpecFloat and Flocq rounding (as in Flocq.IEEE754.PrimFloat) *)
Lemma round_nearest_even_equiv s m l : round_nearest_even m l = choice_mode mode_NE s m l.
Proof. case l; [reflexivity|intro c]. case c; [|reflexivity..]. now simpl; unfold Round.cond_incr; case Z.even. Qed.
Lemma binary_round_aux_equiv sx mx ex lx :
  SpecFloat.binary_round_aux 53 1024 sx mx ex lx = BinarySingleNaN.binary_round_aux 53 1024 mode_NE sx mx ex lx.
Proof.
  unfold SpecFloat.binary_round_aux, BinarySingleNaN.binary_round_aux.
  set (mrse' := shr_fexp _ _ _ _ _). case mrse'; intros mrs' e'; simpl. now rewrite (round_nearest_even_equiv sx).
Qed.
Lemma binary_round_equiv s m e :
  SpecFloat.binary_round 53 1024 s m e = BinarySingleNaN.binary_round 53 1024 mode_NE s m e.
Proof.
  unfold SpecFloat.binary_round, BinarySingleNaN.binary_round, shl_align_fexp.
  set (mez := shl_align _ _ _); case mez as [mz ez]. apply binary_round_aux_equiv.
Qed.
Lemma binary_normalize_equiv m e szero :
  SpecFloat.binary_normalize 53 1024 m e szero
  = B2SF (BinarySingleNaN.binary_normalize 53 1024 Hprec53 Hmax1024 mode_NE m e szero).
Proof.
  case m as [|p|p].
  - now simpl.
  - simpl; rewrite B2SF_SF2B; apply binary_round_equiv.
  - simpl; rewrite B2SF_SF2B; apply binary_round_equiv.
Qed.

Definition good (x : float) : Prop := valid_binary 53 1024 x = true /\ is_finite_SF x = true.

Lemma good_B x : good x -> exists b : binary_float 53 1024, B2SF b = x /\ is_finite b = true /\ B2R b = f2r x.
Proof.
  intros [Hv Hf]. exists (SF2B x Hv). repeat split.
  - apply B2SF_SF2B.
  - now rewrite is_finite_SF2B.
  - now rewrite B2R_SF2B.
Qed.
Lemma B_good (b : binary_float 53 1024) : is_finite b = true -> good (B2SF b).
Proof. intros H. split; [apply valid_binary_B2SF|now rewrite is_finite_SF_B2SF]. Qed.

(** everything below this bound stays finite after rounding *)
Definition big : R := bpow radix2 1000.
Lemma big_ok x : (Rabs x <= big)%R -> Rlt_bool (Rabs (rnd64 x)) (bpow radix2 1024) = true.
Proof.
  intros H. apply Rlt_bool_true. apply Rle_lt_trans with big.
  - apply abs_round_le_generic; [typeclasses eauto|typeclasses eauto| |exact H].
    apply generic_format_bpow. cbn. lia.
  - apply bpow_lt. lia.
Qed.

Lemma B2SF_Bplus x y : SFadd 53 1024 (B2SF x) (B2SF y) = B2SF (Bplus mode_NE x y).
Proof.
  destruct x as [sx|sx| |sx mx ex Bx]; destruct y as [sy|sy| |sy my ey By]; try reflexivity;
    try (cbn; destruct (Bool.eqb sx sy); reflexivity).
  cbn. apply binary_normalize_equiv.
Qed.
Lemma B2SF_Bminus x y : SFsub 53 1024 (B2SF x) (B2SF y) = B2SF (Bminus mode_NE x y).
Proof.
  destruct x as [sx|sx| |sx mx ex Bx]; destruct y as [sy|sy| |sy my ey By]; try reflexivity;
    try (cbn; destruct sx, sy; reflexivity).
  unfold Bminus. cbn. rewrite binary_normalize_equiv. f_equal. f_equal.
  unfold Fplus_naive. destruct sy; cbn; unfold Z.sub; rewrite ?Z.opp_involutive; reflexivity.
Qed.
Lemma B2SF_Bmult x y : SFmul 53 1024 (B2SF x) (B2SF y) = B2SF (Bmult mode_NE x y).
Proof.
  destruct x as [sx|sx| |sx mx ex Bx]; destruct y as [sy|sy| |sy my ey By]; try reflexivity.
  simpl. rewrite B2SF_SF2B. apply binary_round_aux_equiv.
Qed.

Lemma fadd_correct x y : good x -> good y -> (Rabs (f2r x + f2r y) <= big)%R ->
  good (fadd x y) /\ f2r (fadd x y) = rnd64 (f2r x + f2r y).
Proof.
  intros Hx Hy Hb. destruct (good_B x Hx) as [bx [<- [Fx Rx]]]. destruct (good_B y Hy) as [by_ [<- [Fy Ry]]].
  unfold fadd, fprec, femax. rewrite B2SF_Bplus.
  pose proof (Bplus_correct 53 1024 _ _ mode_NE bx by_ Fx Fy) as H.
  rewrite <- Rx, <- Ry in Hb |- *. change (round_mode mode_NE) with ZnearestE in H. rewrite fexp_eq in H.
  rewrite big_ok in H by exact Hb. destruct H as [H1 [H2 _]].
  split; [now apply B_good|]. now rewrite SF2R_B2SF.
Qed.
Lemma fsub_correct x y : good x -> good y -> (Rabs (f2r x - f2r y) <= big)%R ->
  good (fsub x y) /\ f2r (fsub x y) = rnd64 (f2r x - f2r y).
Proof.
  intros Hx Hy Hb. destruct (good_B x Hx) as [bx [<- [Fx Rx]]]. destruct (good_B y Hy) as [by_ [<- [Fy Ry]]].
  unfold fsub, fprec, femax. rewrite B2SF_Bminus.
  pose proof (Bminus_correct 53 1024 _ _ mode_NE bx by_ Fx Fy) as H.
  rewrite <- Rx, <- Ry in Hb |- *. change (round_mode mode_NE) with ZnearestE in H. rewrite fexp_eq in H.
  rewrite big_ok in H by exact Hb. destruct H as [H1 [H2 _]].
  split; [now apply B_good|]. now rewrite SF2R_B2SF.
Qed.
Lemma fmul_correct x y : good x -> good y -> (Rabs (f2r x * f2r y) <= big)%R ->
  good (fmul x y) /\ f2r (fmul x y) = rnd64 (f2r x * f2r y).
Proof.
  intros Hx Hy Hb. destruct (good_B x Hx) as [bx [<- [Fx Rx]]]. destruct (good_B y Hy) as [by_ [<- [Fy Ry]]].
  unfold fmul, fprec, femax. rewrite B2SF_Bmult.
  pose proof (Bmult_correct 53 1024 _ _ mode_NE bx by_) as H.
  rewrite <- Rx, <- Ry in Hb |- *. change (round_mode mode_NE) with ZnearestE in H. rewrite fexp_eq in H.
  rewrite big_ok in H by exact Hb. destruct H as [H1 [H2 _]]. rewrite Fx, Fy in H2.
  split; [now apply B_good|]. now rewrite SF2R_B2SF.
Qed.

(** ** decimal conversion *)
Definition sgn (neg : bool) : R := if neg then (-1)%R else 1%R.
Lemma cond_Zopp_sgn neg p : IZR (cond_Zopp neg (Zpos p)) = (sgn neg * IZR (Zpos p))%R.
Proof. destruct neg; unfold sgn; cbn [cond_Zopp]; [change (Zneg p) with (- Zpos p); rewrite opp_IZR|]; lra. Qed.
Lemma sgn_abs neg x : (Rabs (sgn neg * x) = Rabs x)%R.
Proof. destruct neg; unfold sgn; [replace (-1 * x)%R with (- x)%R by lra; apply Rabs_Ropp|now rewrite Rmult_1_l]. Qed.

Lemma b64_of_dec_neg_exp neg p k : 0 < k -> (Rabs (IZR (Zpos p) / IZR (10 ^ k)) <= big)%R ->
  good (b64_of_dec neg (Zpos p) (- k)) /\
  f2r (b64_of_dec neg (Zpos p) (- k)) = rnd64 (sgn neg * (IZR (Zpos p) / IZR (10 ^ k))) /\
  sign_SF (b64_of_dec neg (Zpos p) (- k)) = neg.
Proof.
  intros Hk Hb. unfold b64_of_dec. replace (0 <=? - k) with false by lia. rewrite Z.opp_involutive.
  assert (Hq : exists q, 10 ^ k = Zpos q).
  { assert (0 < 10 ^ k) by (apply Z.pow_pos_nonneg; lia). destruct (10 ^ k) eqn:E; try lia. eauto. }
  destruct Hq as [q Hq]. rewrite Hq in *.
  pose proof (Bdiv_correct_aux 53 1024 _ _ mode_NE neg p 0 false q 0) as H. cbv zeta in H.
  change (fprec) with 53. change femax with 1024.
  destruct (SFdiv_core_binary 53 1024 (Z.pos p) 0 (Z.pos q) 0) as [[mz ez] lz].
  rewrite binary_round_aux_equiv. rewrite xorb_false_r in H.
  assert (Ex : (@F2R radix2 {| Fnum := cond_Zopp neg (Z.pos p); Fexp := 0 |} / @F2R radix2 {| Fnum := cond_Zopp false (Z.pos q); Fexp := 0 |}
    = sgn neg * (IZR (Z.pos p) / IZR (Z.pos q)) :> R)%R).
  { unfold F2R. cbn [Fnum Fexp bpow cond_Zopp]. rewrite cond_Zopp_sgn. field. apply not_0_IZR. lia. }
  rewrite Ex in H. change (round_mode mode_NE) with ZnearestE in H. rewrite fexp_eq in H.
  rewrite big_ok in H by now rewrite sgn_abs.
  destruct H as [H1 [H2 [H3 H4]]]. repeat split; assumption.
Qed.
Lemma b64_of_dec_pos_exp neg p k : 0 <= k -> (Rabs (IZR (Zpos p * 10 ^ k)) <= big)%R ->
  good (b64_of_dec neg (Zpos p) k) /\
  f2r (b64_of_dec neg (Zpos p) k) = rnd64 (sgn neg * IZR (Zpos p * 10 ^ k)) /\
  sign_SF (b64_of_dec neg (Zpos p) k) = neg.
Proof.
  intros Hk Hb. unfold b64_of_dec. replace (0 <=? k) with true by lia.
  assert (Hq : exists q, Zpos p * 10 ^ k = Zpos q).
  { assert (0 < Zpos p * 10 ^ k) by (apply Z.mul_pos_pos; [lia|apply Z.pow_pos_nonneg; lia]).
    destruct (Zpos p * 10 ^ k) eqn:E; try lia. eauto. }
  destruct Hq as [q Hq]. rewrite Hq in *. cbn [Z.to_pos].
  change (fprec) with 53. change femax with 1024. rewrite binary_round_equiv.
  pose proof (binary_round_correct 53 1024 _ _ mode_NE neg q 0) as H. cbv zeta in H.
  assert (Ex : (@F2R radix2 {| Fnum := cond_Zopp neg (Z.pos q); Fexp := 0 |} = sgn neg * IZR (Z.pos q) :> R)%R).
  { unfold F2R. cbn [Fnum Fexp bpow]. rewrite cond_Zopp_sgn. lra. }
  rewrite Ex in H. change (round_mode mode_NE) with ZnearestE in H. rewrite fexp_eq in H.
  rewrite big_ok in H by now rewrite sgn_abs.
  destruct H as [H1 [H2 [H3 H4]]]. repeat split; assumption.
Qed.

Lemma big_IZR n : n <= 2 ^ 1000 -> (IZR n <= big)%R.
Proof.
  intros H. unfold big. rewrite <- (IZR_Zpower radix2) by lia. apply IZR_le. exact H.
Qed.

Lemma b64_of_dec_nearest neg m k : 0 <= m <= 2 ^ 1000 ->
  nearest64 (b64_of_dec neg m (- Z.of_nat k)) (dec_real neg m k).
Proof.
  intros Hm. unfold nearest64, dec_real. fold (sgn neg).
  assert (H10 : forall j, (10 ^ j = IZR (10 ^ Z.of_nat j))%R).
  { intros j. rewrite <- (pow_IZR 10). reflexivity. }
  destruct m as [|p|p]; [|clear H10|lia].
  - cbn [b64_of_dec valid_binary is_finite_SF SF2R]. repeat split.
    replace (sgn neg * 0 / 10 ^ k)%R with 0%R by (unfold Rdiv; ring). now rewrite round_0 by typeclasses eauto.
  - destruct (Nat.eq_dec k 0) as [->|Hk].
    + cbn [Z.of_nat Z.opp pow]. destruct (b64_of_dec_pos_exp neg p 0) as [[H1 H2] [H3 _]]; [lia| |].
      { rewrite Z.pow_0_r, Z.mul_1_r, Rabs_pos_eq by (apply IZR_le; lia). apply big_IZR. lia. }
      repeat split; try assumption. rewrite H3. f_equal. rewrite Z.pow_0_r, Z.mul_1_r. field.
    + destruct (b64_of_dec_neg_exp neg p (Z.of_nat k)) as [[H1 H2] [H3 _]]; [lia| |].
      { assert (1 <= IZR (10 ^ Z.of_nat k))%R by (apply IZR_le; assert (0 < 10 ^ Z.of_nat k) by (apply Z.pow_pos_nonneg; lia); lia).
        assert (0 <= IZR (Z.pos p))%R by (apply IZR_le; lia).
        rewrite Rabs_pos_eq.
        2:{ apply Rmult_le_pos; [assumption|]. apply Rlt_le, Rinv_0_lt_compat. lra. }
        apply Rle_trans with (IZR (Z.pos p)); [|apply big_IZR; lia].
        unfold Rdiv. rewrite <- (Rmult_1_r (IZR (Z.pos p))) at 2. apply Rmult_le_compat_l; [assumption|].
        rewrite <- Rinv_1. apply Rinv_le; lra. }
      repeat split; try assumption. rewrite H3. f_equal. rewrite <- (pow_IZR 10). field.
      apply pow_nonzero. lra.
Qed.

Lemma float_of_Z_correct n : Z.abs n <= 2 ^ 53 -> good (float_of_Z n) /\ f2r (float_of_Z n) = IZR n.
Proof.
  intros Hn. unfold float_of_Z.
  destruct (Z.abs n) as [|p|p] eqn:E.
  - assert (n = 0) by lia. subst n. cbn. repeat split; reflexivity.
  - assert (Hs : (sgn (n <? 0) * IZR (Z.pos p) = IZR n)%R).
    { rewrite <- E. destruct (n <? 0) eqn:En; unfold sgn.
      - rewrite Z.abs_neq by lia. rewrite opp_IZR. lra.
      - rewrite Z.abs_eq by lia. lra. }
    destruct (b64_of_dec_pos_exp (n <? 0) p 0) as [[H1 H2] [H3 _]]; [lia| |].
    { rewrite Z.pow_0_r, Z.mul_1_r, Rabs_pos_eq by (apply IZR_le; lia). apply big_IZR. lia. }
    split; [split; assumption|]. rewrite H3, Z.pow_0_r, Z.mul_1_r, Hs. apply round_generic; [typeclasses eauto|].
    apply generic_format_FLT. destruct (Z.eq_dec (Z.abs n) (2 ^ 53)) as [He|He].
    + exists (Float radix2 (if n <? 0 then -1 else 1) 53).
      * unfold F2R. cbn [Fnum Fexp]. rewrite <- Hs, <- E, He. rewrite <- (IZR_Zpower radix2) by lia.
        change (radix2 ^ 53)%Z with (2 ^ 53). destruct (n <? 0); unfold sgn; lra.
      * cbn. destruct (n <? 0); lia.
      * cbn. lia.
    + exists (Float radix2 n 0); cbn; [unfold F2R; cbn; lra|lia|lia].
  - lia.
Qed.

(** ** int(x) *)
Lemma SF2R_finite s m e : f2r (S754_finite s m e) = (sgn s * (IZR (Zpos m) * bpow radix2 e))%R.
Proof. cbn [SF2R]. unfold F2R. cbn [Fnum Fexp]. rewrite cond_Zopp_sgn. ring. Qed.

Lemma div_floor a b : 0 < b -> Zfloor (IZR a / IZR b) = a / b.
Proof.
  intros Hb. apply Zfloor_div. lia.
Qed.
Lemma bpow_neg_IZR e : e <= 0 -> bpow radix2 e = (/ IZR (2 ^ (- e)))%R.
Proof.
  intros He. replace e with (- (- e)) at 1 by lia. rewrite bpow_opp, <- IZR_Zpower by lia. reflexivity.
Qed.

Lemma trunc_fin_correct s m e : trunc_fin s m e = Ztrunc (f2r (S754_finite s m e)).
Proof.
  rewrite SF2R_finite. unfold trunc_fin.
  assert (Hpos : Ztrunc (IZR (Zpos m) * bpow radix2 e) = (if 0 <=? e then Z.pos m * 2 ^ e else Z.pos m / 2 ^ (- e))).
  { destruct (0 <=? e) eqn:E.
    - rewrite <- IZR_Zpower by lia. rewrite <- mult_IZR. apply Ztrunc_IZR.
    - rewrite bpow_neg_IZR by lia. rewrite Ztrunc_floor.
      + apply div_floor. apply Z.pow_pos_nonneg; lia.
      + apply Rmult_le_pos; [apply IZR_le; lia|]. apply Rlt_le, Rinv_0_lt_compat, IZR_lt.
        apply Z.pow_pos_nonneg; lia. }
  destruct s; unfold sgn.
  - replace (-1 * (IZR (Z.pos m) * bpow radix2 e))%R with (- (IZR (Z.pos m) * bpow radix2 e))%R by ring.
    rewrite Ztrunc_opp, Hpos. reflexivity.
  - rewrite Rmult_1_l, Hpos. reflexivity.
Qed.
Lemma float_to_int_correct x : is_finite_SF x = true -> float_to_int x = Ok (Ztrunc (f2r x)).
Proof.
  destruct x as [s|s| |s m e]; cbn [is_finite_SF float_to_int]; intros H; try discriminate.
  - cbn. now rewrite Ztrunc_IZR.
  - now rewrite trunc_fin_correct.
Qed.

(** ** "%.kf" *)
Lemma div_half_even_correct n d : 0 < d -> div_half_even n d = ZnearestE (IZR n / IZR d).
Proof.
  intros Hd. unfold div_half_even.
  assert (Hd' : (0 < IZR d)%R) by now apply IZR_lt.
  pose proof (Z.div_mod n d ltac:(lia)) as Hdm. pose proof (Z.mod_pos_bound n d Hd) as Hr.
  set (q := n / d) in *. set (r := n mod d) in *.
  assert (Hx : (IZR n / IZR d = IZR q + IZR r / IZR d)%R).
  { rewrite Hdm, plus_IZR, mult_IZR. field. lra. }
  assert (Hf : Zfloor (IZR n / IZR d) = q) by now apply div_floor.
  unfold Znearest. rewrite Hf.
  assert (Hc : Rcompare (IZR n / IZR d - IZR q) (/ 2) = (2 * r ?= d)).
  { rewrite Hx. replace (IZR q + IZR r / IZR d - IZR q)%R with (IZR r / IZR d)%R by ring.
    rewrite <- (Rcompare_mult_r (2 * IZR d)) by lra.
    replace (IZR r / IZR d * (2 * IZR d))%R with (IZR (2 * r)) by (rewrite mult_IZR; field; lra).
    replace (/ 2 * (2 * IZR d))%R with (IZR d) by field. apply Rcompare_IZR. }
  rewrite Hc. destruct (Z.compare_spec (2 * r) d) as [He|Hl|Hg].
  - assert (Zceil (IZR n / IZR d) = q + 1).
    { rewrite Zceil_floor_neq; rewrite Hf; [reflexivity|]. rewrite Hx. intros E0.
      assert (IZR r / IZR d = 0)%R by lra. assert (IZR r = 0)%R.
      { apply (Rmult_eq_reg_r (/ IZR d)); [unfold Rdiv in *; lra|]. apply Rinv_neq_0_compat. lra. }
      apply eq_IZR in H0. lia. }
    rewrite H. destruct (Z.even q); reflexivity.
  - reflexivity.
  - rewrite Zceil_floor_neq; rewrite Hf; [reflexivity|]. rewrite Hx. intros E0.
    assert (IZR r / IZR d = 0)%R by lra. assert (IZR r = 0)%R.
    { apply (Rmult_eq_reg_r (/ IZR d)); [unfold Rdiv in *; lra|]. apply Rinv_neq_0_compat. lra. }
    apply eq_IZR in H0. lia.
Qed.

Lemma scaled_correct m e k : 0 <= k ->
  scaled m e k = ZnearestE (IZR (Zpos m) * bpow radix2 e * IZR (10 ^ k)).
Proof.
  intros Hk. unfold scaled. destruct (0 <=? e) eqn:E.
  - rewrite <- IZR_Zpower by lia. rewrite <- !mult_IZR.
    symmetry. apply Znearest_imp. change (radix2 : Z) with 2.
    rewrite <- minus_IZR, Z.sub_diag, Rabs_R0. lra.
  - rewrite div_half_even_correct by (apply Z.pow_pos_nonneg; lia). f_equal.
    rewrite bpow_neg_IZR by lia. rewrite mult_IZR. field. apply not_0_IZR.
    assert (0 < 2 ^ (- e)) by (apply Z.pow_pos_nonneg; lia). lia.
Qed.

(** ** printing digits *)
Lemma digit_char n : 0 <= n <= 9 -> digit (ascii_of_N (Z.to_N (48 + n))) /\ dig (ascii_of_N (Z.to_N (48 + n))) = n.
Proof.
  intros H. assert (N_of_ascii (ascii_of_N (Z.to_N (48 + n))) = Z.to_N (48 + n)).
  { apply N_ascii_embedding. lia. }
  unfold digit, dig, nat_of_ascii. rewrite H0. lia.
Qed.
Lemma dec_digits_spec fuel : forall n acc, 0 <= n -> (Z.to_nat n < 10 ^ fuel)%nat \/ n < 2 ^ Z.of_nat fuel ->
  (0 < fuel)%nat ->
  exists ds, dec_digits fuel n acc = ds ++ acc /\ digits ds /\ ds <> [] /\ dec_value ds = n /\
    (forall w, (0 < w)%nat -> n < 10 ^ Z.of_nat w -> (List.length ds <= w)%nat).
Proof.
  induction fuel as [|f IH]; intros n acc Hn Hf Hpos; [lia|].
  cbn [dec_digits]. assert (Hm : 0 <= n mod 10 <= 9) by (pose proof (Z.mod_pos_bound n 10); lia).
  destruct (digit_char _ Hm) as [Hd1 Hd2].
  set (c := ascii_of_N (Z.to_N (48 + n mod 10))) in *. clearbody c.
  destruct (n <? 10) eqn:E.
  - exists [c]. split; [reflexivity|]. split; [constructor; [exact Hd1|constructor]|]. split; [discriminate|]. split.
    + cbn. rewrite Hd2. rewrite Z.mod_small by lia. lia.
    + intros w Hw _. cbn. lia.
  - assert (Hf' : (0 < f)%nat).
    { destruct f; [|lia]. exfalso. destruct Hf as [Hf|Hf]; cbn in Hf; [|lia].
      assert (n < 10) by lia. lia. }
    destruct (IH (n / 10) (c :: acc)) as [ds [H1 [H2 [H3 [H4 H5]]]]].
    + apply Z.div_pos; lia.
    + destruct Hf as [Hf|Hf].
      * left. cbn [Nat.pow] in Hf. apply Nat2Z.inj_lt. rewrite Z2Nat.id by (apply Z.div_pos; lia).
        apply Z.div_lt_upper_bound; [lia|]. lia.
      * right. apply Z.div_lt_upper_bound; [lia|]. rewrite Nat2Z.inj_succ, Z.pow_succ_r in Hf by lia. lia.
    + exact Hf'.
    + exists (ds ++ [c]). split; [|split; [|split; [|split]]].
      * rewrite H1, <- app_assoc. reflexivity.
      * apply digits_app. split; [exact H2|constructor; [exact Hd1|constructor]].
      * destruct ds; discriminate.
      * rewrite dec_value_app, H4. cbn. rewrite Hd2. pose proof (Z.div_mod n 10). lia.
      * intros w Hw Hnw. rewrite app_length. cbn.
        destruct w as [|[|w]]; [lia| |].
        -- cbn in Hnw. lia.
        -- specialize (H5 (S w)). rewrite (Nat2Z.inj_succ (S w)), Z.pow_succ_r in Hnw by lia.
           assert (n / 10 < 10 ^ Z.of_nat (S w)) by (apply Z.div_lt_upper_bound; lia).
           specialize (H5 ltac:(lia) H). lia.
Qed.
Lemma nat_str_spec n : 0 <= n ->
  digits (nat_str n) /\ nat_str n <> [] /\ dec_value (nat_str n) = n /\
  (forall w, (0 < w)%nat -> n < 10 ^ Z.of_nat w -> (List.length (nat_str n) <= w)%nat).
Proof.
  intros Hn. unfold nat_str.
  destruct (dec_digits_spec (S (Z.to_nat (Z.log2 n))) n []) as [ds [H1 [H2 [H3 [H4 H5]]]]]; [exact Hn| |lia|].
  - right. destruct (Z.eq_dec n 0) as [->|Hz]; [cbn; lia|].
    pose proof (Z.log2_spec n ltac:(lia)) as [_ Hl]. pose proof (Z.log2_nonneg n).
    rewrite Nat2Z.inj_succ, Z2Nat.id by lia. exact Hl.
  - rewrite H1, app_nil_r. auto.
Qed.

Lemma dec_value_zeros k s : dec_value (repeat "0"%char k ++ s) = dec_value s.
Proof. induction k as [|k IH]; [reflexivity|]. cbn [repeat app dec_value]. rewrite IH. unfold dig; cbn. lia. Qed.
Lemma pad_left_digits k n : 0 <= n < 10 ^ Z.of_nat k -> (0 < k)%nat ->
  digits (pad_left "0"%char k (nat_str n)) /\ List.length (pad_left "0"%char k (nat_str n)) = k /\
  dec_value (pad_left "0"%char k (nat_str n)) = n.
Proof.
  intros Hn Hk. destruct (nat_str_spec n) as [H1 [H2 [H3 H4]]]; [lia|].
  unfold pad_left, repeat_c. repeat split.
  - apply digits_app. split; [|exact H1]. apply Forall_forall. intros c Hc. apply repeat_spec in Hc. subst. unfold digit; cbn; lia.
  - rewrite app_length, repeat_length. specialize (H4 k Hk ltac:(lia)). lia.
  - now rewrite dec_value_zeros.
Qed.

(** float("%.kf" % x) goes through the exact decimal value *)
Lemma float_lit_fixed_str neg q k : 0 <= q -> (0 < k)%nat ->
  float_lit (fixed_str neg q k) = Some (LDec neg q (- Z.of_nat k)).
Proof.
  intros Hq Hk. unfold fixed_str. set (t := 10 ^ Z.of_nat k).
  assert (Ht : 0 < t) by (apply Z.pow_pos_nonneg; lia).
  destruct k as [|k']; [lia|]. set (k := S k') in *.
  destruct (nat_str_spec (q / t)) as [H1 [H2 [H3 _]]]; [apply Z.div_pos; lia|].
  destruct (pad_left_digits k (q mod t)) as [H4 [H5 H6]]; [apply Z.mod_pos_bound; exact Ht|lia|].
  set (ip := nat_str (q / t)) in *. set (fp := pad_left "0"%char k (nat_str (q mod t))) in *.
  pose proof (float_lit_dec [] neg ip fp [] [] 0) as H. rewrite !app_nil_r in H.
  change ([] ++ sign_str neg ++ ip ++ ["."%char] ++ fp) with (sign_str neg ++ ip ++ "."%char :: fp) in H.
  unfold sign_str in H.
  assert (Hne : ip ++ fp <> []) by (destruct ip; [congruence|discriminate]).
  specialize (H (Forall_nil _) (Forall_nil _) H1 H4 Hne (Forall_nil _) I (fun _ => eq_refl)
    (fun H0 => False_ind _ (H0 eq_refl))).
  eapply eq_trans; [exact H|]. f_equal. rewrite dec_value_app, H5, H3, H6. fold t. f_equal.
  pose proof (Z.div_mod q t). lia.
Qed.
