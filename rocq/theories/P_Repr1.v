(** The shortest decimal of a float reads back as that float. *)
From Coq Require Import Reals Lra ZifyBool ZifyNat.
From Flocq Require Import Core.Core IEEE754.BinarySingleNaN.
From Verif Require Import Base PyStr PyFloat PyRepr S_Text P_Str P_Float.
Open Scope Z_scope.

Definition r10 : radix := Build_radix 10 eq_refl.

(** ** b64_of_dec is a function of the sign and the real number *)
Lemma dec_flocq neg p e : let v := (IZR (Zpos p) * bpow r10 e)%R in
  if Rlt_bool (Rabs (rnd64 v)) (bpow radix2 1024)
  then good (b64_of_dec neg (Zpos p) e) /\ f2r (b64_of_dec neg (Zpos p) e) = rnd64 (sgn neg * v) /\ sign_SF (b64_of_dec neg (Zpos p) e) = neg
  else b64_of_dec neg (Zpos p) e = S754_infinity neg.
Proof.
  cbv zeta. set (v := (IZR (Zpos p) * bpow r10 e)%R).
  assert (Habs : Rabs (rnd64 (sgn neg * v)) = Rabs (rnd64 v)).
  { destruct neg; unfold sgn; [|now rewrite Rmult_1_l]. replace (-1 * v)%R with (- v)%R by lra. rewrite round_NE_opp. apply Rabs_Ropp. }
  rewrite <- Habs. unfold b64_of_dec. change fprec with 53. change femax with 1024. destruct (Z.leb_spec 0 e) as [He|He].
  - assert (Hq : exists q, Zpos p * 10 ^ e = Zpos q).
    { assert (0 < Zpos p * 10 ^ e) by (apply Z.mul_pos_pos; [lia|apply Z.pow_pos_nonneg; lia]). destruct (Zpos p * 10 ^ e) eqn:E; try lia. eauto. }
    destruct Hq as [q Hq]. assert (Ev : v = IZR (Zpos q)).
    { unfold v. rewrite <- Hq, mult_IZR. f_equal. symmetry. exact (IZR_Zpower r10 e He). }
    rewrite Hq, Ev. cbn [Z.to_pos]. rewrite binary_round_equiv.
    pose proof (binary_round_correct 53 1024 _ _ mode_NE neg q 0) as H. cbv zeta in H.
    assert (Ex : (@F2R radix2 {| Fnum := cond_Zopp neg (Z.pos q); Fexp := 0 |} = sgn neg * IZR (Z.pos q) :> R)%R).
    { unfold F2R. cbn [Fnum Fexp bpow]. rewrite cond_Zopp_sgn. lra. }
    rewrite Ex in H. change (round_mode mode_NE) with ZnearestE in H. rewrite fexp_eq in H. unfold good.
    destruct (Rlt_bool _ _); [destruct H as [H1 [H2 [H3 H4]]]; repeat split; assumption|exact (proj2 H)].
  - assert (Hq : exists q, 10 ^ (- e) = Zpos q).
    { assert (0 < 10 ^ (- e)) by (apply Z.pow_pos_nonneg; lia). destruct (10 ^ (- e)) eqn:E; try lia. eauto. }
    destruct Hq as [q Hq]. assert (Ev : v = (IZR (Zpos p) / IZR (Zpos q))%R).
    { unfold v, Rdiv. rewrite <- Hq. f_equal. replace e with (- (- e)) at 1 by lia. rewrite bpow_opp. f_equal. symmetry. apply (IZR_Zpower r10). lia. }
    rewrite Hq, Ev.
    pose proof (Bdiv_correct_aux 53 1024 _ _ mode_NE neg p 0 false q 0) as H. cbv zeta in H.
    destruct (SFdiv_core_binary 53 1024 (Z.pos p) 0 (Z.pos q) 0) as [[mz ez] lz].
    rewrite binary_round_aux_equiv. rewrite xorb_false_r in H.
    assert (Ex : (@F2R radix2 {| Fnum := cond_Zopp neg (Z.pos p); Fexp := 0 |} / @F2R radix2 {| Fnum := cond_Zopp false (Z.pos q); Fexp := 0 |}
      = sgn neg * (IZR (Z.pos p) / IZR (Z.pos q)) :> R)%R).
    { unfold F2R. cbn [Fnum Fexp bpow cond_Zopp]. rewrite cond_Zopp_sgn. field. apply not_0_IZR. lia. }
    rewrite Ex in H. change (round_mode mode_NE) with ZnearestE in H. rewrite fexp_eq in H. unfold good.
    destruct (Rlt_bool _ _); [destruct H as [H1 [H2 [H3 H4]]]; repeat split; assumption|exact (proj2 H)].
Qed.
Lemma good_inj x y : good x -> good y -> f2r x = f2r y -> sign_SF x = sign_SF y -> x = y.
Proof.
  intros Hx Hy Hr Hs. destruct (good_B x Hx) as [bx [Ex [Fx Rx]]]. destruct (good_B y Hy) as [by_ [Ey [Fy Ry]]].
  rewrite <- Ex, <- Ey. f_equal. apply (B2R_Bsign_inj _ _ bx by_ Fx Fy); [congruence|]. rewrite <- Ex, <- Ey in Hs. clear - Hs. destruct bx, by_; exact Hs.
Qed.
Lemma dec_same neg p e p' e' : (IZR (Zpos p) * bpow r10 e = IZR (Zpos p') * bpow r10 e')%R -> b64_of_dec neg (Zpos p) e = b64_of_dec neg (Zpos p') e'.
Proof.
  intros H. pose proof (dec_flocq neg p e) as H1. pose proof (dec_flocq neg p' e') as H2. cbv zeta in *. rewrite <- H in H2.
  destruct (Rlt_bool _ _); [|congruence]. destruct H1 as [G1 [R1 S1]], H2 as [G2 [R2 S2]]. apply good_inj; [exact G1|exact G2|congruence|congruence].
Qed.

(** ** the decimal exponent *)
Lemma grow_spec f : forall n d k, 0 < d <= n -> n < d * 10 ^ Z.of_nat f -> exists j, 0 <= j /\ grow f n d k = k + j /\ d * 10 ^ j <= n < d * 10 ^ (j + 1).
Proof.
  induction f as [|f IH]; intros n d k Hd Hf; cbn [grow].
  - cbn in Hf. lia.
  - destruct (Z.leb_spec (d * 10) n) as [H|H].
    + destruct (IH n (d * 10) (k + 1)) as [j [J1 [J2 J3]]]; [lia| |].
      { rewrite Nat2Z.inj_succ, Z.pow_succ_r in Hf by lia. lia. }
      exists (j + 1). split; [lia|]. split; [lia|].
      assert (E1 : d * 10 ^ (j + 1) = d * 10 * 10 ^ j) by (rewrite (Z.pow_add_r 10 j 1) by lia; ring).
      assert (E2 : d * 10 ^ (j + 1 + 1) = d * 10 * 10 ^ (j + 1)) by (rewrite (Z.pow_add_r 10 (j + 1) 1) by lia; ring).
      rewrite E1, E2. exact J3.
    + exists 0. split; [lia|]. split; [lia|]. cbn. lia.
Qed.
Lemma shrink_spec f : forall n d k, 0 < n -> d <= n * 10 ^ Z.of_nat f -> exists j, 0 <= j /\ shrink f n d k = k - j /\ d <= n * 10 ^ j /\ (j = 0 \/ n * 10 ^ (j - 1) < d).
Proof.
  induction f as [|f IH]; intros n d k Hn Hf; cbn [shrink].
  - exists 0. split; [lia|]. split; [lia|]. cbn in *. lia.
  - destruct (Z.leb_spec d n) as [H|H].
    + exists 0. split; [lia|]. split; [lia|]. cbn. lia.
    + destruct (IH (n * 10) d (k - 1)) as [j [J1 [J2 [J3 J4]]]]; [lia| |].
      { rewrite Nat2Z.inj_succ, Z.pow_succ_r in Hf by lia. lia. }
      exists (j + 1). split; [lia|]. split; [lia|]. split; [rewrite Z.pow_add_r by lia; cbn; lia|]. right. replace (j + 1 - 1) with j by lia.
      destruct J4 as [->|J4]; [cbn; lia|]. replace j with (Z.succ (j - 1)) by lia. destruct (Z.eq_dec j 0) as [->|Hj]; [cbn in *; lia|].
      rewrite Z.pow_succ_r by lia. lia.
Qed.
Lemma log_fuel n : 0 < n -> n < 10 ^ Z.of_nat (S (Z.to_nat (Z.log2 n))).
Proof.
  intros Hn. pose proof (Z.log2_spec n Hn) as [_ H]. pose proof (Z.log2_nonneg n). rewrite Nat2Z.inj_succ, Z2Nat.id by lia.
  eapply Z.lt_le_trans; [exact H|]. apply Z.pow_le_mono_l. lia.
Qed.
Lemma dec_exp_spec n d : 0 < n -> 0 < d -> (bpow r10 (dec_exp n d) <= IZR n / IZR d < bpow r10 (dec_exp n d + 1))%R.
Proof.
  intros Hn Hd. assert (Rd : (0 < IZR d)%R) by (apply IZR_lt; lia). unfold dec_exp. destruct (Z.leb_spec d n) as [H|H].
  - destruct (grow_spec (S (Z.to_nat (Z.log2 n))) n d 0) as [j [J1 [-> [J2 J3]]]]; [lia| |].
    { pose proof (log_fuel n Hn). nia. }
    rewrite Z.add_0_l. rewrite <- !(IZR_Zpower r10) by lia. change (r10 : Z) with 10. split.
    + apply Rmult_le_reg_r with (IZR d); [exact Rd|]. unfold Rdiv. rewrite Rmult_assoc, Rinv_l, Rmult_1_r by lra. rewrite <- mult_IZR. apply IZR_le. lia.
    + apply Rmult_lt_reg_r with (IZR d); [exact Rd|]. unfold Rdiv. rewrite Rmult_assoc, Rinv_l, Rmult_1_r by lra. rewrite <- mult_IZR. apply IZR_lt. lia.
  - destruct (shrink_spec (S (Z.to_nat (Z.log2 d))) n d 0) as [j [J1 [-> [J2 J3]]]]; [lia| |].
    { pose proof (log_fuel d Hd). nia. }
    destruct J3 as [->|J3]; [cbn in J2; lia|]. assert (Hj : 0 < j) by (destruct (Z.eq_dec j 0) as [->|]; [cbn in J2; lia|lia]).
    replace (0 - j) with (- j) by lia. replace (- j + 1) with (- (j - 1)) by lia. rewrite !bpow_opp. rewrite <- !(IZR_Zpower r10) by lia. change (r10 : Z) with 10.
    assert (P1 : (0 < IZR (10 ^ j))%R) by (apply IZR_lt, Z.pow_pos_nonneg; lia). assert (P2 : (0 < IZR (10 ^ (j - 1)))%R) by (apply IZR_lt, Z.pow_pos_nonneg; lia).
    split.
    + apply Rmult_le_reg_r with (IZR d * IZR (10 ^ j))%R; [apply Rmult_lt_0_compat; assumption|]. replace (/ IZR (10 ^ j) * (IZR d * IZR (10 ^ j)))%R with (IZR d) by (field; lra).
      replace (IZR n / IZR d * (IZR d * IZR (10 ^ j)))%R with (IZR n * IZR (10 ^ j))%R by (field; lra). rewrite <- mult_IZR. apply IZR_le. lia.
    + apply Rmult_lt_reg_r with (IZR d * IZR (10 ^ (j - 1)))%R; [apply Rmult_lt_0_compat; assumption|]. replace (/ IZR (10 ^ (j - 1)) * (IZR d * IZR (10 ^ (j - 1))))%R with (IZR d) by (field; lra).
      replace (IZR n / IZR d * (IZR d * IZR (10 ^ (j - 1))))%R with (IZR n * IZR (10 ^ (j - 1)))%R by (field; lra). rewrite <- mult_IZR. apply IZR_lt. lia.
Qed.

(** ** the nearest decimal *)
Lemma beside_near n d s : 0 < n -> 0 < d -> (Rabs (IZR (fst (beside n d s)) * bpow r10 (- s) - IZR n / IZR d) <= / 2 * bpow r10 (- s))%R.
Proof.
  intros Hn Hd. assert (Rd : (0 < IZR d)%R) by (apply IZR_lt; lia).
  assert (H : exists a b, fst (beside n d s) = div_half_even a b /\ 0 < b /\ (IZR a / IZR b = IZR n / IZR d * bpow r10 s)%R).
  { unfold beside. destruct (Z.leb_spec 0 s) as [Hs|Hs]; cbv zeta; cbn [fst].
    - exists (n * 10 ^ s), d. split; [reflexivity|]. split; [exact Hd|]. rewrite mult_IZR. change 10 with (r10 : Z). rewrite IZR_Zpower by exact Hs. field. lra.
    - exists n, (d * 10 ^ (- s)). split; [reflexivity|]. split; [apply Z.mul_pos_pos; [exact Hd|apply Z.pow_pos_nonneg; lia]|]. rewrite mult_IZR. change 10 with (r10 : Z). rewrite IZR_Zpower by lia.
      rewrite bpow_opp. pose proof (bpow_gt_0 r10 s). field. lra. }
  destruct H as [a [b [-> [Hb E]]]]. rewrite div_half_even_correct by exact Hb. rewrite E. set (y := (IZR n / IZR d)%R).
  pose proof (Znearest_half (fun x => negb (Z.even x)) (y * bpow r10 s)) as Hz. pose proof (bpow_gt_0 r10 (- s)) as Hp.
  replace (IZR (ZnearestE (y * bpow r10 s)) * bpow r10 (- s) - y)%R with ((IZR (ZnearestE (y * bpow r10 s)) - y * bpow r10 s) * bpow r10 (- s))%R.
  2: { rewrite Rmult_minus_distr_r, Rmult_assoc, <- bpow_plus. replace (s + - s) with 0 by lia. cbn [bpow]. ring. }
  rewrite Rabs_mult, (Rabs_pos_eq (bpow r10 (- s))) by lra. apply Rmult_le_compat_r; [lra|]. rewrite Rabs_minus_sym. exact Hz.
Qed.

(** ** a decimal within half of 10^-16 rounds back *)
Lemma rounds_back r v : generic_format radix2 fexp64 r -> (0 < r)%R -> (Rabs (v - r) <= / 2 * bpow r10 (-16) * r)%R -> rnd64 v = r.
Proof.
  intros Hg Hr Hv.
  assert (Hc : (bpow r10 (-16) < bpow radix2 (-53))%R).
  { cbn [bpow r10 radix2 Z.pow_pos radix_val]. apply Rinv_lt_contravar; [apply Rmult_lt_0_compat; apply IZR_lt; reflexivity|]. apply IZR_lt. reflexivity. }
  assert (Hlt : (Rabs (v - r) < / 2 * bpow radix2 (-53) * r)%R).
  { eapply Rle_lt_trans; [exact Hv|]. apply Rmult_lt_compat_r; [exact Hr|]. apply Rmult_lt_compat_l; [lra|exact Hc]. }
  apply Rabs_lt_inv in Hlt. pose proof (bpow_mag_gt radix2 r) as Hex. rewrite Rabs_pos_eq in Hex by lra. set (ex := mag_val radix2 r (mag radix2 r)) in *.
  assert (Hf : forall e, (bpow radix2 (e - 53) <= bpow radix2 (fexp64 e))%R) by (intros e; apply bpow_le; unfold FLT_exp; lia).
  assert (Hu : (bpow radix2 (-53) * r < ulp radix2 fexp64 r)%R).
  { rewrite ulp_neq_0 by lra. unfold cexp. fold ex. eapply Rlt_le_trans; [|apply Hf]. unfold Zminus. rewrite bpow_plus, Rmult_comm.
    apply Rmult_lt_compat_r; [apply bpow_gt_0|exact Hex]. }
  apply Rle_antisym.
  - apply round_N_le_midp; [typeclasses eauto|exact Hg|]. rewrite succ_eq_pos by lra. lra.
  - apply round_N_ge_midp; [typeclasses eauto|exact Hg|]. rewrite pred_eq_pos by lra. unfold pred_pos. fold ex.
    destruct (Req_bool_spec r (bpow radix2 (ex - 1))) as [E|E]; [|lra].
    assert (bpow radix2 (-53) * r <= bpow radix2 (fexp64 (ex - 1)))%R; [|lra].
    rewrite E at 1. rewrite <- bpow_plus. replace (-53 + (ex - 1)) with (ex - 1 - 53) by lia. apply Hf.
Qed.
