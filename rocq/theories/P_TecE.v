(** Rounding errors of the TEC values. *)
From Coq Require Import Reals Lra Psatz.
From Flocq Require Import Core Relative.
From Verif Require Import Base PyStr PyFloat S_Text P_Str P_Float P_Div P_NmUtils M_Num M_Label M_Tec S_Tec P_Tec P_TecF.
Open Scope R_scope.

(** relative error [c] times 2^-53 *)
Definition u53 : R := / 9007199254740992.
Lemma u53_bpow : bpow radix2 (-53) = u53.
Proof. unfold u53. cbn. lra. Qed.
Definition rel (x y c : R) : Prop := exists d, x = y * (1 + d) /\ Rabs d <= c * u53.

Lemma u53_pos : 0 < u53 < / 1000000000000000.
Proof. unfold u53. split; [lra|]. apply Rinv_lt_contravar; lra. Qed.
Lemma rel_refl x c : 0 <= c -> rel x x c.
Proof. intros H. exists 0. split; [ring|]. rewrite Rabs_R0. pose proof u53_pos. nra. Qed.
Lemma rel_weaken x y c c' : rel x y c -> c <= c' -> rel x y c'.
Proof. intros [d [E H]] Hc. exists d. split; [exact E|]. pose proof u53_pos. nra. Qed.
Lemma rel_trans x y z c c' : rel x y c -> rel y z c' -> 0 <= c <= 1000 -> 0 <= c' <= 1000 -> rel x z (c + c' + 1).
Proof.
  intros [d [-> H]] [d' [-> H']] Hc Hc'. exists (d + d' + d * d'). split; [ring|].
  pose proof u53_pos. pose proof (Rabs_triang (d + d') (d * d')). pose proof (Rabs_triang d d'). rewrite Rabs_mult in *.
  assert (Rabs d * Rabs d' <= c * u53 * (c' * u53)) by (apply Rmult_le_compat; auto using Rabs_pos).
  assert (c * u53 * (c' * u53) <= u53).
  { assert (c * c' <= 1000000) by nra. assert (c * c' * u53 <= 1000000 * u53) by (apply Rmult_le_compat_r; lra).
    assert (E : u53 * (c * c' * u53) <= u53 * 1) by (apply Rmult_le_compat_l; lra). lra. }
  lra.
Qed.
Lemma rel_mul x x' y y' c c' : rel x x' c -> rel y y' c' -> 0 <= c <= 1000 -> 0 <= c' <= 1000 -> rel (x * y) (x' * y') (c + c' + 1).
Proof.
  intros H1 [d' [-> H']] Hc Hc'. replace (x * (y' * (1 + d'))) with ((x * y') * (1 + d')) by ring.
  destruct H1 as [d [-> H]].
  replace (c + c' + 1) with (c' + c + 1) by ring. apply (rel_trans _ (x' * (1 + d) * y')); [| |exact Hc'|exact Hc].
  - exists d'. split; [ring|exact H'].
  - exists d. split; [ring|exact H].
Qed.
Lemma rel_inv y y' c : rel y y' c -> 0 <= c <= 1000 -> y' <> 0 -> rel (/ y) (/ y') (c + 1) /\ y <> 0.
Proof.
  intros [d [-> H]] Hc Hn. pose proof u53_pos.
  assert (Hd : Rabs d <= / 1000000000) by (assert (c * u53 <= 1000 * u53) by nra; lra).
  assert (D : -/1000000000 <= d <= /1000000000) by (split; [pose proof (Rabs_def2 d (/1000000000 + / 10000000000)); apply Rabs_le_inv in Hd; lra|apply Rabs_le_inv in Hd; lra]).
  assert (N : 1 + d <> 0) by lra. split; [|apply Rmult_integral_contrapositive_currified; assumption].
  exists (- d / (1 + d)). split; [field; split; assumption|].
  unfold Rdiv. rewrite Rabs_mult, Rabs_Ropp, Rabs_inv. rewrite (Rabs_right (1 + d)) by lra.
  assert (/ (1 + d) <= 1 + / 500000000).
  { apply (Rmult_le_reg_l (1 + d)); [lra|]. rewrite Rinv_r by lra. nra. }
  assert (0 < / (1 + d)) by (apply Rinv_0_lt_compat; lra).
  assert (Rabs d * / (1 + d) <= (c * u53) * (1 + / 500000000)) by (apply Rmult_le_compat; [apply Rabs_pos|lra|exact H|assumption]).
  nra.
Qed.
Lemma rel_div x x' y y' c c' : rel x x' c -> rel y y' c' -> 0 <= c <= 990 -> 0 <= c' <= 990 -> y' <> 0 -> rel (x / y) (x' / y') (c + c' + 2).
Proof.
  intros H1 H2 Hc Hc' Hn. destruct (rel_inv _ _ _ H2) as [H3 _]; [lra|exact Hn|]. unfold Rdiv. 
  eapply rel_weaken; [apply (rel_mul _ _ _ _ _ _ H1 H3); lra|lra].
Qed.
Lemma rel_bounds x y c : rel x y c -> 0 <= c <= 1000 -> Rabs y / 2 <= Rabs x <= Rabs y * 2.
Proof.
  intros [d [-> H]] Hc. pose proof u53_pos. rewrite Rabs_mult.
  assert (Hd : Rabs d <= / 2) by nra. apply Rabs_le_inv in Hd. rewrite (Rabs_right (1 + d)) by lra. pose proof (Rabs_pos y). nra.
Qed.
(** rounding, away from underflow *)
Lemma rel_rnd x : x = 0 \/ bpow radix2 (-1022) <= Rabs x -> rel (rnd64 x) x 1.
Proof.
  intros [->|H].
  - rewrite round_0 by typeclasses eauto. apply rel_refl. lra.
  - destruct (relative_error_N_FLT_ex radix2 (-1074) 53 ltac:(lia) (fun z => negb (Z.even z)) x) as [d [Hd E]]; [exact H|].
    exists d. split; [exact E|]. eapply Rle_trans; [exact Hd|].
    rewrite Rmult_1_l, <- u53_bpow, bpow_plus. change (bpow radix2 1) with 2. change (- (53))%Z with (-53)%Z. pose proof (bpow_gt_0 radix2 (-53)). lra.
Qed.
Lemma bpow_small k : (k <= 0)%Z -> bpow radix2 k = / IZR (2 ^ (- k)).
Proof. intros H. replace k with (- (- k))%Z at 1 by lia. rewrite bpow_opp. rewrite <- (IZR_Zpower radix2 (- k)) by lia. reflexivity. Qed.
Lemma small_ok x : / IZR (2 ^ 1000) <= Rabs x -> x = 0 \/ bpow radix2 (-1022) <= Rabs x.
Proof.
  intros H. right. eapply Rle_trans; [|exact H]. change (2 ^ 1000)%Z with (2 ^ (- -1000))%Z. rewrite <- (bpow_small (-1000)) by lia. apply bpow_le. lia.
Qed.

(** ** operations: the value of a good float and its relative error against a real *)
Definition near (x : float) (y c : R) : Prop := good x /\ rel (f2r x) y c.
(** not too large, not too small *)
Definition mid (k : Z) (y : R) : Prop := / IZR (2 ^ k) <= Rabs y <= IZR (2 ^ k).

Lemma mid_mono k k' y : mid k y -> (0 <= k <= k')%Z -> mid k' y.
Proof.
  intros [H1 H2] Hk. assert (IZR (2 ^ k) <= IZR (2 ^ k')) by (apply IZR_le, Z.pow_le_mono_r; lia).
  assert (0 < IZR (2 ^ k)) by (apply IZR_lt, Z.pow_pos_nonneg; lia). split; [|lra].
  eapply Rle_trans; [|exact H1]. apply Rinv_le_contravar; lra.
Qed.
Lemma pow_succ k : (0 <= k)%Z -> IZR (2 ^ (k + 1)) = 2 * IZR (2 ^ k).
Proof. intros H. rewrite Z.pow_add_r by lia. rewrite mult_IZR. cbn. lra. Qed.
Lemma mid_rel k x y c : mid k y -> rel x y c -> 0 <= c <= 1000 -> (0 <= k)%Z -> mid (k + 1) x.
Proof.
  intros [H1 H2] Hr Hc Hk. destruct (rel_bounds _ _ _ Hr Hc) as [A B]. unfold mid. rewrite pow_succ by lia.
  assert (0 < IZR (2 ^ k)) by (apply IZR_lt, Z.pow_pos_nonneg; lia). split; [|lra]. rewrite Rinv_mult. lra.
Qed.
Lemma mid_mul j k x y : mid j x -> mid k y -> (0 <= j)%Z -> (0 <= k)%Z -> mid (j + k) (x * y).
Proof.
  intros [A B] [C D] Hj Hk. unfold mid. rewrite Rabs_mult, Z.pow_add_r, mult_IZR by lia.
  assert (0 < IZR (2 ^ k)) by (apply IZR_lt, Z.pow_pos_nonneg; lia). assert (0 < IZR (2 ^ j)) by (apply IZR_lt, Z.pow_pos_nonneg; lia).
  assert (0 < / IZR (2 ^ k)) by now apply Rinv_0_lt_compat. assert (0 < / IZR (2 ^ j)) by now apply Rinv_0_lt_compat.
  rewrite Rinv_mult. split; apply Rmult_le_compat; auto using Rabs_pos; lra.
Qed.
Lemma mid_inv k y : mid k y -> (0 <= k)%Z -> mid k (/ y) /\ y <> 0.
Proof.
  intros [A B] Hk. assert (0 < IZR (2 ^ k)) by (apply IZR_lt, Z.pow_pos_nonneg; lia). assert (0 < / IZR (2 ^ k)) by now apply Rinv_0_lt_compat.
  split; [|intros ->; rewrite Rabs_R0 in A; lra]. unfold mid. rewrite Rabs_inv. split.
  - apply Rinv_le_contravar; [lra|exact B].
  - rewrite <- (Rinv_inv (IZR (2 ^ k))). apply Rinv_le_contravar; [lra|exact A].
Qed.
Lemma mid_good k x : mid k x -> (0 <= k <= 1000)%Z -> Rabs x <= big /\ (x = 0 \/ bpow radix2 (-1022) <= Rabs x).
Proof.
  intros H Hk. apply (mid_mono _ 1000) in H; [|exact Hk]. destruct H as [A B]. split.
  - unfold big. rewrite <- (IZR_Zpower radix2 1000) by lia. exact B.
  - now apply small_ok.
Qed.

Lemma near_mul j k x y a b ca cb : near x a ca -> near y b cb -> 0 <= ca <= 990 -> 0 <= cb <= 990 -> mid j a -> mid k b ->
  (0 <= j <= 400)%Z -> (0 <= k <= 400)%Z -> ca + cb + 2 <= 990 -> near (fmul x y) (a * b) (ca + cb + 3) /\ mid (j + k) (a * b).
Proof.
  intros [G1 R1] [G2 R2] Ha Hb Ma Mb Hj Hk Hs. split; [|apply mid_mul; [assumption..|lia|lia]].
  pose proof (rel_mul _ _ _ _ _ _ R1 R2 ltac:(lra) ltac:(lra)) as R3.
  pose proof (mid_mul _ _ _ _ Ma Mb ltac:(lia) ltac:(lia)) as M3. pose proof (mid_rel _ _ _ _ M3 R3 ltac:(lra) ltac:(lia)) as M4.
  destruct (mid_good _ _ M4) as [B S]; [lia|].
  destruct (fmul_correct x y G1 G2 B) as [G E]. split; [exact G|]. rewrite E.
  eapply rel_weaken; [apply (rel_trans _ _ _ _ _ (rel_rnd _ S) R3); lra|lra].
Qed.
Lemma near_div j k x y a b ca cb : near x a ca -> near y b cb -> 0 <= ca <= 980 -> 0 <= cb <= 980 -> mid j a -> mid k b ->
  (0 <= j <= 400)%Z -> (0 <= k <= 400)%Z -> ca + cb + 3 <= 980 -> exists q, fdiv x y = Ok q /\ near q (a / b) (ca + cb + 4) /\ mid (j + k) (a / b).
Proof.
  intros [G1 R1] [G2 R2] Ha Hb Ma Mb Hj Hk Hs. destruct (mid_inv _ _ Mb ltac:(lia)) as [Mi Nb].
  destruct (rel_inv _ _ _ R2 ltac:(lra) Nb) as [_ Ny].
  pose proof (rel_div _ _ _ _ _ _ R1 R2 ltac:(lra) ltac:(lra) Nb) as R3.
  pose proof (mid_mul _ _ _ _ Ma Mi ltac:(lia) ltac:(lia)) as M3. fold (a / b) in M3.
  pose proof (mid_rel _ _ _ _ M3 R3 ltac:(lra) ltac:(lia)) as M4.
  destruct (mid_good _ _ M4) as [B S]; [lia|].
  destruct (fdiv_correct x y G1 G2 Ny B) as [q [E [G E2]]]. exists q. split; [exact E|]. split; [|exact M3]. split; [exact G|]. rewrite E2.
  eapply rel_weaken; [apply (rel_trans _ _ _ _ _ (rel_rnd _ S) R3); lra|lra].
Qed.
