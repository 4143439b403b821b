(** The carriers of the columns satisfy the hypotheses of the rounding theorems; examples. *)
From Coq Require Import Reals Lra Psatz.
From Flocq Require Import Core.
From Verif Require Import Base PyStr PyFloat S_Text P_Str P_Float P_NmUtils M_Num M_Label M_Tec S_Tec P_Tec P_TecF P_TecE P_TecG.
Open Scope R_scope.

Lemma apart_Z f1 f2 a b : exactly f1 a -> exactly f2 b -> (a * a + b * b <= 25 * Z.abs (a * a - b * b))%Z -> apart f1 f2.
Proof.
  intros [_ E1] [_ E2] H. unfold apart, real. rewrite E1, E2, <- !mult_IZR, <- minus_IZR, <- plus_IZR, <- abs_IZR, <- mult_IZR. now apply IZR_le.
Qed.
Lemma band_in system k band f m : In system (lit "GRSCE") -> In band (lit "125678") -> (Z.abs k <= 2 ^ 20)%Z ->
  band_freq (system_freqs (Fops m) system (glo_f1 (Fops m) (float_of_Z k), glo_f2 (Fops m) (float_of_Z k))) band = Some f ->
  exists base step, In (system, band, (base, step)) carriers /\ exactly f (base + k * step).
Proof.
  intros Hs Hb Hk E. destruct (In_dec (fun (x y : ascii * ascii) => ltac:(decide equality; apply ascii_dec)) (system, band) (map fst carriers)) as [I|N].
  - apply in_map_iff in I as [[[s b] [ba st]] [E1 I]]. cbn in E1. injection E1 as -> ->. exists ba, st. split; [exact I|].
    destruct (carrier_exact m _ _ k _ _ I Hk) as [f' [E2 X]]. cbn zeta in E2. rewrite E in E2. injection E2 as ->. exact X.
  - rewrite carrier_none in E; [discriminate|exact Hs|exact Hb|]. intros p I. apply N. apply in_map_iff. exists (system, band, p). auto.
Qed.
Lemma columns_apart m system k x y f1 f2 : In system (lit "GRSCE") -> In (x, y) band_pairs -> (Z.abs k <= 100)%Z ->
  let fr := system_freqs (Fops m) system (glo_f1 (Fops m) (float_of_Z k), glo_f2 (Fops m) (float_of_Z k)) in
  band_freq fr x = Some f1 -> band_freq fr y = Some f2 ->
  apart f1 f2 /\ (forall f, In f [f1; f2] -> is_real f /\ 1000000000 <= real f <= 2000000000).
Proof.
  intros Hs Hp Hk fr E1 E2. assert (Hk' : (Z.abs k <= 2 ^ 20)%Z) by (clear - Hk; change (2 ^ 20)%Z with 1048576%Z; lia).
  assert (Bx : In x (lit "125678") /\ In y (lit "125678")).
  { cbn in Hp. repeat destruct Hp as [Hp|Hp]; try contradiction; injection Hp as <- <-; cbn; auto 10. }
  destruct (band_in _ _ _ _ _ Hs (proj1 Bx) Hk' E1) as [b1 [s1 [I1 X1]]]. destruct (band_in _ _ _ _ _ Hs (proj2 Bx) Hk' E2) as [b2 [s2 [I2 X2]]].
  assert (Z1 : (1000000000 <= b1 + k * s1 <= 2000000000 /\ 1000000000 <= b2 + k * s2 <= 2000000000 /\
    (b1 + k * s1) * (b1 + k * s1) + (b2 + k * s2) * (b2 + k * s2) <= 25 * Z.abs ((b1 + k * s1) * (b1 + k * s1) - (b2 + k * s2) * (b2 + k * s2)))%Z).
  { clear - Hp I1 I2 Hk. cbn [In band_pairs] in Hp. 
    repeat destruct Hp as [Hp|Hp]; try contradiction; injection Hp as <- <-; cbn [In carriers] in I1, I2;
    repeat destruct I1 as [I1|I1]; try contradiction; try discriminate I1; injection I1 as <- <- <-;
    repeat destruct I2 as [I2|I2]; try contradiction; try discriminate I2; injection I2 as <- <-; try (rewrite !Z.mul_0_r, !Z.add_0_r; repeat split; vm_compute; discriminate).
    repeat split; lia. }
  destruct Z1 as [A [B C]]. split; [now apply (apart_Z _ _ _ _ X1 X2)|].
  intros f [<-|[<-|[]]]; [destruct X1 as [G E]|destruct X2 as [G E]]; (split; [exact G|]); unfold real; rewrite E; split; apply IZR_le; lia.
Qed.

(** a library whose squares are rounded products *)
Definition ex_libm : libm := mkLibm (fun x => x) (fun x => x) (fun x => x) (fun x _ => x) (fun x _ => fmul x x).
Lemma ex_square f : is_real f -> 1000000000 <= real f <= 2000000000 -> carrier ex_libm f.
Proof.
  intros G B. split; [exact G|]. split; [exact B|]. cbn. unfold square_accurate. cbn [l_pow ex_libm].
  assert (Q : 0 < real f * real f <= 4000000000000000000) by nra.
  destruct (fmul_correct f f G G) as [G2 E].
  { fold (real f). apply (mid_good 62); [|lia]. split; rewrite Rabs_right by lra; change (2 ^ 62)%Z with 4611686018427387904%Z; [nra|lra]. }
  split; [exact G2|]. unfold real at 1. rewrite E. fold (real f).
  destruct (rel_rnd (real f * real f)) as [d [Ed Hd]].
  { right. apply Rle_trans with (bpow radix2 0); [apply bpow_le; lia|]. cbn. rewrite Rabs_right; nra. }
  rewrite Ed. replace (real f * real f * (1 + d) - real f * real f) with (d * (real f * real f)) by ring. rewrite Rabs_mult, (Rabs_right (real f * real f)) by lra.
  apply Rmult_le_compat_r; [lra|]. eapply Rle_trans; [exact Hd|]. unfold u53. lra.
Qed.
Lemma ex_gps : carrier ex_libm (gps_f1 (Fops ex_libm)) /\ carrier ex_libm (gps_f2 (Fops ex_libm)) /\ apart (gps_f1 (Fops ex_libm)) (gps_f2 (Fops ex_libm)).
Proof.
  destruct (columns_apart ex_libm "G" 0 "1" "2" (gps_f1 (Fops ex_libm)) (gps_f2 (Fops ex_libm))) as [A B]; [cbn; auto|cbn; auto|lia|reflexivity|reflexivity|].
  split; [apply ex_square; apply B; left; reflexivity|]. split; [apply ex_square; apply B; right; left; reflexivity|exact A].
Qed.
Lemma ex_range : pseudorange (float_of_Z 21000000) /\ pseudorange (float_of_Z 21000013) /\ phase (float_of_Z 110358000).
Proof.
  assert (H : forall n, (1 <= n <= 1000000000)%Z -> pseudorange (float_of_Z n)).
  { intros n Hn. destruct (float_of_Z_correct n) as [G E]; [lia|]. split; [exact G|]. unfold real. rewrite E. split; apply IZR_le; lia. }
  split; [apply H; lia|]. split; [apply H; lia|]. destruct (H 110358000%Z ltac:(lia)) as [G B]. split; [exact G|]. rewrite Rabs_right by lra. lra.
Qed.
