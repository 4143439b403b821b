(** Division, comparison, floor and ceiling of binary64, relative error. *)
From Coq Require Import Reals Lra ZifyBool ZifyNat.
From Flocq Require Import Core.Core IEEE754.BinarySingleNaN.
From Flocq.Prop Require Import Relative.
From Verif Require Import Base PyStr PyFloat S_Text P_Str P_Float P_Sec.
Open Scope Z_scope.

Lemma B2SF_Bdiv x y : SFdiv 53 1024 (B2SF x) (B2SF y) = B2SF (Bdiv mode_NE x y).
Proof.
  destruct x as [sx|sx| |sx mx ex Bx]; destruct y as [sy|sy| |sy my ey By]; try reflexivity.
  simpl. rewrite B2SF_SF2B.
  set (melz := SFdiv_core_binary _ _ _ _ _ _); case melz as [[mz ez] lz]. apply binary_round_aux_equiv.
Qed.
Lemma fdiv_correct x y : good x -> good y -> f2r y <> 0%R -> (Rabs (f2r x / f2r y) <= big)%R ->
  exists z, fdiv x y = Ok z /\ good z /\ f2r z = rnd64 (f2r x / f2r y).
Proof.
  intros Hx Hy Hn Hb. exists (SFdiv 53 1024 x y). split.
  { unfold fdiv. destruct y; try reflexivity. cbn in Hn. lra. }
  destruct (good_B x Hx) as [bx [<- [Fx Rx]]]. destruct (good_B y Hy) as [by_ [<- [Fy Ry]]].
  rewrite B2SF_Bdiv. rewrite <- Rx, <- Ry in *.
  pose proof (Bdiv_correct 53 1024 _ _ mode_NE bx by_ Hn) as H.
  change (round_mode mode_NE) with ZnearestE in H. rewrite fexp_eq in H.
  rewrite big_ok in H by exact Hb. destruct H as [H1 [H2 _]]. rewrite Fx in H2.
  split; [now apply B_good|]. now rewrite SF2R_B2SF.
Qed.
Lemma fltb_correct x y : good x -> good y -> fltb x y = Rlt_bool (f2r x) (f2r y).
Proof.
  intros Hx Hy. destruct (good_B x Hx) as [bx [<- [Fx Rx]]]. destruct (good_B y Hy) as [by_ [<- [Fy Ry]]].
  rewrite <- Rx, <- Ry. rewrite <- (Bltb_correct _ _ _ _ Fx Fy). reflexivity.
Qed.
Lemma fleb_correct x y : good x -> good y -> fleb x y = Rle_bool (f2r x) (f2r y).
Proof.
  intros Hx Hy. destruct (good_B x Hx) as [bx [<- [Fx Rx]]]. destruct (good_B y Hy) as [by_ [<- [Fy Ry]]].
  rewrite <- Rx, <- Ry. rewrite <- (Bleb_correct _ _ _ _ Fx Fy). reflexivity.
Qed.
Lemma f2r_zero_iff x : good x -> (f2r x = 0%R <-> ftruth x = false).
Proof.
  intros [_ H]. destruct x as [s|s| |s m e]; try discriminate; cbn.
  - split; reflexivity.
  - split; [|discriminate]. intros E. exfalso. rewrite <- (SF2R_finite s m e) in E || idtac.
    unfold Defs.F2R in E. cbn in E.
    assert (0 < bpow radix2 e)%R by apply bpow_gt_0.
    destruct s; cbn in E;
      [assert (IZR (Z.neg m) < 0)%R by (apply IZR_lt; lia) | assert (0 < IZR (Z.pos m))%R by (apply IZR_lt; lia)]; nra.
Qed.
(** relative error of a rounding in the normal range *)
Lemma rnd_rel y : (bpow radix2 (-1000) <= Rabs y)%R -> (Rabs (rnd64 y - y) <= bpow radix2 (-53) * Rabs y)%R.
Proof.
  intros H. eapply Rle_trans; [apply relative_error_N_FLT|].
  - lia.
  - eapply Rle_trans; [|exact H]. apply bpow_le. lia.
  - right. f_equal. change (/ 2)%R with (bpow radix2 (-1)). rewrite <- bpow_plus. reflexivity.
Qed.
