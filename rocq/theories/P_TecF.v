(** Rounding: the binary64 TEC values and frequencies. *)
From Coq Require Import Reals Lra Psatz.
From Flocq Require Import Core.
From Verif Require Import Base PyStr PyFloat S_Text P_Str P_Float P_Div P_NmUtils M_Num M_Label M_Tec S_Tec P_Tec.
Open Scope R_scope.

(** ** exactly representable numbers *)
Lemma fmt_dyadic n e : (Z.abs n < 2 ^ 53)%Z -> (-1074 <= e)%Z -> generic_format radix2 fexp64 (IZR n * bpow radix2 e).
Proof.
  intros Hn He. apply generic_format_FLT. exists (Float radix2 n e); [reflexivity|exact Hn|exact He].
Qed.
Lemma rnd_int n : (Z.abs n < 2 ^ 53)%Z -> rnd64 (IZR n) = IZR n.
Proof.
  intros Hn. apply round_generic; [typeclasses eauto|]. replace (IZR n) with (IZR n * bpow radix2 0) by (cbn; lra).
  apply fmt_dyadic; lia.
Qed.
Lemma rnd_half n : (Z.abs n < 2 ^ 53)%Z -> rnd64 (IZR n / 2) = IZR n / 2.
Proof.
  intros Hn. apply round_generic; [typeclasses eauto|]. replace (IZR n / 2) with (IZR n * bpow radix2 (-1)) by (cbn; lra).
  apply fmt_dyadic; lia.
Qed.
Lemma rnd_fmt x : good x -> rnd64 (f2r x) = f2r x.
Proof.
  intros H. destruct (good_B x H) as [b [<- _]]. rewrite Flocq.IEEE754.BinarySingleNaN.SF2R_B2SF. apply round_generic; [typeclasses eauto|].
  apply Flocq.IEEE754.BinarySingleNaN.generic_format_B2R.
Qed.

Definition exactly (x : float) (n : Z) : Prop := good x /\ f2r x = IZR n.
Lemma exactly_lit x n : good x -> x = float_of_Z n -> (Z.abs n <= 2 ^ 53)%Z -> exactly x n.
Proof. intros H -> Hn. now apply float_of_Z_correct. Qed.
Lemma big_num x n : Rabs x <= IZR n -> (n <= 2 ^ 60)%Z -> Rabs x <= big.
Proof. intros H Hn. apply big_of. eapply Rle_trans; [exact H|]. now apply IZR_le. Qed.

Lemma half_lit m : good (o_lit (Fops m) 5625 (-1)) /\ f2r (o_lit (Fops m) 5625 (-1)) = 1125 / 2 /\
  good (o_lit (Fops m) 4375 (-1)) /\ f2r (o_lit (Fops m) 4375 (-1)) = 875 / 2.
Proof.
  assert (H : forall a, (Z.abs a < 2 ^ 53)%Z -> forall n, (0 <= n <= 2 ^ 1000)%Z -> dec_real false n 1 = IZR a / 2 ->
    good (b64_of_dec false n (-1)) /\ f2r (b64_of_dec false n (-1)) = IZR a / 2).
  { intros a Ha n Hn E. destruct (b64_of_dec_nearest false n 1 Hn) as [V [F E']]. rewrite E in E'. change (- Z.of_nat 1)%Z with (-1)%Z in *.
    split; [split; assumption|]. rewrite E'. now apply rnd_half. }
  cbn [o_lit Fops].
  destruct (H 1125%Z ltac:(lia) 5625%Z) as [A B]; [split; [lia|]; vm_compute; discriminate|unfold dec_real; cbn; lra|].
  destruct (H 875%Z ltac:(lia) 4375%Z) as [C D]; [split; [lia|]; vm_compute; discriminate|unfold dec_real; cbn; lra|].
  split; [exact A|]. split; [exact B|]. split; [exact C|exact D].
Qed.
Lemma thousand m : o_lit (Fops m) 1 3 = float_of_Z 1000.
Proof. vm_compute. reflexivity. Qed.

Lemma glo_step (m : libm) (base : float) (h : float) k a b : exactly base a -> good h -> f2r h = IZR b / 2 -> (0 < b < 2000)%Z -> (0 < a < 2 ^ 40)%Z ->
  (Z.abs k <= 2 ^ 20)%Z ->
  exactly (fadd base (fmul (fmul (float_of_Z k) h) (float_of_Z 1000))) (a + k * b * 500).
Proof.
  intros [Hb Eb] Hh Eh Hbb Ha Hk.
  destruct (float_of_Z_correct k) as [Gk Ek]; [lia|]. destruct (float_of_Z_correct 1000) as [G1 E1]; [lia|].
  assert (M1 : f2r (float_of_Z k) * f2r h = IZR (k * b) / 2) by (rewrite Ek, Eh, mult_IZR; lra).
  destruct (fmul_correct (float_of_Z k) h Gk Hh) as [G2 E2].
  { rewrite M1. apply (big_num _ (2 ^ 40)); [|lia]. unfold Rdiv. rewrite Rabs_mult, <- abs_IZR. rewrite (Rabs_right (/ 2)) by lra.
    apply Rle_trans with (IZR (Z.abs (k * b))); [pose proof (IZR_le 0 (Z.abs (k * b)) ltac:(lia)); lra|]. apply IZR_le. nia. }
  rewrite M1 in E2. rewrite rnd_half in E2 by nia.
  assert (M3 : f2r (fmul (float_of_Z k) h) * f2r (float_of_Z 1000) = IZR (k * b * 500)) by (rewrite E2, E1, !mult_IZR; lra).
  destruct (fmul_correct (fmul (float_of_Z k) h) (float_of_Z 1000) G2 G1) as [G3 E3].
  { rewrite M3. apply (big_num _ (2 ^ 50)); [|lia]. rewrite <- abs_IZR. apply IZR_le. nia. }
  rewrite M3, rnd_int in E3 by nia.
  destruct (fadd_correct base (fmul (fmul (float_of_Z k) h) (float_of_Z 1000)) Hb G3) as [G4 E4].
  { rewrite Eb, E3, <- plus_IZR. apply (big_num _ (2 ^ 55)); [|lia]. rewrite <- abs_IZR. apply IZR_le. nia. }
  rewrite Eb, E3, <- plus_IZR, rnd_int in E4 by nia. split; assumption.
Qed.

Lemma carrier_exact m system band k base step : In (system, band, (base, step)) carriers -> (Z.abs k <= 2 ^ 20)%Z ->
  let kf := float_of_Z k in
  exists f, band_freq (system_freqs (Fops m) system (glo_f1 (Fops m) kf, glo_f2 (Fops m) kf)) band = Some f /\ exactly f (base + k * step).
Proof.
  intros H Hk kf.
  assert (L : forall x n, x = float_of_Z n -> (Z.abs n <= 2 ^ 53)%Z -> exactly x n).
  { intros x n -> Hn. now apply float_of_Z_correct. }
  assert (R1 : exactly (glo_f1 (Fops m) kf) (1602000000 + k * 562500)).
  { unfold glo_f1. rewrite thousand. cbn [o_add o_mul Fops]. destruct (half_lit m) as [A [B _]].
    replace (1602000000 + k * 562500)%Z with (1602000000 + k * 1125 * 500)%Z by lia.
    apply (glo_step m _ _ k 1602000000 1125); [|exact A|exact B|lia|lia|exact Hk].
    apply L; [vm_compute; reflexivity|lia]. }
  assert (R2 : exactly (glo_f2 (Fops m) kf) (1246000000 + k * 437500)).
  { unfold glo_f2. rewrite thousand. cbn [o_add o_mul Fops]. destruct (half_lit m) as [_ [_ [A B]]].
    replace (1246000000 + k * 437500)%Z with (1246000000 + k * 875 * 500)%Z by lia.
    apply (glo_step m _ _ k 1246000000 875); [|exact A|exact B|lia|lia|exact Hk].
    apply L; [vm_compute; reflexivity|lia]. }
  assert (Q : forall a e n, fmul (b64_of_dec (a <? 0)%Z (Z.abs a) e) (b64_of_dec false 1 6) = float_of_Z n -> (Z.abs n <= 2 ^ 53)%Z -> exactly (mhz (Fops m) a e) n).
  { intros a e n E Hn. apply L; [exact E|exact Hn]. }
  cbn [In carriers] in H.
  repeat destruct H as [H|H]; try contradiction; injection H as <- <- <- <-; rewrite ?Z.mul_0_r, ?Z.add_0_r;
    cbn [system_freqs band_freq fr1 fr2 fr5 fr6 fr7 fr8 fst snd]; eexists; (split; [reflexivity|]).
  all: first [exact R1 | exact R2 | apply Q; [vm_compute; reflexivity|lia]].
Qed.
Lemma carrier_none m system band g : In system (lit "GRSCE") -> In band (lit "125678") -> (forall p, ~ In (system, band, p) carriers) ->
  band_freq (system_freqs (Fops m) system g) band = None.
Proof.
  intros Hs Hb H. cbn in Hs, Hb.
  repeat destruct Hs as [<-|Hs]; try contradiction; repeat destruct Hb as [<-|Hb]; try contradiction; try reflexivity;
    exfalso; eapply H; cbn [In carriers]; eauto 20.
Qed.
