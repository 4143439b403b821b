(** Which exceptions the RINEX 2 record reader can raise; independence of the header state. *)
From Coq Require Import ZifyBool ZifyNat Reals Lra.
From Flocq Require Import Core.Core IEEE754.BinarySingleNaN.
From Verif Require Import Base PyStr PyFloat PyDate M_Common M_Header M_Obs2.
From Verif Require Import S_Text S_Time S_Obs2 S_Open2 S_Errors2 P_Str P_Float P_Sec P_Date P_Common P_Obs2 P_Obs2b P_Obs2c P_Open2 P_Open2b P_View2.
Open Scope nat_scope.

Lemma b64_valid neg m e : valid_binary 53 1024 (b64_of_dec neg m e) = true.
Proof.
  unfold b64_of_dec. destruct m as [|p|p]; try reflexivity. change fprec with 53%Z. change femax with 1024%Z.
  destruct (0 <=? e)%Z.
  - rewrite binary_round_equiv. apply (binary_round_correct 53 1024 _ _ mode_NE).
  - destruct (10 ^ (- e))%Z as [|q|q]; try reflexivity.
    pose proof (Bdiv_correct_aux 53 1024 _ _ mode_NE neg p 0 false q 0) as H. cbv zeta in H.
    destruct (SFdiv_core_binary 53 1024 (Z.pos p) 0 (Z.pos q) 0) as [[mz ez] lz].
    rewrite binary_round_aux_equiv. rewrite xorb_false_r in H. apply H.
Qed.
Lemma py_float_valid s f : py_float s = Ok f -> valid_binary 53 1024 f = true.
Proof.
  unfold py_float, py_float_opt. destruct (float_lit s) as [[neg m e|neg|]|]; cbn; intros H; inversion H; try reflexivity. apply b64_valid.
Qed.

(** ** size of integers read from short fields *)
Lemma rstrip_len s : length (rstrip s) <= length s.
Proof. destruct (rstrip_decomp s) as [w [E _]]. rewrite E at 2. rewrite app_length. lia. Qed.
Lemma lstrip_len s : length (lstrip s) <= length s.
Proof. induction s as [|c s IH]; cbn; [lia|]. destruct (is_space c); cbn; lia. Qed.
Lemma strip_len s : length (strip s) <= length s.
Proof. unfold strip. pose proof (rstrip_len (lstrip s)). pose proof (lstrip_len s). lia. Qed.
Lemma drop_len s : forall b t, drop_underscores b s = Some t -> length t <= length s.
Proof.
  induction s as [|c s IH]; intros b t H; cbn [drop_underscores] in H; [inversion H; cbn; lia|].
  destruct (ceqb c "_"%char).
  - destruct s as [|d s']; [discriminate|]. destruct (b && is_digit d); [|discriminate]. apply IH in H. cbn [length] in *. lia.
  - destruct (drop_underscores (is_digit c) s) as [r'|] eqn:E; [|discriminate]. inversion H; subst. apply IH in E. cbn [length]. lia.
Qed.
Lemma py_int_bound s n : py_int s = Ok n -> (Z.abs n < 10 ^ Z.of_nat (length s))%Z.
Proof.
  unfold py_int, py_int_opt. intros H. destruct (drop_underscores false (strip s)) as [t|] eqn:E; [|discriminate].
  apply drop_len in E. pose proof (strip_len s).
  destruct (take_sign t) as [neg d] eqn:Et. assert (Hd : length d <= length t).
  { destruct t as [|c t]; cbn in Et; [inversion Et; cbn; lia|]. destruct (ceqb c "-"%char); [inversion Et; subst; cbn; lia|].
    destruct (ceqb c "+"%char); inversion Et; subst; cbn; lia. }
  destruct d as [|c0 d0] eqn:Ed; [discriminate|]. rewrite <- Ed in *. clear Ed.
  destruct (all_digits d) eqn:Ea; [|discriminate]. apply digits_forallb in Ea. cbn [of_option] in H.
  assert (Hv : (0 <= digits_val d < 10 ^ Z.of_nat (length s))%Z).
  { rewrite digits_val_dec. pose proof (dec_value_nonneg _ Ea). pose proof (dec_value_bound _ Ea).
    assert (10 ^ Z.of_nat (length d) <= 10 ^ Z.of_nat (length s))%Z by (apply Z.pow_le_mono_r; lia). lia. }
  destruct neg; inversion H; subst; lia.
Qed.
Lemma slice_len i j s : length (slice i j s) <= j - i.
Proof. unfold slice. rewrite firstn_length. lia. Qed.
Lemma py_int_slice3 i s n : py_int (slice i (i + 3) s) = Ok n -> (Z.abs n < 1000)%Z.
Proof.
  intros H. apply py_int_bound in H. pose proof (slice_len i (i + 3) s).
  assert (10 ^ Z.of_nat (length (slice i (i + 3) s)) <= 10 ^ 3)%Z by (apply Z.pow_le_mono_r; lia). change (10 ^ 3)%Z with 1000%Z in *. lia.
Qed.

(** ** seconds *)
Lemma Ztrunc_abs_le x n : (Rabs x < IZR n)%R -> (Z.abs (Ztrunc x) < n)%Z.
Proof.
  intros H. rewrite <- Ztrunc_abs. rewrite Ztrunc_floor by apply Rabs_pos. apply lt_IZR. eapply Rle_lt_trans; [apply Zfloor_lb|exact H].
Qed.

Lemma rnd_abs_le x n : (Z.abs n <= 2 ^ 53)%Z -> (Rabs x <= IZR n)%R -> (Rabs (rnd64 x) <= IZR n)%R.
Proof.
  intros Hn H. apply Rabs_le_inv in H. apply Rabs_le. rewrite <- opp_IZR. split.
  - rewrite <- (rnd_IZR (- n)) by lia. apply round_le; try typeclasses eauto. rewrite opp_IZR. lra.
  - rewrite <- (rnd_IZR n) by lia. apply round_le; try typeclasses eauto. lra.
Qed.
Lemma pow31 : (2 ^ 31 = IZR 2147483648)%R.
Proof. rewrite (pow_IZR 2 31). reflexivity. Qed.

Lemma split_sec_total k f : 1 <= k <= 10 -> good f -> (Rabs (f2r f) < 2 ^ 31)%R ->
  exists s us, split_sec k f = Ok (s, us) /\ (Z.abs s < 2 ^ 31 /\ Z.abs us < 2 ^ 31)%Z.
Proof.
  intros Hk [Hv Hf] Hb. rewrite pow31 in Hb. unfold split_sec. rewrite float_to_int_correct by exact Hf. cbn [bind].
  set (i := Ztrunc (f2r f)). assert (Hi : (Z.abs i < 2147483648)%Z) by (apply Ztrunc_abs_le; exact Hb).
  destruct (float_of_Z_correct i) as [Hgi Ei]; [assert (2147483648 < 2 ^ 53)%Z by (vm_compute; reflexivity); lia|].
  assert (Hfr : (Rabs (f2r f - IZR i) <= IZR 1)%R).
  { unfold i. destruct (Rle_or_lt 0 (f2r f)) as [H0|H0].
    - rewrite Ztrunc_floor by exact H0. pose proof (Zfloor_lb (f2r f)). pose proof (Zfloor_ub (f2r f)). rewrite Rabs_pos_eq; lra.
    - rewrite Ztrunc_ceil by lra. pose proof (Zceil_ub (f2r f)). pose proof (Zceil_lb (f2r f)). rewrite Rabs_left1; lra. }
  assert (Hbig : forall n, (Z.abs n <= 2 ^ 53)%Z -> (IZR n <= big)%R).
  { intros n Hn. apply big_IZR. apply Z.le_trans with (2 ^ 53)%Z; [lia|]. apply Z.pow_le_mono_r; lia. }
  destruct (fsub_correct f (float_of_Z i)) as [Hg1 E1]; [split; assumption|exact Hgi| |].
  { rewrite Ei. eapply Rle_trans; [exact Hfr|]. apply Hbig. vm_compute. discriminate. }
  rewrite Ei in E1. set (d := fsub f (float_of_Z i)) in *. clearbody d.
  assert (Hd : (Rabs (f2r d) <= IZR 1)%R) by (rewrite E1; apply rnd_abs_le; [vm_compute; discriminate|exact Hfr]).
  destruct (float_of_Z_correct 1000000) as [Hg6 E6]; [vm_compute; discriminate|]. fold f1e6 in Hg6, E6.
  assert (Hd6 : (Rabs (f2r d * f2r f1e6) <= IZR 1000000)%R).
  { rewrite Rabs_mult, E6. rewrite (Rabs_pos_eq (IZR 1000000)) by lra. pose proof (Rabs_pos (f2r d)). lra. }
  destruct (fmul_correct d f1e6) as [Hg2 E2]; [exact Hg1|exact Hg6| |].
  { eapply Rle_trans; [exact Hd6|]. apply Hbig. vm_compute. discriminate. }
  set (x := fmul d f1e6) in *. clearbody x.
  assert (Hx : (Rabs (f2r x) <= IZR 1000000)%R) by (rewrite E2; apply rnd_abs_le; [vm_compute; discriminate|exact Hd6]).
  (* the text *)
  assert (Hq : exists sg q, fmt_f k x = fixed_str sg q k /\ (0 <= q <= 1000001 * 10 ^ Z.of_nat k)%Z).
  { destruct Hg2 as [_ Hfx]. destruct x as [sg|sg| |sg m e]; try discriminate.
    - exists sg, 0%Z. split; [reflexivity|]. assert (0 < 10 ^ Z.of_nat k)%Z by (apply Z.pow_pos_nonneg; lia). lia.
    - exists sg, (scaled m e (Z.of_nat k)). split; [reflexivity|]. rewrite scaled_correct by lia.
      rewrite SF2R_finite, sgn_abs in Hx. set (y := (IZR (Z.pos m) * bpow radix2 e)%R) in *.
      assert (Hy0 : (0 <= y)%R) by (apply Rmult_le_pos; [apply IZR_le; lia|apply bpow_ge_0]).
      rewrite Rabs_pos_eq in Hx by exact Hy0.
      assert (Hp : (1 <= IZR (10 ^ Z.of_nat k))%R) by (apply IZR_le; assert (0 < 10 ^ Z.of_nat k)%Z by (apply Z.pow_pos_nonneg; lia); lia).
      split.
      + pose proof (Znearest_ge_floor (fun x => negb (Z.even x)) (y * IZR (10 ^ Z.of_nat k))).
        assert (0 <= Zfloor (y * IZR (10 ^ Z.of_nat k)))%Z by (apply Zfloor_lub; apply Rmult_le_pos; lra). lia.
      + pose proof (Znearest_le_ceil (fun x => negb (Z.even x)) (y * IZR (10 ^ Z.of_nat k))).
        assert (Zceil (y * IZR (10 ^ Z.of_nat k)) <= 1000001 * 10 ^ Z.of_nat k)%Z; [|lia].
        apply Zceil_glb. rewrite mult_IZR. apply Rmult_le_compat_r; [lra|]. lra. }
  destruct Hq as [sg [q [Eq Hq]]]. rewrite Eq. unfold py_float, py_float_opt.
  rewrite float_lit_fixed_str by lia. cbn [option_map of_option float_of_lit bind].
  assert (Hk10 : (10 ^ Z.of_nat k <= 10 ^ 10)%Z) by (apply Z.pow_le_mono_r; lia).
  destruct (b64_of_dec_nearest sg q k) as [Hv3 [Hf3 E3]].
  { split; [lia|]. assert (1000001 * 10 ^ 10 <= 2 ^ 1000)%Z by (vm_compute; discriminate). nia. }
  rewrite float_to_int_correct by exact Hf3. cbn [bind]. eexists _, _. split; [reflexivity|].
  split; [exact Hi|]. apply Ztrunc_abs_le. rewrite E3.
  apply Rle_lt_trans with (IZR 1000001); [|apply IZR_lt; vm_compute; reflexivity].
  apply rnd_abs_le; [vm_compute; discriminate|]. unfold dec_real. fold (sgn sg).
  replace (sgn sg * IZR q / 10 ^ k)%R with (sgn sg * (IZR q / 10 ^ k))%R by (unfold Rdiv; ring). rewrite sgn_abs.
  assert (Hp : (10 ^ k = IZR (10 ^ Z.of_nat k))%R) by (rewrite <- (pow_IZR 10); reflexivity).
  assert (Hp1 : (1 <= IZR (10 ^ Z.of_nat k))%R) by (apply IZR_le; assert (0 < 10 ^ Z.of_nat k)%Z by (apply Z.pow_pos_nonneg; lia); lia).
  rewrite Hp. assert (Hq0 : (0 <= IZR q)%R) by (apply IZR_le; lia).
  rewrite Rabs_pos_eq by (apply Rmult_le_pos; [exact Hq0|apply Rlt_le, Rinv_0_lt_compat; lra]).
  apply (Rmult_le_reg_r (IZR (10 ^ Z.of_nat k))); [lra|]. unfold Rdiv. rewrite Rmult_assoc, Rinv_l by lra.
  rewrite Rmult_1_r, <- mult_IZR. apply IZR_le. lia.
Qed.

Lemma mapM_ok_F {A B} (P : B -> Prop) (f : A -> res B) l bs : mapM f l = Ok bs -> (forall a b, In a l -> f a = Ok b -> P b) -> Forall P bs.
Proof.
  revert bs. induction l as [|a l IH]; intros bs H HP; cbn [mapM] in H; [inversion H; constructor|].
  destruct (f a) as [b|] eqn:Ea; cbn [bind] in H; [|discriminate]. destruct (mapM f l) as [bs'|] eqn:El; cbn [bind] in H; [|discriminate].
  inversion H; subst. constructor; [apply (HP a); [now left|exact Ea]|]. apply IH; [reflexivity|]. intros a' b' Ha. apply HP. now right.
Qed.
Lemma mapM_err {A B} (f : A -> res B) l e : mapM f l = Err e -> exists a, In a l /\ f a = Err e.
Proof.
  induction l as [|a l IH]; cbn [mapM]; [discriminate|]. destruct (f a) eqn:Ea; cbn [bind].
  - destruct (mapM f l); cbn [bind]; [discriminate|]. intros H. inversion H; subst. destruct IH as [a' [H1 H2]]; [reflexivity|]. exists a'. split; [now right|exact H2].
  - intros H. inversion H; subst. exists a. split; [now left|exact Ea].
Qed.
Lemma py_int_err s e : py_int s = Err e -> e = ValueError.
Proof. unfold py_int. destruct (py_int_opt s); cbn; congruence. Qed.
Lemma py_float_err s e : py_float s = Err e -> e = ValueError.
Proof. unfold py_float. destruct (py_float_opt s); cbn; congruence. Qed.

Lemma dbm_bound y m d : (1 <= m <= 12)%Z -> (d <= days_in_month y m)%Z -> (days_before_month y m + d <= 400)%Z.
Proof.
  intros Hm Hd. assert (d <= 31)%Z by (unfold days_in_month in Hd; repeat match type of Hd with context [if ?x then _ else _] => destruct x end; lia).
  unfold days_before_month, dbm_table.
  assert (Hb : forall k, (nth k [0; 0; 31; 59; 90; 120; 151; 181; 212; 243; 273; 304; 334] 0 <= 334)%Z).
  { intros k. do 13 (destruct k as [|k]; [cbn; lia|]). destruct k; cbn; lia. }
  specialize (Hb (Z.to_nat m)). destruct (_ && _)%bool; lia.
Qed.
Lemma ord_2200 y mo d : (1 <= y < 2100)%Z -> (days_before_month y mo + d <= 400)%Z -> (ymd2ord y mo d <= ymd2ord 2200 1 1 - 1)%Z.
Proof.
  intros Hy Hd. assert (E : ymd2ord 2200 1 1 = 803169%Z) by (vm_compute; reflexivity). rewrite E. unfold ymd2ord, days_before_year.
  set (b := days_before_month y mo) in *. clearbody b. clear E.
  assert (H1 : ((y - 1) / 4 <= 525)%Z) by (apply Z.div_le_upper_bound; lia).
  assert (H2 : (0 <= (y - 1) / 100)%Z) by (apply Z.div_pos; lia).
  assert (H3 : ((y - 1) / 400 <= 6)%Z) by (apply Z.div_le_upper_bound; lia).
  set (a := ((y - 1) / 4)%Z) in *. set (c := ((y - 1) / 100)%Z) in *. set (e := ((y - 1) / 400)%Z) in *. clearbody a c e. lia.
Qed.
Lemma validate_epoch_err y mo d h mi s us e :
  (Z.abs y < 1000)%Z -> fits mo -> fits d -> fits h -> fits mi -> fits s -> fits us ->
  validate_epoch y mo d h mi s us = Err e -> e = ValueError.
Proof.
  intros Hy Hmo Hd Hh Hmi Hs Hus H. unfold validate_epoch in H.
  destruct (clip60 s 1) as [s' d1] eqn:E1. destruct (clip60 mi 60) as [mi' d2] eqn:E2.
  pose proof (clip60_cint _ _ _ _ E1) as C1. pose proof (clip60_cint _ _ _ _ E2) as C2.
  assert (Hfy : (-1000 < full_year y < 2100)%Z).
  { unfold full_year. destruct (y <? 100)%Z eqn:Ea; [destruct (89 <=? y)%Z eqn:Eb|]; lia. }
  unfold fits in *. change (2 ^ 31)%Z with 2147483648%Z in *.
  assert (Cs : c_int s = true) by (unfold c_int; lia). assert (Cm : c_int mi = true) by (unfold c_int; lia).
  rewrite Cs in C1. rewrite Cm in C2. unfold mk_datetime in H.
  assert (Hc : forallb c_int [full_year y; mo; d; h; mi'; s'; us] = true).
  { cbn [forallb]. rewrite C1, C2. unfold c_int. lia. }
  rewrite Hc in H. cbn [negb] in H.
  destruct (dt_ok (mkDT (full_year y) mo d h mi' s' us)) eqn:Eok; cbn [bind] in H; [|congruence].
  exfalso. unfold dt_add in H. set (t := mkDT (full_year y) mo d h mi' s' us) in *.
  assert (Hv : valid_datetime t) by now apply valid_datetime_iff.
  pose proof (instant_eq t Hv) as Hie. pose proof (dt_us_bounds t Eok) as Hb.
  assert (Hlt : (dt_us t < midnight 2200 1 1)%Z).
  { unfold dt_us. unfold t in Hv |- *. destruct Hv as [[Hyv [Hmv Hdv]] [Hh' [Hm' [Hs' Hu']]]]. cbn [dy dmo dd dh dmi ds dus] in *.
    assert (Hmid : midnight 2200 1 1 = ((ymd2ord 2200 1 1 - 1) * us_per_day)%Z).
    { unfold midnight. rewrite civil_day_eq by lia. reflexivity. }
    rewrite Hmid. assert (Ho : (ymd2ord (full_year y) mo d <= ymd2ord 2200 1 1 - 1)%Z).
    { assert (H1 : (days_before_month (full_year y) mo + d <= 400)%Z).
      { apply dbm_bound; [lia|]. rewrite month_len_eq in Hdv by lia. lia. }
      apply ord_2200; [lia|exact H1]. }
    clear - Ho Hh' Hm' Hs' Hu'. set (o1 := ymd2ord (full_year y) mo d) in *. set (o2 := ymd2ord 2200 1 1) in *. clearbody o1 o2.
    unfold tod_us, us_per_day, us_per_sec. cbn [dh dmi ds dus]. nia. }
  assert (Hdd : (0 <= d1 + d2 <= 10000)%Z).
  { destruct (clip60_spec _ _ _ _ E1) as [[? [? ->]]|[? [? ->]]]; destruct (clip60_spec _ _ _ _ E2) as [[? [? ->]]|[? [? ->]]]; lia. }
  assert (Hm22 : midnight 2200 1 1 = 69393715200000000%Z) by (vm_compute; reflexivity).
  rewrite Hm22 in Hlt. unfold us_per_sec, max_ordinal, us_per_day in *.
  clear - H Hlt Hdd Hb. set (u := dt_us t) in *. clearbody u. 
  destruct (_ && _)%bool eqn:Eb in H; [discriminate|]. clear H. lia.
Qed.

Lemma float_to_int_err f e : float_to_int f = Err e -> e = ValueError \/ e = OverflowError.
Proof. unfold float_to_int. destruct f; intros H; inversion H; auto. Qed.
Lemma split_sec_err k f e : split_sec k f = Err e -> e = ValueError \/ e = OverflowError.
Proof.
  unfold split_sec. destruct (float_to_int f) as [i|x] eqn:E; cbn [bind]; intros H.
  2:{ inversion H; subst. eapply float_to_int_err; exact E. }
  destruct (py_float _) as [m|x] eqn:E2; cbn [bind] in H.
  2:{ inversion H; subst. left. eapply py_float_err; exact E2. }
  destruct (float_to_int m) as [us|x] eqn:E3; cbn [bind] in H; [discriminate|]. inversion H; subst. eapply float_to_int_err; exact E3.
Qed.
Lemma validate_epoch_errs y mo d h mi s us e : validate_epoch y mo d h mi s us = Err e -> e = ValueError \/ e = OverflowError.
Proof.
  unfold validate_epoch. destruct (clip60 s 1) as [s' d1], (clip60 mi 60) as [mi' d2]. unfold mk_datetime.
  destruct (negb _); cbn [bind]; [intros H; inversion H; auto|]. destruct (dt_ok _); cbn [bind]; [|intros H; inversion H; auto].
  unfold dt_add. destruct (_ && _)%bool; intros H; inversion H; auto.
Qed.
Lemma huge_dec f : huge_seconds f \/ f = S754_nan \/ (is_finite_SF f = true /\ (Rabs (f2r f) < 2 ^ 31)%R).
Proof.
  destruct f as [b|b| |b m e]; cbn [huge_seconds is_finite_SF]; auto.
  - right. right. split; [reflexivity|]. change (f2r (S754_zero b)) with 0%R. rewrite Rabs_R0. apply pow_lt. lra.
  - destruct (Rle_or_lt (2 ^ 31) (Rabs (f2r (S754_finite b m e)))); [left; assumption|right; right; auto].
Qed.
Lemma huge_not f : huge_seconds f -> f <> S754_nan /\ (is_finite_SF f = true -> (2 ^ 31 <= Rabs (f2r f))%R).
Proof. destruct f; cbn [huge_seconds is_finite_SF]; intros H; split; try discriminate; try contradiction; auto. Qed.

Definition epoch_inner (l : str) : res datetime :=
  do e <- mapM (fun i => py_int (slice i (i + 3) l)) [0; 3; 6; 9; 12];
  do sec <- py_float (slice 15 26 l);
  do (s, us) <- split_sec 5 sec;
  match e with
  | [y; mo; d; h; mi] => validate_epoch y mo d h mi s us
  | _ => Err ValueError
  end.
Lemma epoch_inner_err l e : epoch_inner l = Err e ->
  e = ValueError \/ (e = OverflowError /\ exists f, py_float (slice 15 26 l) = Ok f /\ huge_seconds f).
Proof.
  unfold epoch_inner. intros H.
  destruct (mapM _ _) as [es|e1] eqn:Em; cbn [bind] in H.
  2:{ inversion H; subst. apply mapM_err in Em. destruct Em as [a [_ Ha]]. left. eapply py_int_err; exact Ha. }
  destruct (py_float (slice 15 26 l)) as [sec|e2] eqn:Ef; cbn [bind] in H.
  2:{ inversion H; subst. left. eapply py_float_err; exact Ef. }
  destruct (huge_dec sec) as [Hh|[->|[Hf1 Hf2]]].
  - assert (He : e = ValueError \/ e = OverflowError).
    { destruct (split_sec 5 sec) as [[s us]|e3] eqn:Es; cbn [bind] in H; [|inversion H; subst; eapply split_sec_err; exact Es].
      destruct es as [|y [|mo [|d [|h [|mi [|]]]]]]; try (inversion H; auto). eapply validate_epoch_errs; exact H. }
    destruct He as [->| ->]; [now left|]. right. split; [reflexivity|]. exists sec. split; [reflexivity|exact Hh].
  - left. cbn in H. congruence.
  - left. destruct (split_sec_total 5 sec ltac:(lia) (conj (py_float_valid _ _ Ef) Hf1) Hf2) as [s [us [Hss [Hs Hus]]]].
    rewrite Hss in H. cbn [bind] in H.
    destruct es as [|y [|mo [|d [|h [|mi [|]]]]]]; try (inversion H; reflexivity).
    pose proof (mapM_ok_F (fun n => (Z.abs n < 1000)%Z) _ _ _ Em (fun a b _ Hab => py_int_slice3 a l b Hab)) as HF.
    inversion HF as [|? ? Hy HF1]; subst. inversion HF1 as [|? ? Hmo HF2]; subst. inversion HF2 as [|? ? Hd HF3]; subst.
    inversion HF3 as [|? ? Hhh HF4]; subst. inversion HF4 as [|? ? Hmi HF5]; subst.
    assert (Hfits : forall n, (Z.abs n < 1000)%Z -> fits n) by (intros n Hn; unfold fits; change (2 ^ 31)%Z with 2147483648%Z; lia).
    assert (Hfit2 : forall n, (Z.abs n < 2 ^ 31)%Z -> fits n) by (intros n Hn; unfold fits; lia).
    exact (validate_epoch_err y mo d h mi s us e Hy (Hfits _ Hmo) (Hfits _ Hd) (Hfits _ Hhh) (Hfits _ Hmi) (Hfit2 _ Hs) (Hfit2 _ Hus) H).
Qed.
Lemma epoch_date_err l e : epoch_date l = Err e ->
  e = RinexError \/ (e = OverflowError /\ exists f, py_float (slice 15 26 l) = Ok f /\ huge_seconds f).
Proof.
  change (epoch_date l) with (catch (epoch_inner l) [IndexError; ValueError] (Err RinexError)). intros H.
  destruct (epoch_inner l) as [t|e0] eqn:E; cbn [catch] in H; [discriminate|].
  destruct (epoch_inner_err l e0 E) as [->|[-> Hx]]; cbn in H; [left; congruence|right; split; [congruence|exact Hx]].
Qed.

(** ** the other parts of the reader *)
Lemma catch_rinex {A} (x : res A) es e : catch x es (Err RinexError) = Err e -> (forall e', x = Err e' -> existsb (exn_eqb e') es = true) -> e = RinexError.
Proof.
  destruct x as [a|e']; cbn [catch]; [discriminate|]. intros H Hx. rewrite (Hx e' eq_refl) in H. congruence.
Qed.
Lemma catch_int s e : catch (py_int s) [ValueError] (Err RinexError) = Err e -> e = RinexError.
Proof. intros H. eapply catch_rinex; [exact H|]. intros e' He. apply py_int_err in He. subst. reflexivity. Qed.
Lemma catch_float s e : catch (py_float s) [ValueError] (Err RinexError) = Err e -> e = RinexError.
Proof. intros H. eapply catch_rinex; [exact H|]. intros e' He. apply py_float_err in He. subst. reflexivity. Qed.
Lemma get_val_err r i e : get_val r i = Err e -> e = RinexError.
Proof.
  unfold get_val. destruct (slice i (i + 16) r) as [|c v]; [discriminate|]. destruct (seqb _ _); [discriminate|].
  destruct (catch _ _ _) eqn:E; cbn [bind]; [discriminate|]. intros H. inversion H; subst. eapply catch_float; exact E.
Qed.
Lemma get_prn_err r i e : get_prn r i = Err e -> e = RinexError.
Proof.
  unfold get_prn. destruct (slice i (i + 3) r) as [|c v]; [congruence|].
  destruct (catch _ _ _) eqn:E; cbn [bind]; [discriminate|]. intros H. inversion H; subst. eapply catch_int; exact E.
Qed.
Lemma get_prns_err r n e : get_prns r n = Err e -> e = RinexError.
Proof. intros H. apply mapM_err in H. destruct H as [a [_ Ha]]. eapply get_prn_err; exact Ha. Qed.
Lemma next_rec_err l e : next_rec l = Err e -> e = RinexError.
Proof. destruct l; cbn; congruence. Qed.
Lemma get_prn_lines_err k : forall l e, get_prn_lines k l = Err e -> e = RinexError.
Proof.
  induction k as [|k IH]; cbn [get_prn_lines]; intros l e H; [discriminate|].
  destruct (next_rec l) as [[rec r]|e1] eqn:E1; cbn [bind] in H; [|inversion H; subst; eapply next_rec_err; exact E1].
  destruct (get_prns rec 12) as [ps|e2] eqn:E2; cbn [bind] in H; [|inversion H; subst; eapply get_prns_err; exact E2].
  destruct (get_prn_lines k r) as [[qs r']|e3] eqn:E3; cbn [bind] in H; [discriminate|]. inversion H; subst. eapply IH; exact E3.
Qed.
Lemma read_prns_err ep n l e : read_prns ep n l = Err e -> e = RinexError.
Proof.
  unfold read_prns. destruct (12 <? n)%Z.
  - destruct (get_prns ep 12) as [ps|e2] eqn:E2; cbn [bind]; [|intros H; inversion H; subst; eapply get_prns_err; exact E2].
    destruct (get_prn_lines _ l) as [[qs r]|e3] eqn:E3; cbn [bind]; [|intros H; inversion H; subst; eapply get_prn_lines_err; exact E3].
    destruct (_ =? 0)%Z; cbn [bind]; [destruct (_ =? _)%Z; intros H; inversion H; reflexivity|].
    destruct (next_rec r) as [[rec r']|e1] eqn:E1; cbn [bind]; [|intros H; inversion H; subst; eapply next_rec_err; exact E1].
    destruct (get_prns rec _) as [ts|e4] eqn:E4; cbn [bind]; [|intros H; inversion H; subst; eapply get_prns_err; exact E4].
    destruct (_ =? _)%Z; intros H; inversion H; reflexivity.
  - destruct (get_prns ep _) as [ps|e2] eqn:E2; cbn [bind]; [|intros H; inversion H; subst; eapply get_prns_err; exact E2].
    destruct (_ =? _)%Z; intros H; inversion H; reflexivity.
Qed.
Lemma read_epoch_err line rest e : read_epoch (rstrip line) rest = Err e -> e = RinexError \/ (e = OverflowError /\ huge_line line).
Proof.
  unfold read_epoch. destruct (catch (py_int (slice 26 29 (rstrip line))) _ _) as [fl|e1] eqn:E1; cbn [bind]; intros H.
  2:{ inversion H; subst. left. eapply catch_int; exact E1. }
  clear E1. destruct (1 <? fl)%Z.
  - destruct (catch _ _ _) as [n|e2] eqn:E2; cbn [bind] in H; [discriminate|]. inversion H; subst. left. eapply catch_int; exact E2.
  - destruct (epoch_date (rstrip line)) as [ep|e2] eqn:E2; cbn [bind] in H.
    2:{ inversion H; subst. destruct (epoch_date_err _ _ E2) as [->|[-> Hh]]; [now left|right; split; [reflexivity|exact Hh]]. }
    destruct (catch _ _ _) as [n|e3] eqn:E3; cbn [bind] in H; [|inversion H; subst; left; eapply catch_int; exact E3].
    destruct (read_prns _ _ _) as [[ps r]|e4] eqn:E4; cbn [bind] in H; [discriminate|]. inversion H; subst. left. eapply read_prns_err; exact E4.
Qed.
Lemma take_recs_err k : forall l e, take_recs k l = Err e -> e = RinexError.
Proof.
  induction k as [|k IH]; cbn [take_recs]; intros l e H; [discriminate|].
  destruct (next_rec l) as [[rec r]|e1] eqn:E1; cbn [bind] in H; [|inversion H; subst; eapply next_rec_err; exact E1].
  destruct (take_recs k r) as [[qs r']|e3] eqn:E3; cbn [bind] in H; [discriminate|]. inversion H; subst. eapply IH; exact E3.
Qed.
Lemma mapM_len {A B} (f : A -> res B) l : forall bs, mapM f l = Ok bs -> length bs = length l.
Proof.
  induction l as [|a l IH]; cbn [mapM]; intros bs H; [inversion H; reflexivity|].
  destruct (f a); cbn [bind] in H; [|discriminate]. destruct (mapM f l) as [bs'|]; cbn [bind] in H; [|discriminate].
  inversion H. cbn [length]. now rewrite (IH bs' eq_refl).
Qed.
Lemma read_obs_lines_err lpr : forall l e, read_obs_lines lpr l = Err e -> e = RinexError.
Proof.
  induction lpr as [|n lpr IH]; cbn [read_obs_lines]; intros l e H; [discriminate|].
  destruct (next_rec l) as [[rec r]|e1] eqn:E1; cbn [bind] in H; [|inversion H; subst; eapply next_rec_err; exact E1].
  destruct (mapM _ _) as [ps|e2] eqn:E2; cbn [bind] in H.
  2:{ inversion H; subst. apply mapM_err in E2. destruct E2 as [a [_ Ha]]. eapply get_val_err; exact Ha. }
  destruct (read_obs_lines lpr r) as [[qs r']|e3] eqn:E3; cbn [bind] in H; [discriminate|]. inversion H; subst. eapply IH; exact E3.
Qed.
Lemma read_obs_lines_count lpr : forall l vs r, read_obs_lines lpr l = Ok (vs, r) -> length vs = fold_right plus 0 lpr.
Proof.
  induction lpr as [|n lpr IH]; cbn [read_obs_lines]; intros l vs r H; [inversion H; reflexivity|].
  destruct (next_rec l) as [[rec r0]|e1] eqn:E1; cbn [bind] in H; [|discriminate].
  destruct (mapM _ _) as [ps|e2] eqn:E2; cbn [bind] in H; [|discriminate]. apply mapM_len in E2. rewrite seq_length in E2.
  destruct (read_obs_lines lpr r0) as [[qs r']|e3] eqn:E3; cbn [bind] in H; [|discriminate]. apply IH in E3.
  inversion H; subst. rewrite app_length. cbn [fold_right]. lia.
Qed.
Lemma make_record_ok types : forall data acc, length data <= length types -> exists r, make_record types data acc = Ok r.
Proof.
  induction types as [|t types IH]; intros [|d data] acc H; cbn [make_record length] in *; try (eexists; reflexivity); [lia|]. apply IH. lia.
Qed.
Lemma read_sats_err types ep o prns : forall l e, snd (read_sats types ep prns o l) = Err e -> e = RinexError.
Proof.
  induction prns as [|p prns IH]; cbn [read_sats]; intros l e H; [discriminate|].
  destruct (read_obs_lines _ l) as [[d r]|e1] eqn:E1; cbn [snd] in H; [|inversion H; subst; eapply read_obs_lines_err; exact E1].
  apply read_obs_lines_count in E1. rewrite (proj1 (lines_per_rec_sum _)) in E1.
  destruct (make_record_ok types d []) as [rec Er]; [lia|]. rewrite Er in H.
  specialize (IH r). destruct (read_sats types ep prns o r) as [ys e2]. cbn [snd] in IH.
  destruct (odt_eqb _ _); cbn [snd] in H; apply IH; exact H.
Qed.

(** header text inside an event that the header parser rejects *)
Definition bad_event_header (v : ver) (lines : list str) (e : exn) : Prop :=
  exists a ls b, lines = a ++ ls ++ b /\ parse_header v (map rstrip ls) hdr0 = Err e.
Lemma take_recs_app k : forall l ls r, take_recs k l = Ok (ls, r) -> exists a, l = a ++ r /\ ls = map rstrip a.
Proof.
  induction k as [|k IH]; cbn [take_recs]; intros l ls r H; [inversion H; exists []; split; reflexivity|].
  destruct l as [|x l]; cbn [next_rec bind] in H; [discriminate|].
  destruct (take_recs k l) as [[qs r']|e3] eqn:E3; cbn [bind] in H; [|discriminate]. inversion H; subst.
  destruct (IH _ _ _ E3) as [a [-> ->]]. exists (x :: a). split; reflexivity.
Qed.
Lemma next_rec_app l x r : next_rec l = Ok (x, r) -> exists a, l = a ++ r.
Proof. destruct l as [|y l]; cbn; intros H; [discriminate|]. inversion H; subst. exists [y]. reflexivity. Qed.
Lemma get_prn_lines_app k : forall l ps r, get_prn_lines k l = Ok (ps, r) -> exists a, l = a ++ r.
Proof.
  induction k as [|k IH]; cbn [get_prn_lines]; intros l ps r H; [inversion H; exists []; reflexivity|].
  destruct (next_rec l) as [[rec r0]|e1] eqn:E1; cbn [bind] in H; [|discriminate]. destruct (next_rec_app _ _ _ E1) as [a ->].
  destruct (get_prns rec 12) as [qs|e2]; cbn [bind] in H; [|discriminate].
  destruct (get_prn_lines k r0) as [[qs' r']|e3] eqn:E3; cbn [bind] in H; [|discriminate]. destruct (IH _ _ _ E3) as [b ->].
  inversion H; subst. exists (a ++ b). now rewrite app_assoc.
Qed.
Lemma read_prns_app ep n l ps r : read_prns ep n l = Ok (ps, r) -> exists a, l = a ++ r.
Proof.
  unfold read_prns. destruct (12 <? n)%Z.
  - destruct (get_prns ep 12) as [qs|e2]; cbn [bind]; [|discriminate].
    destruct (get_prn_lines _ l) as [[qs' r1]|e3] eqn:E3; cbn [bind]; [|discriminate]. destruct (get_prn_lines_app _ _ _ _ E3) as [a ->].
    destruct (_ =? 0)%Z; cbn [bind].
    + destruct (_ =? _)%Z; intros H; inversion H; subst. exists a. reflexivity.
    + destruct (next_rec r1) as [[rec r']|e1] eqn:E1; cbn [bind]; [|discriminate]. destruct (next_rec_app _ _ _ E1) as [b ->].
      destruct (get_prns rec _) as [ts|e4]; cbn [bind]; [|discriminate].
      destruct (_ =? _)%Z; intros H; inversion H; subst. exists (a ++ b). now rewrite app_assoc.
  - destruct (get_prns ep _) as [qs|e2]; cbn [bind]; [|discriminate].
    destruct (_ =? _)%Z; intros H; inversion H; subst. exists []. reflexivity.
Qed.
Lemma read_epoch_app line rest x r : read_epoch line rest = Ok (x, r) -> exists a, rest = a ++ r.
Proof.
  unfold read_epoch. destruct (catch (py_int (slice 26 29 line)) _ _) as [fl|e1]; cbn [bind]; [|discriminate].
  destruct (1 <? fl)%Z.
  - destruct (catch _ _ _) as [n|e2]; cbn [bind]; [|discriminate]. intros H. inversion H; subst. exists []. reflexivity.
  - destruct (epoch_date line) as [ep|e2]; cbn [bind]; [|discriminate].
    destruct (catch _ _ _) as [n|e3]; cbn [bind]; [|discriminate].
    destruct (read_prns _ _ _) as [[ps r1]|e4] eqn:E4; cbn [bind]; [|discriminate]. intros H. inversion H; subst. eapply read_prns_app; exact E4.
Qed.
Lemma read_obs_lines_app lpr : forall l vs r, read_obs_lines lpr l = Ok (vs, r) -> exists a, l = a ++ r.
Proof.
  induction lpr as [|n lpr IH]; cbn [read_obs_lines]; intros l vs r H; [inversion H; exists []; reflexivity|].
  destruct (next_rec l) as [[rec r0]|e1] eqn:E1; cbn [bind] in H; [|discriminate]. destruct (next_rec_app _ _ _ E1) as [a ->].
  destruct (mapM _ _) as [ps|e2]; cbn [bind] in H; [|discriminate].
  destruct (read_obs_lines lpr r0) as [[qs r']|e3] eqn:E3; cbn [bind] in H; [|discriminate]. destruct (IH _ _ _ E3) as [b ->].
  inversion H; subst. exists (a ++ b). now rewrite app_assoc.
Qed.
Lemma read_sats_app types ep o prns : forall l ys r, read_sats types ep prns o l = (ys, Ok r) -> exists a, l = a ++ r.
Proof.
  induction prns as [|p prns IH]; cbn [read_sats]; intros l ys r H; [inversion H; exists []; reflexivity|].
  destruct (read_obs_lines _ l) as [[d r0]|e1] eqn:E1; [|discriminate]. destruct (read_obs_lines_app _ _ _ _ E1) as [a ->].
  destruct (make_record types d []) as [rec|]; [|discriminate].
  destruct (read_sats types ep prns o r0) as [ys' [r'|e]] eqn:E2; destruct (odt_eqb _ _); inversion H; subst;
    (destruct (IH _ _ _ E2) as [b ->]; exists (a ++ b); now rewrite app_assoc).
Qed.

(** every way the reading can end *)
Lemma run_errors v types : forall n lines o, length lines <= n -> forall e, snd (fst (run_records v types lines o)) = GRaise e ->
  e = RinexError \/ (e = OverflowError /\ exists l, In l lines /\ huge_line l) \/ bad_event_header v lines e.
Proof.
  induction n as [|n IH]; intros lines o Hn e H.
  { destruct lines; [|cbn in Hn; lia]. rewrite run_records_nil in H. discriminate. }
  destruct lines as [|line rest]; [rewrite run_records_nil in H; discriminate|]. cbn [length] in Hn.
  assert (Hlift : forall a r, rest = a ++ r -> (e = RinexError \/ (e = OverflowError /\ exists l, In l r /\ huge_line l) \/ bad_event_header v r e) ->
    e = RinexError \/ (e = OverflowError /\ exists l, In l (line :: rest) /\ huge_line l) \/ bad_event_header v (line :: rest) e).
  { intros a r -> [Hx|[[Hx [l [Hl1 Hl2]]]|[b [ls [c [Hx1 Hx2]]]]]]; [now left|right; left|right; right].
    - split; [exact Hx|]. exists l. split; [right; apply in_or_app; now right|exact Hl2].
    - exists (line :: a ++ b), ls, c. split; [rewrite Hx1; cbn [app]; now rewrite <- app_assoc|exact Hx2]. }
  rewrite run_records_cons in H. unfold step2 in H.
  destruct (read_epoch (rstrip line) rest) as [[[fl num|ep fl prns] r]|e1] eqn:E1.
  - destruct (read_epoch_app _ _ _ _ E1) as [a Ha]. subst rest. rewrite app_length in Hn.
    destruct (take_recs (Z.to_nat num) r) as [[ls r']|e2] eqn:E2; cbn [fst snd] in H.
    2:{ inversion H; subst. left. eapply take_recs_err; exact E2. }
    destruct (take_recs_app _ _ _ _ E2) as [b [Hb Hls]]. subst r ls. rewrite app_length in Hn.
    destruct ((fl =? 3)%Z || (fl =? 4)%Z)%bool.
    + pose proof (parse_header_indep v (map rstrip b) (o_hdr o) hdr0) as Hi.
      destruct (parse_header v (map rstrip b) (o_hdr o)) as [h|e3] eqn:E3.
      * apply (Hlift (a ++ b) r'); [now rewrite app_assoc|]. apply (IH r' _ ltac:(lia) e H).
      * cbn [fst snd] in H. inversion H; subst e3. right. right. exists (line :: a), b, r'. split; [reflexivity|].
        cbn [okb] in Hi. destruct (parse_header v (map rstrip b) hdr0); cbn in Hi; congruence.
    + apply (Hlift (a ++ b) r'); [now rewrite app_assoc|]. apply (IH r' _ ltac:(lia) e H).
  - destruct (read_epoch_app _ _ _ _ E1) as [a Ha]. subst rest. rewrite app_length in Hn.
    destruct (read_sats types ep prns o r) as [ys [r'|e2]] eqn:E2.
    + destruct (read_sats_app _ _ _ _ _ _ _ E2) as [b Hb]. subst r. rewrite app_length in Hn.
      specialize (IH r' (mkObj2 (Some ep) (o_hdr o)) ltac:(lia) e).
      destruct (run_records v types r' (mkObj2 (Some ep) (o_hdr o))) as [[ys' e'] o']. cbn [fst snd] in *.
      apply (Hlift (a ++ b) r'); [now rewrite app_assoc|]. apply IH. exact H.
    + cbn [fst snd] in H. inversion H; subst e2. left. apply (read_sats_err types ep o prns r). rewrite E2. reflexivity.
  - cbn [fst snd] in H. inversion H; subst e1. destruct (read_epoch_err _ _ _ E1) as [->|[-> Hh]]; [now left|].
    right. left. split; [reflexivity|]. exists line. split; [now left|exact Hh].
Qed.

(** ** malformed records *)
Lemma not_int_err s : not_int s -> py_int s = Err ValueError.
Proof. intros H. destruct (py_int s) as [n|e] eqn:E; [now elim (H n)|]. now rewrite (py_int_err _ _ E). Qed.
Lemma not_float_err s : not_float s -> py_float s = Err ValueError.
Proof. intros H. destruct (py_float s) as [n|e] eqn:E; [now elim (H n)|]. now rewrite (py_float_err _ _ E). Qed.
Lemma mapM_fail {A B} (f : A -> res B) e l : (forall a e', In a l -> f a = Err e' -> e' = e) -> (exists a, In a l /\ f a = Err e) -> mapM f l = Err e.
Proof.
  intros Hu [a [Hin Ha]]. destruct (mapM f l) as [bs|e'] eqn:E.
  - exfalso. revert bs E. induction l as [|b l IH]; intros bs E; [contradiction|]. cbn [mapM] in E.
    destruct (f b) as [y|] eqn:Eb; cbn [bind] in E; [|discriminate]. destruct (mapM f l) as [ys|] eqn:El; cbn [bind] in E; [|discriminate].
    destruct Hin as [->|Hin]; [congruence|]. apply (IH (fun x e' Hx => Hu x e' (or_intror Hx)) Hin ys eq_refl).
  - apply mapM_err in E. destruct E as [b [Hb Eb]]. f_equal. eapply Hu; eassumption.
Qed.

Lemma skipn_S_tl {A} (l : list A) : forall m, skipn (S m) l = tl (skipn m l).
Proof. induction l as [|a l IH]; intros [|m]; [reflexivity|reflexivity|reflexivity|]. cbn [skipn]. apply IH. Qed.
Lemma get_prns_bad r n k : k < n -> not_int (slice (32 + 3 * k + 1) (32 + 3 * k + 3) r) -> get_prns r n = Err RinexError.
Proof.
  intros Hk Hb. unfold get_prns. apply mapM_fail.
  - intros a e' _ H. eapply get_prn_err; exact H.
  - exists k. split; [apply in_seq; lia|]. unfold get_prn. destruct (slice (32 + 3 * k) (32 + 3 * k + 3) r) as [|c num] eqn:E; [reflexivity|].
    assert (En : num = slice (32 + 3 * k + 1) (32 + 3 * k + 3) r).
    { unfold slice in *. replace (32 + 3 * k + 3 - (32 + 3 * k)) with 3 in E by lia. replace (32 + 3 * k + 3 - (32 + 3 * k + 1)) with 2 by lia.
      replace (32 + 3 * k + 1) with (S (32 + 3 * k)) by lia. rewrite skipn_S_tl. destruct (skipn (32 + 3 * k) r) as [|x s]; [discriminate|].
      cbn [firstn] in E. injection E as _ E. cbn [tl]. symmetry. exact E. }
    rewrite <- En in Hb. rewrite (not_int_err _ Hb). reflexivity.
Qed.

Lemma bad_epoch_read line rest : bad_epoch line -> read_epoch (rstrip line) rest = Err RinexError.
Proof.
  intros H. destruct (read_epoch (rstrip line) rest) as [x|e] eqn:E.
  - exfalso. unfold read_epoch in E.
    destruct H as [Hf|fl Hf Hfl Hn|fl i Hf Hfl Hin Hi|fl Hf Hfl Hs|fl Hf Hfl Hh Hn|fl y mo d h mi tsec k7 Hf Hfl Hy Hmo Hd Hh Hmi Hc Hk Hk7 Hr|fl n k Hf Hfl Hh Hn Hk Hkn Hs];
      unfold cols in *.
    + rewrite (not_int_err _ Hf) in E. discriminate.
    + rewrite Hf in E. cbn [catch bind] in E. replace (1 <? fl)%Z with true in E by lia. rewrite (not_int_err _ Hn) in E. discriminate.
    + rewrite Hf in E. cbn [catch bind] in E. replace (1 <? fl)%Z with false in E by lia. unfold epoch_date in E.
      rewrite (mapM_fail _ ValueError [0; 3; 6; 9; 12]) in E; [discriminate| |].
      * intros a e' _ Ha. eapply py_int_err; exact Ha.
      * exists i. split; [exact Hin|]. apply not_int_err. exact Hi.
    + rewrite Hf in E. cbn [catch bind] in E. replace (1 <? fl)%Z with false in E by lia. unfold epoch_date in E.
      destruct (mapM _ [0; 3; 6; 9; 12]) as [es|e1] eqn:Em; cbn [bind] in E.
      * rewrite (not_float_err _ Hs) in E. discriminate.
      * apply mapM_err in Em. destruct Em as [a [_ Ha]]. apply py_int_err in Ha. subst e1. discriminate.
    + rewrite Hf in E. cbn [catch bind] in E. replace (1 <? fl)%Z with false in E by lia.
      destruct (epoch_date (rstrip line)); cbn [bind] in E; [|discriminate]. rewrite (not_int_err _ Hn) in E. discriminate.
    + rewrite Hf in E. cbn [catch bind] in E. replace (1 <? fl)%Z with false in E by lia. unfold epoch_date in E. cbn [mapM Nat.add] in E.
      rewrite Hy, Hmo, Hd, Hh, Hmi in E. cbn [bind] in E. rewrite Hc in E.
      destruct (split_sec5_field _ _ Hk ltac:(lia)) as [f [Ef Es]]. rewrite Ef in E. cbn [bind] in E. rewrite Es in E. cbn [bind] in E.
      rewrite validate_epoch_bad in E; [discriminate|exact Hr|].
      apply (py_int_slice3 0) in Hy. apply (py_int_slice3 3) in Hmo. apply (py_int_slice3 6) in Hd. apply (py_int_slice3 9) in Hh. apply (py_int_slice3 12) in Hmi.
      pose proof (fix_field_bound _ _ _ _ _ Hk) as Hb.
      assert (0 <= k7 / 10000000 < 1000)%Z by (split; [apply Z.div_pos; lia|apply Z.div_lt_upper_bound; lia]).
      assert (0 <= k7 mod 10000000 / 10 < 1000000)%Z.
      { pose proof (Z.mod_pos_bound k7 10000000 ltac:(lia)). split; [apply Z.div_pos; lia|apply Z.div_lt_upper_bound; lia]. }
      unfold fits, century. change (2 ^ 31)%Z with 2147483648%Z. destruct (y <? 89)%Z; [lia|]. destruct (y <? 100)%Z; lia.
    + rewrite Hf in E. cbn [catch bind] in E. replace (1 <? fl)%Z with false in E by lia.
      destruct (epoch_date (rstrip line)); cbn [bind] in E; [|discriminate]. rewrite Hn in E. cbn [catch bind] in E.
      unfold read_prns in E. destruct (12 <? n)%Z.
      * rewrite (get_prns_bad _ 12 k Hk Hs) in E. discriminate.
      * rewrite (get_prns_bad _ (Z.to_nat n) k ltac:(lia) Hs) in E. discriminate.
  - destruct (read_epoch_err _ _ _ E) as [->|[-> Hh]]; [reflexivity|]. exfalso.
    destruct H as [Hf|fl Hf Hfl Hn|fl i Hf Hfl Hin Hi|fl Hf Hfl Hs|fl Hf Hfl Hnh Hn|fl y mo d h mi tsec k7 Hf Hfl Hy Hmo Hd Hhr Hmi Hc Hk Hk7 Hr|fl n k Hf Hfl Hnh Hn Hk Hkn Hs];
      unfold read_epoch, cols in *.
    + rewrite (not_int_err _ Hf) in E. discriminate.
    + rewrite Hf in E. cbn [catch bind] in E. replace (1 <? fl)%Z with true in E by lia. rewrite (not_int_err _ Hn) in E. discriminate.
    + rewrite Hf in E. cbn [catch bind] in E. replace (1 <? fl)%Z with false in E by lia. unfold epoch_date in E.
      rewrite (mapM_fail _ ValueError [0; 3; 6; 9; 12]) in E; [discriminate| |].
      * intros a e' _ Ha. eapply py_int_err; exact Ha.
      * exists i. split; [exact Hin|]. apply not_int_err. exact Hi.
    + rewrite Hf in E. cbn [catch bind] in E. replace (1 <? fl)%Z with false in E by lia. unfold epoch_date in E.
      destruct (mapM _ [0; 3; 6; 9; 12]) as [es|e1] eqn:Em; cbn [bind] in E.
      * rewrite (not_float_err _ Hs) in E. discriminate.
      * apply mapM_err in Em. destruct Em as [a [_ Ha]]. apply py_int_err in Ha. subst e1. discriminate.
    + apply Hnh. exact Hh.
    + destruct Hh as [f [Ef Hh]]. unfold cols in Ef. rewrite Hc in Ef.
      destruct (py_float_fix _ _ _ _ _ Hk ltac:(lia)) as [f' [Ef' [_ Hnear]]]. rewrite Ef in Ef'. inversion Ef'; subst f'.
      apply huge_not in Hh. destruct Hh as [_ Hh]. destruct Hnear as [_ [Hfin Hnr]]. specialize (Hh Hfin). rewrite Hnr in Hh.
      pose proof (fix_field_bound _ _ _ _ _ Hk) as Hb.
      assert (Hle : (Rabs (rnd64 (dec_real false k7 7)) <= IZR 1000)%R).
      { apply rnd_abs_le; [vm_compute; discriminate|]. unfold dec_real. rewrite Rmult_1_l.
        assert (0 <= IZR k7)%R by (apply IZR_le; lia). assert (IZR k7 <= IZR 1210000000)%R by (apply IZR_le; lia).
        rewrite Rabs_pos_eq; [|apply Rmult_le_pos; [lra|apply Rlt_le, Rinv_0_lt_compat, pow_lt; lra]].
        unfold Rdiv. apply (Rmult_le_reg_r (10 ^ 7)); [apply pow_lt; lra|]. rewrite Rmult_assoc, Rinv_l by (apply pow_nonzero; lra). lra. }
      rewrite pow31 in Hh. assert (IZR 2147483648 <= IZR 1000)%R by (eapply Rle_trans; [exact Hh|exact Hle]). apply le_IZR in H. lia.
    + apply Hnh. exact Hh.
Qed.
Lemma bad_epoch_run v types line rest o : bad_epoch line -> run_records v types (line :: rest) o = ([], GRaise RinexError, o).
Proof. intros H. rewrite run_records_cons. unfold step2. rewrite bad_epoch_read by exact H. reflexivity. Qed.

(** ** malformed observations *)
Lemma lpr_nth : forall j n k, (n + 4) / 5 = k -> 5 * j < n -> nth_error (lines_per_rec_loop k (Z.of_nat n)) j = Some (fields_on_line n j).
Proof.
  induction j as [|j IH]; intros n k Hk Hj.
  - destruct k as [|k]; [exfalso; assert (0 < (n + 4) / 5) by (apply Nat.div_str_pos; lia); lia|].
    cbn [lines_per_rec_loop nth_error]. unfold fields_on_line. f_equal.
    destruct (Z.ltb_spec (Z.of_nat n - 5) 0); [rewrite Nat.min_r by lia|rewrite Nat.min_l by lia; reflexivity].
    replace (Z.of_nat n - 5 + 5)%Z with (Z.of_nat n) by lia. rewrite Nat2Z.id. lia.
  - assert (Hk1 : (n - 5 + 4) / 5 = k - 1).
    { replace (n + 4) with ((n - 5 + 4) + 1 * 5) in Hk by lia. rewrite Nat.div_add in Hk by lia. lia. }
    destruct k as [|k]; [exfalso; assert (0 < (n + 4) / 5) by (apply Nat.div_str_pos; lia); lia|].
    cbn [lines_per_rec_loop nth_error]. replace (Z.of_nat n - 5)%Z with (Z.of_nat (n - 5)) by lia.
    rewrite (IH (n - 5) k) by lia. unfold fields_on_line. f_equal. lia.
Qed.
Lemma bad_field_val l k : bad_field l k -> get_val (rstrip l) (16 * k) = Err RinexError.
Proof.
  intros [Hn [Hb Hf]]. unfold cols in *. unfold get_val. destruct (slice (16 * k) (16 * k + 16) (rstrip l)) as [|c s] eqn:E; [congruence|].
  rewrite <- E in *. destruct (seqb _ _) eqn:Es.
  - exfalso. apply Hb. apply seqb_eq in Es. rewrite Es. apply spaces_blanks.
  - rewrite (not_float_err _ Hf). reflexivity.
Qed.
Lemma read_obs_bad lpr : forall lines j c, nth_error lpr j = Some c ->
  match nth_error lines j with None => True | Some l => exists k, k < c /\ bad_field l k end -> read_obs_lines lpr lines = Err RinexError.
Proof.
  induction lpr as [|m lpr IH]; intros lines j c Hj Hb; [destruct j; discriminate|]. cbn [read_obs_lines].
  destruct lines as [|l lines]; [reflexivity|]. cbn [next_rec bind]. destruct j as [|j]; cbn [nth_error] in *.
  - inversion Hj; subst m. destruct Hb as [k [Hk Hbad]].
    rewrite (mapM_fail _ RinexError); [reflexivity| |].
    + intros a e' _ Ha. eapply get_val_err; exact Ha.
    + exists k. split; [apply in_seq; lia|]. apply bad_field_val. exact Hbad.
  - destruct (mapM _ _) as [vs|e] eqn:Em; cbn [bind].
    + rewrite (IH lines j c Hj Hb). reflexivity.
    + apply mapM_err in Em. destruct Em as [a [_ Ha]]. apply get_val_err in Ha. subst e. reflexivity.
Qed.
Lemma bad_sat_read n lines : bad_sat n lines -> read_obs_lines (lines_per_rec n) lines = Err RinexError.
Proof. intros [j [Hj Hb]]. eapply read_obs_bad; [apply lpr_nth; [reflexivity|exact Hj]|exact Hb]. Qed.

Lemma read_sats_split types ep o p2 : forall p1 lines, read_sats types ep (p1 ++ p2) o lines =
  match read_sats types ep p1 o lines with
  | (ys, Err e) => (ys, Err e)
  | (ys, Ok r) => let '(ys', e) := read_sats types ep p2 o r in (ys ++ ys', e)
  end.
Proof.
  induction p1 as [|p p1 IH]; intros lines; cbn [app read_sats].
  - destruct (read_sats types ep p2 o lines) as [ys e]. reflexivity.
  - destruct (read_obs_lines _ lines) as [[d r]|e]; [|reflexivity]. destruct (make_record types d []) as [rec|e]; [|reflexivity].
    rewrite IH. destruct (read_sats types ep p1 o r) as [ys [r'|e]]; [|destruct (odt_eqb _ _); reflexivity].
    destruct (odt_eqb _ _); destruct (read_sats types ep p2 o r') as [ys' e']; reflexivity.
Qed.

Lemma runs_app types o bs ys o1 bs' ys' o2 : runs types o bs ys o1 -> runs types o1 bs' ys' o2 -> runs types o (bs ++ bs') (ys ++ ys') o2.
Proof.
  induction 1 as [o|ep fl sats bs o rs ys o' He Hr IH|fl ls np bs o p ys o' Hp Hr IH]; intros H2; cbn [app]; [exact H2| |].
  - rewrite <- app_assoc. eapply rn_data; [exact He|]. apply IH. exact H2.
  - eapply rn_event; [exact Hp|]. apply IH. exact H2.
Qed.
Lemma bad_end_run v types blocks pre bad bs o : NoDup types -> body_lines (length types) blocks pre -> bad_end (length types) bad bs ->
  exists ys o1 o2, runs types o (blocks ++ bs) ys o1 /\ run_records v types (pre ++ bad) o = (ys, GRaise RinexError, o2).
Proof.
  intros Hn Hb Hbad. destruct (body_read v types blocks pre Hn Hb o) as [ys [o1 [R1 R2]]].
  destruct Hbad as [line rest Hl|ep fl sats name more els sls rest He Hs Hbs].
  - exists ys, o1, o1. rewrite app_nil_r. split; [exact R1|]. rewrite R2, (bad_epoch_run v types line rest o1 Hl). now rewrite app_nil_r.
  - destruct (epoch_lines_read _ _ _ _ He) as [line [ml [-> Hre]]].
    destruct (sats_read types ep o1 sats Hn sls Hs) as [rs [Hrs Hsr]].
    eexists _, _, o1. split.
    + eapply runs_app; [exact R1|]. eapply rn_data; [exact Hrs|apply rn_nil].
    + rewrite R2. cbn [app]. rewrite run_records_cons. unfold step2. rewrite Hre. rewrite read_sats_split, Hsr. cbn [read_sats].
      rewrite (bad_sat_read _ _ Hbs). reflexivity.
Qed.
Lemma open2_bad_end v header file r blocks pre bad bs :
  file_parts header (pre ++ bad) file -> open2 v file = Ok r -> NoDup (r_types r) ->
  body_lines (length (r_types r)) blocks pre -> bad_end (length (r_types r)) bad bs -> first_epoch_once (blocks ++ bs) ->
  exists ys o', records2 v r = (ys, GRaise RinexError, o') /\
    delivered (r_types r) None (h_xyz (o_hdr (r_obj r))) (blocks ++ bs) (map with_pos ys).
Proof.
  intros Hf Ho Hn Hb Hbad H1. eapply open2_delivers_gen; [exact Hf|exact Ho|exact H1|]. intros o.
  destruct (bad_end_run v _ blocks pre bad bs o Hn Hb Hbad) as [ys [o1 [o2 [R1 R2]]]]. exists ys, o1, o2. split; [exact R1|]. split; [exact R2|discriminate].
Qed.
