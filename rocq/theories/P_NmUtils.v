(** Proofs about the choice of navigation file and ephemeris. *)
From Coq Require Import Reals Lra ZifyBool ZifyNat.
From Flocq Require Import Core.Core IEEE754.BinarySingleNaN.
From Verif Require Import Base PyStr PyFloat PyDate PyPath M_Names M_Nav M_NmUtils S_Text S_Time S_Obs2 S_NmUtils P_Str P_Float P_Date P_Nav.
Open Scope nat_scope.

(** sorted() *)
Lemma insert_in t l x : In x (insert_tod t l) <-> x = t \/ In x l.
Proof.
  induction l as [|a l IH]; cbn; [split; intros [|]; auto|]. destruct (tod_num a <? tod_num t)%Z; cbn; [rewrite IH|]; split; intuition (subst; auto).
Qed.
Lemma sort_in l x : In x (sort_tod l) <-> In x l.
Proof. induction l as [|a l IH]; cbn; [tauto|]. rewrite insert_in, IH. split; intuition (subst; auto). Qed.
Definition sorted (l : list tod) : Prop := forall i j a b, i < j -> nth_error l i = Some a -> nth_error l j = Some b -> (tod_num a <= tod_num b)%Z.
Inductive incr : list tod -> Prop :=
| incr_nil : incr []
| incr_cons t l : (forall x, In x l -> (tod_num t <= tod_num x)%Z) -> incr l -> incr (t :: l).
Lemma insert_incr t l : incr l -> incr (insert_tod t l).
Proof.
  induction 1 as [|a l Ha Hl IH]; cbn; [constructor; [intros x []|constructor]|].
  destruct (tod_num a <? tod_num t)%Z eqn:E.
  - constructor; [|exact IH]. intros x Hx. apply insert_in in Hx. destruct Hx as [->|Hx]; [lia|auto].
  - constructor; [|now constructor]. intros x [<-|Hx]; [lia|]. specialize (Ha x Hx). lia.
Qed.
Lemma sort_incr l : incr (sort_tod l).
Proof. induction l; cbn; [constructor|now apply insert_incr]. Qed.

Lemma day_micros_num t : day_micros t = tod_num t.
Proof. destruct t as [[[h m] s] u]. unfold day_micros, tod_num, day_second. lia. Qed.
Lemma day_second_whole t : day_second t = whole_sec t.
Proof. destruct t as [[[h m] s] u]. unfold day_second, whole_sec. lia. Qed.

Lemma dict_in {V} t (d : list (tod * V)) : In t (map fst d) -> exists e, dict_get tod_eqb t d = Some e.
Proof.
  induction d as [|[k v] d IH]; cbn; [intros []|]. intros [->|H].
  - rewrite (proj2 (tod_eqb_eq t t) eq_refl). eauto.
  - destruct (tod_eqb t k); eauto.
Qed.
Lemma dict_notin {V} t (d : list (tod * V)) : dict_get tod_eqb t d = None -> ~ In t (map fst d).
Proof. intros H Hi. apply dict_in in Hi. destruct Hi as [e He]. congruence. Qed.
Lemma dict_get_in {V} t (d : list (tod * V)) e : dict_get tod_eqb t d = Some e -> In t (map fst d).
Proof.
  induction d as [|[k v] d IH]; cbn; [discriminate|]. destruct (tod_eqb t k) eqn:E; [intros _; left; symmetry; now apply tod_eqb_eq|auto].
Qed.

(** the loop *)
Lemma sel_loop_spec ws w obs msgs times : incr times -> (forall t, In t times -> In t (map fst msgs)) ->
  (exists mt e, In mt times /\ (Z.abs (obs - whole_sec mt) <= w)%Z /\ (forall t, In t times -> (Z.abs (obs - whole_sec t) <= w)%Z -> (tod_num mt <= tod_num t)%Z) /\
     dict_get tod_eqb mt msgs = Some e /\
     sel_loop ws w obs times msgs = Some (match ws with Some x => x | None => fmul (float_of_Z (Z.abs (obs - whole_sec mt))) (float_of_Z (if (whole_sec mt <? obs)%Z then 1 else -1)) end, e)) \/
  ((forall t, In t times -> (w < Z.abs (obs - whole_sec t))%Z) /\ sel_loop ws w obs times msgs = None).
Proof.
  induction 1 as [|t l Ht Hl IH]; intros Hin; [right; split; [intros t []|reflexivity]|]. cbn [sel_loop].
  destruct (Z.abs (obs - whole_sec t) <=? w)%Z eqn:E.
  - left. destruct (dict_in t msgs (Hin t (or_introl eq_refl))) as [e He]. exists t, e. rewrite He.
    split; [now left|]. split; [lia|]. split; [|split; reflexivity].
    intros t' [<-|Ht'] _; [lia|auto].
  - destruct IH as [[mt [e [H1 [H2 [H3 [H4 H5]]]]]]|[H1 H2]]; [intros t' ?; apply Hin; now right| |].
    + left. exists mt, e. split; [now right|]. split; [exact H2|]. split; [|split; assumption].
      intros t' [<-|Ht'] Hw; [lia|auto].
    + right. split; [|exact H2]. intros t' [<-|Ht']; [lia|auto].
Qed.

(** ** week seconds *)
Lemma B2SF_Bdiv x y : SFdiv 53 1024 (B2SF x) (B2SF y) = B2SF (Bdiv mode_NE x y).
Proof.
  destruct x as [sx|sx| |sx mx ex Bx]; destruct y as [sy|sy| |sy my ey By]; try reflexivity.
  simpl. rewrite B2SF_SF2B. destruct (SFdiv_core_binary 53 1024 (Z.pos mx) ex (Z.pos my) ey) as [[mz ez] lz]. apply binary_round_aux_equiv.
Qed.
Lemma fdiv_correct x y : good x -> good y -> f2r y <> 0%R -> (Rabs (f2r x / f2r y) <= big)%R ->
  exists q, fdiv x y = Ok q /\ good q /\ f2r q = rnd64 (f2r x / f2r y).
Proof.
  intros Hx Hy Hn Hb. exists (SFdiv 53 1024 x y). split.
  - unfold fdiv. destruct y; try reflexivity. cbn in Hn. now contradict Hn.
  - destruct (good_B x Hx) as [bx [<- [Fx Rx]]]. destruct (good_B y Hy) as [by_ [<- [Fy Ry]]].
    rewrite B2SF_Bdiv. rewrite <- Rx, <- Ry in Hb |- *. rewrite <- Ry in Hn.
    pose proof (Bdiv_correct 53 1024 _ _ mode_NE bx by_ Hn) as H. change (round_mode mode_NE) with ZnearestE in H. rewrite fexp_eq in H.
    rewrite big_ok in H by exact Hb. destruct H as [H1 [H2 _]]. rewrite Fx in H2. split; [now apply B_good|]. now rewrite SF2R_B2SF.
Qed.

(** rounding error below 2^k *)
Lemma rnd_err x k : (-1021 <= k)%Z -> (Rabs x <= bpow radix2 k)%R -> (Rabs (rnd64 x - x) <= bpow radix2 (k - 54))%R.
Proof.
  intros Hk Hx. destruct (Req_dec x 0) as [->|Hn].
  - rewrite round_0 by typeclasses eauto. rewrite Rminus_0_r, Rabs_R0. apply bpow_ge_0.
  - destruct (Rle_lt_or_eq_dec _ _ Hx) as [Hlt|Heq].
    + eapply Rle_trans; [apply error_le_half_ulp; typeclasses eauto|]. rewrite ulp_neq_0 by exact Hn.
      apply Rle_trans with (/2 * bpow radix2 (k - 53))%R.
      * apply Rmult_le_compat_l; [lra|]. apply bpow_le. unfold cexp, FLT_exp. pose proof (mag_le_bpow radix2 x k Hn Hlt). lia.
      * replace (k - 53)%Z with (1 + (k - 54))%Z by lia. rewrite bpow_plus. cbn [bpow]. change (Z.pow_pos radix2 1) with 2%Z.
        pose proof (bpow_ge_0 radix2 (k - 54)). lra.
    + assert (G : generic_format radix2 fexp64 x).
      { destruct (Rcase_abs x) as [Hc|Hc].
        - rewrite Rabs_left in Heq by exact Hc. replace x with (- bpow radix2 k)%R by lra. apply generic_format_opp, generic_format_bpow. unfold FLT_exp. lia.
        - rewrite Rabs_right in Heq by exact Hc. rewrite Heq. apply generic_format_bpow. unfold FLT_exp. lia. }
      rewrite round_generic by (try typeclasses eauto; exact G). replace (x - x)%R with 0%R by ring. rewrite Rabs_R0. apply bpow_ge_0.
Qed.

Lemma bpow_num k n : (0 <= k)%Z -> n = (2 ^ k)%Z -> bpow radix2 k = IZR n.
Proof. intros Hk ->. rewrite <- IZR_Zpower by exact Hk. reflexivity. Qed.
Lemma big_of x : (Rabs x <= IZR (2 ^ 60))%R -> (Rabs x <= big)%R.
Proof. intros H. eapply Rle_trans; [exact H|]. apply big_IZR. apply Z.pow_le_mono_r; lia. Qed.

Lemma week_float days secs : (0 <= days < 3652059)%Z -> (0 <= secs < 86400)%Z ->
  exists q i, fdiv (float_of_Z days) f7 = Ok q /\ float_to_int q = Ok i /\
    let x := fadd (fmul (fsub q (float_of_Z i)) (float_of_Z 604800)) (float_of_Z secs) in
    good x /\ (Rabs (f2r x - IZR ((days mod 7) * 86400 + secs)) <= 1 / 50000)%R.
Proof.
  intros Hd Hs. destruct (float_of_Z_correct days ltac:(lia)) as [Gd Vd]. destruct (float_of_Z_correct 7 ltac:(lia)) as [G7 V7].
  set (w := (days / 7)%Z). set (r := (days mod 7)%Z).
  assert (Hr : (0 <= r < 7)%Z) by (apply Z.mod_pos_bound; lia). assert (Ed : days = (7 * w + r)%Z) by (apply Z.div_mod; lia).
  assert (Hw : (0 <= w <= 521722)%Z) by lia.
  assert (Eq : (IZR days / 7 = IZR w + IZR r / 7)%R) by (rewrite Ed, plus_IZR, mult_IZR; field).
  assert (Rr : (0 <= IZR r <= 6)%R) by (split; apply IZR_le; lia).
  assert (Rw : (0 <= IZR w <= 521722)%R) by (split; apply IZR_le; lia).
  destruct (fdiv_correct (float_of_Z days) f7 Gd G7) as [q [Eq1 [Gq Vq]]].
  { unfold f7. rewrite V7. lra. }
  { unfold f7. rewrite Vd, V7, Eq. apply big_of. rewrite Rabs_pos_eq by lra. change (2 ^ 60)%Z with 1152921504606846976%Z. lra. }
  unfold f7 in Vq. rewrite Vd, V7, Eq in Vq. set (y := (IZR w + IZR r / 7)%R) in *.
  assert (By : (0 <= y <= 524288)%R) by (unfold y; lra).
  assert (Hq1 : (Rabs (f2r q - y) <= bpow radix2 (19 - 54))%R).
  { rewrite Vq. apply rnd_err; [lia|]. rewrite (bpow_num 19 524288) by (try lia; reflexivity). rewrite Rabs_pos_eq; lra. }
  assert (B35 : (bpow radix2 (19 - 54) = / 34359738368)%R).
  { change (19 - 54)%Z with (- (35))%Z. rewrite bpow_opp, (bpow_num 35 34359738368) by (try lia; reflexivity). reflexivity. }
  rewrite B35 in Hq1. assert (Hlow : (IZR w <= f2r q)%R).
  { rewrite Vq. apply round_ge_generic; try typeclasses eauto; [|unfold y; lra].
    destruct (float_of_Z_correct w ltac:(lia)) as [[V1 V2] E]. rewrite <- E.
    destruct (good_B (float_of_Z w) (conj V1 V2)) as [b [<- _]]. rewrite SF2R_B2SF. apply generic_format_B2R. }
  assert (Hup : (f2r q < IZR w + 1)%R).
  { apply Rabs_le_inv in Hq1. unfold y in Hq1. lra. }
  exists q, w. split; [exact Eq1|]. split.
  { rewrite float_to_int_correct by apply Gq. f_equal. rewrite Ztrunc_floor by lra. apply Zfloor_imp. rewrite plus_IZR. lra. }
  cbv zeta. destruct (float_of_Z_correct w ltac:(lia)) as [Gw Vw]. destruct (float_of_Z_correct 604800 ltac:(lia)) as [Gk Vk].
  destruct (float_of_Z_correct secs ltac:(lia)) as [Gs Vs].
  (* subtraction: error below 2^-53 *)
  destruct (fsub_correct q (float_of_Z w) Gq Gw) as [G1 V1].
  { rewrite Vw. apply big_of. change (2 ^ 60)%Z with 1152921504606846976%Z. rewrite Rabs_pos_eq; lra. }
  rewrite Vw in V1.
  assert (E1 : (Rabs (rnd64 (f2r q - IZR w) - (f2r q - IZR w)) <= bpow radix2 (0 - 54))%R).
  { apply rnd_err; [lia|]. cbn [bpow]. rewrite Rabs_pos_eq; lra. }
  assert (B54 : (bpow radix2 (0 - 54) = / 18014398509481984)%R).
  { change (0 - 54)%Z with (- (54))%Z. rewrite bpow_opp, (bpow_num 54 18014398509481984) by (try lia; reflexivity). reflexivity. }
  rewrite B54 in E1. set (a := rnd64 (f2r q - IZR w)) in *.
  apply Rabs_le_inv in E1. apply Rabs_le_inv in Hq1. unfold y in Hq1.
  assert (Ba : (-1 <= a <= 2)%R) by lra.
  destruct (fmul_correct (fsub q (float_of_Z w)) (float_of_Z 604800) G1 Gk) as [G2 V2].
  { rewrite V1, Vk. apply big_of. change (2 ^ 60)%Z with 1152921504606846976%Z. apply Rabs_le. lra. }
  rewrite V1, Vk in V2.
  assert (E2 : (Rabs (rnd64 (a * 604800) - a * 604800) <= bpow radix2 (21 - 54))%R).
  { apply rnd_err; [lia|]. rewrite (bpow_num 21 2097152) by (try lia; reflexivity). apply Rabs_le. lra. }
  assert (B33 : (bpow radix2 (21 - 54) = / 8589934592)%R).
  { change (21 - 54)%Z with (- (33))%Z. rewrite bpow_opp, (bpow_num 33 8589934592) by (try lia; reflexivity). reflexivity. }
  rewrite B33 in E2. set (b := rnd64 (a * 604800)) in *. apply Rabs_le_inv in E2.
  assert (Rs : (0 <= IZR secs <= 86400)%R) by (split; apply IZR_le; lia).
  destruct (fadd_correct (fmul (fsub q (float_of_Z w)) (float_of_Z 604800)) (float_of_Z secs) G2 Gs) as [G3 V3].
  { rewrite V2, Vs. apply big_of. change (2 ^ 60)%Z with 1152921504606846976%Z. apply Rabs_le. lra. }
  split; [exact G3|]. rewrite V2, Vs in V3. rewrite V3.
  assert (E3 : (Rabs (rnd64 (b + IZR secs) - (b + IZR secs)) <= bpow radix2 (21 - 54))%R).
  { apply rnd_err; [lia|]. rewrite (bpow_num 21 2097152) by (try lia; reflexivity). apply Rabs_le. lra. }
  rewrite B33 in E3. set (c := rnd64 (b + IZR secs)) in *. apply Rabs_le_inv in E3.
  rewrite plus_IZR, mult_IZR. fold r. apply Rabs_le. lra.
Qed.

Lemma week_sec_near start epoch : valid_datetime start -> valid_datetime epoch -> (instant start <= instant epoch)%Z ->
  exists x, get_week_sec epoch start = Ok x /\ good x /\
    (Rabs (f2r x - IZR (((instant epoch - instant start) / 1000000) mod 604800)) <= 1 / 50000)%R.
Proof.
  intros Vs Ve Hle. unfold get_week_sec, dt_sub.
  rewrite !instant_eq in * by assumption. apply valid_datetime_iff in Vs, Ve.
  pose proof (dt_us_bounds _ Vs) as Bs. pose proof (dt_us_bounds _ Ve) as Be.
  set (D := (dt_us epoch - dt_us start)%Z) in *. assert (HD : (0 <= D < 3652059 * 86400000000)%Z) by (unfold max_ordinal, us_per_day in *; lia).
  change us_per_day with 86400000000%Z. change us_per_sec with 1000000%Z.
  set (days := (D / 86400000000)%Z). set (u := (D mod 86400000000)%Z).
  assert (ED : D = (86400000000 * days + u)%Z) by (apply Z.div_mod; lia). assert (Hu : (0 <= u < 86400000000)%Z) by (apply Z.mod_pos_bound; lia).
  set (secs := (u / 1000000)%Z). assert (Hsecs : (0 <= secs < 86400)%Z) by (unfold secs; split; [apply Z.div_pos; lia|apply Z.div_lt_upper_bound; lia]).
  destruct (week_float days secs ltac:(lia) Hsecs) as [q [i [E1 [E2 [G E3]]]]].
  rewrite E1. cbn [bind]. rewrite E2. cbn [bind]. eexists. split; [reflexivity|]. split; [exact G|].
  replace ((D / 1000000) mod 604800)%Z with (days mod 7 * 86400 + secs)%Z; [exact E3|].
  assert (Eu : (D / 1000000 = 86400 * days + secs)%Z).
  { rewrite ED. replace (86400000000 * days + u)%Z with (u + (86400 * days) * 1000000)%Z by ring. rewrite Z.div_add by lia. unfold secs. ring. }
  rewrite Eu. pose proof (Z.div_mod days 7 ltac:(lia)). pose proof (Z.mod_pos_bound days 7 ltac:(lia)).
  apply (Z.mod_unique _ 604800 (days / 7)); lia.
Qed.
