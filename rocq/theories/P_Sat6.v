(** Longitude and azimuth in binary64. *)
From Coq Require Import Reals Lra Psatz.
From Flocq Require Import Core BinarySingleNaN.
From Verif Require Import Base PyStr PyFloat P_Float P_Div M_Num M_Sat P_Tec S_Tec P_TecE P_TecG P_Open2 S_SatF P_Kepler.
Open Scope R_scope.

Ltac inv_bind H := repeat match type of H with
  | bind ?x _ = Ok _ => destruct x eqn:?; cbn [bind] in H; [|discriminate H]
  | (let '(_, _) := ?p in _) = Ok _ => destruct p
  | (match ?p with (_, _) => _ end) = Ok _ => destruct p
  end.
Definition wrap360 {T} (o : ops T) (a : T) : T := if o_ltb o a (o_int o 0) then o_add o a (o_int o 360) else a.
Lemma az_tail {T} (o : ops T) fuel obs sat el az : compute_el_az o fuel obs sat = Ok (el, az) ->
  exists d1 y x, o_div o (o_int o 180) (o_pi o) = Ok d1 /\ az = wrap360 o (o_mul o (o_atan2 o y x) d1).
Proof.
  destruct obs as [[x0 y0] z0]. destruct sat as [[xs ys] zs]. unfold compute_el_az. intros H. inv_bind H. injection H as <- <-. eexists _, _, _. split; [reflexivity|reflexivity].
Qed.
(** what any atan2 returns: not a number, or an angle of at most the float pi *)
Lemma pi_good : good float_pi /\ 0 < f2r float_pi <= 4.
Proof.
  assert (V : float_pi = S754_finite false 7074237752028440 (-51)) by (vm_compute; reflexivity). rewrite V. split; [split; vm_compute; reflexivity|]. rewrite SF2R_finite. cbn [sgn].
  rewrite bpow_small by lia. change (2 ^ (- -51))%Z with 2251799813685248%Z. lra.
Qed.
Lemma good_spec s p e : valid_binary 53 1024 (S754_finite s p e) = true -> good (S754_finite s p e).
Proof. intros H. split; [exact H|reflexivity]. Qed.
Lemma small_value s p e : (e <= 0)%Z -> f2r (S754_finite s p e) = sgn s * (IZR (Zpos p) * / IZR (2 ^ (- e))).
Proof. intros H. rewrite SF2R_finite, bpow_small by exact H. reflexivity. Qed.
(** fmul by a constant is monotonic *)
Lemma rnd_bound z B b : good b -> f2r b = B -> Rabs z <= B -> Rabs (rnd64 z) <= B.
Proof.
  intros [V F] E H. assert (X : generic_format radix2 fexp64 B).
  { rewrite <- E. destruct (good_B b (conj V F)) as [bb [Eb [_ Rb]]]. rewrite <- Rb. rewrite <- fexp_eq. apply generic_format_B2R. }
  apply abs_round_le_generic; [typeclasses eauto|typeclasses eauto|exact X|exact H].
Qed.
Lemma good_Z n : (Z.abs n <= 2 ^ 53)%Z -> good (float_of_Z n) /\ f2r (float_of_Z n) = IZR n.
Proof. apply float_of_Z_correct. Qed.
Lemma int_Z m n : o_int (Fops m) n = b64_of_dec (n <? 0)%Z (Z.abs n) 0. Proof. reflexivity. Qed.
Lemma wrap_ok m a : a = S754_nan \/ (good a /\ Rabs (f2r a) <= 300) -> in_360 (wrap360 (Fops m) a).
Proof.
  unfold in_360, is_real, real. intros [->|[G H]]; unfold wrap360.
  - left. replace (o_ltb (Fops m) S754_nan (o_int (Fops m) 0)) with false by (vm_compute; reflexivity). reflexivity.
  - right. assert (Z0 : o_int (Fops m) 0 = float_of_Z 0) by (vm_compute; reflexivity). assert (Z3 : o_int (Fops m) 360 = float_of_Z 360) by (vm_compute; reflexivity).
    destruct (good_Z 0 ltac:(vm_compute; discriminate)) as [G0 E0]. destruct (good_Z 360 ltac:(vm_compute; discriminate)) as [G3 E3]. apply Rabs_le_inv in H.
    rewrite Z0, Z3. cbn [o_ltb o_add Fops]. rewrite fltb_correct by assumption. rewrite E0. destruct (Rlt_bool_spec (f2r a) 0) as [L|L].
    + destruct (fadd_correct a (float_of_Z 360) G G3) as [Gs Es]; [apply big_1000; rewrite E3; apply Rabs_le; lra|]. split; [exact Gs|]. rewrite Es, E3.
      assert (B : Rabs (rnd64 (f2r a + 360)) <= 360) by (apply (rnd_bound _ 360 (float_of_Z 360) G3 E3); apply Rabs_le; lra). apply Rabs_le_inv in B. split; [|lra].
      rewrite <- (round_0 radix2 fexp64 ZnearestE). apply round_le; [typeclasses eauto|typeclasses eauto|lra].
    + split; [exact G|]. lra.
Qed.
Lemma fmul_nan x : fmul S754_nan x = S754_nan. Proof. reflexivity. Qed.
Lemma azimuth_closed m fuel obs sat el az : (forall y x, angle (l_atan2 m y x)) -> compute_el_az (Fops m) fuel obs sat = Ok (el, az) -> in_360 az.
Proof.
  unfold angle, in_360, is_real, real. intros HA H. destruct (az_tail _ _ _ _ _ _ H) as (d1 & y & x & Ed & ->). apply wrap_ok.
  assert (V : d1 = S754_finite false 8063664102031864 (-47)). { assert (Q : o_div (Fops m) (o_int (Fops m) 180) (o_pi (Fops m)) = Ok (S754_finite false 8063664102031864 (-47))) by (vm_compute; reflexivity). congruence. }
  assert (G1 : good d1) by (rewrite V; apply good_spec; vm_compute; reflexivity). assert (B1 : 0 <= f2r d1 <= 58). { rewrite V, small_value by lia. cbn [sgn]. change (2 ^ (- -47))%Z with 140737488355328%Z. lra. }
  cbn [o_mul o_atan2 Fops]. destruct (HA y x) as [->|[G B]]; [left; reflexivity|]. right.
  destruct pi_good as [_ Pp]. set (v := l_atan2 m y x) in *. assert (Q : Rabs (f2r v * f2r d1) <= 232). { rewrite Rabs_mult, (Rabs_right (f2r d1)) by lra. pose proof (Rabs_pos (f2r v)). nra. }
  destruct (fmul_correct v d1 G G1 (big_1000 _ ltac:(eapply Rle_trans; [exact Q|lra]))) as [Gm Em]. split; [exact Gm|]. rewrite Em.
  destruct (good_Z 232 ltac:(vm_compute; discriminate)) as [G2 E2]. pose proof (rnd_bound _ 232 _ G2 E2 Q). lra.
Qed.
Lemma lbh_tail {T} (o : ops T) fuel x y z l b h : xyz2lbh o fuel x y z = Ok (l, b, h) ->
  l = o_atan2 o y x \/ o_div o (o_pi o) (o_int o 2) = Ok l \/ o_div o (o_mul o (o_int o 3) (o_pi o)) (o_int o 2) = Ok l.
Proof.
  unfold xyz2lbh. intros H. inv_bind H. injection H as -> _ _.
  match goal with H : (if _ then _ else _) = Ok l |- _ => destruct (o_eqb o x (o_int o 0)); [destruct (o_ltb o (o_int o 0) y)|]; [auto|auto|injection H as ->; auto] end.
Qed.
Lemma longitude_closed m fuel x y z l b h : (forall y x, angle (l_atan2 m y x)) -> xyz2lbh_deg (Fops m) fuel x y z = Ok (l, b, h) -> in_360 l.
Proof.
  unfold angle, is_real, real. intros HA. unfold xyz2lbh_deg. destruct (xyz2lbh (Fops m) fuel x y z) as [[[l0 b0] h0]|er] eqn:E.
  2:{ destruct (existsb _ _); [|discriminate]. intros H. assert (l = float_of_Z 0) by (injection H as <- _ _; vm_compute; reflexivity). right. destruct (good_Z 0 ltac:(vm_compute; discriminate)) as [G0 E0]. subst l. split; [exact G0|]. change (0 <= f2r (float_of_Z 0) <= 360). rewrite E0. lra. }
  intros H. inv_bind H. injection H as <- _ _. match goal with H : o_div (Fops m) (o_mul (Fops m) l0 _) _ = Ok ?t |- _ => rename H into D; rename t into d end. change (in_360 (wrap360 (Fops m) d)). apply (wrap_ok m d).
  assert (A : angle l0 \/ (good l0 /\ Rabs (f2r l0) <= 5)).
  { destruct (lbh_tail _ _ _ _ _ _ _ _ E) as [->|[K|K]]; [left; apply HA| |].
    - right. assert (Q : o_div (Fops m) (o_pi (Fops m)) (o_int (Fops m) 2) = Ok (S754_finite false 7074237752028440 (-52))) by (vm_compute; reflexivity). assert (V : l0 = S754_finite false 7074237752028440 (-52)) by congruence. rewrite V.
      split; [apply good_spec; vm_compute; reflexivity|]. rewrite small_value by lia. cbn [sgn]. change (2 ^ (- -52))%Z with 4503599627370496%Z. rewrite Rabs_right; lra.
    - right. assert (Q : o_div (Fops m) (o_mul (Fops m) (o_int (Fops m) 3) (o_pi (Fops m))) (o_int (Fops m) 2) = Ok (S754_finite false 5305678314021330 (-50))) by (vm_compute; reflexivity). assert (V : l0 = S754_finite false 5305678314021330 (-50)) by congruence. rewrite V.
      split; [apply good_spec; vm_compute; reflexivity|]. rewrite small_value by lia. cbn [sgn]. change (2 ^ (- -50))%Z with 1125899906842624%Z. rewrite Rabs_right; lra. }
  destruct pi_good as [Gp Bp].
  assert (A2 : l0 = S754_nan \/ (good l0 /\ Rabs (f2r l0) <= 5)) by (unfold angle, is_real, real in A; destruct A as [[->|[G B]]|A]; [auto|right; split; [exact G|lra]|auto]). clear A.
  cbn [o_div o_mul o_pi Fops] in D. assert (Z1 : o_int (Fops m) 180 = float_of_Z 180) by (vm_compute; reflexivity). rewrite Z1 in D. destruct (good_Z 180 ltac:(vm_compute; discriminate)) as [G1 E1].
  destruct A2 as [->|[G B]].
  - left. assert (Q : fdiv (fmul S754_nan (float_of_Z 180)) float_pi = Ok S754_nan) by (vm_compute; reflexivity). congruence.
  - right. assert (Q : Rabs (f2r l0 * f2r (float_of_Z 180)) <= 900) by (rewrite Rabs_mult, E1, (Rabs_right 180) by lra; nra).
    destruct (fmul_correct l0 (float_of_Z 180) G G1 (big_1000 _ ltac:(eapply Rle_trans; [exact Q|lra]))) as [Gm Em]. destruct (good_Z 900 ltac:(vm_compute; discriminate)) as [G9 E9].
    pose proof (rnd_bound _ 900 _ G9 E9 Q) as R9. rewrite <- Em in R9. assert (P3 : 314 / 100 <= f2r float_pi).
    { assert (V : float_pi = S754_finite false 7074237752028440 (-51)) by (vm_compute; reflexivity). rewrite V, small_value by lia. cbn [sgn]. change (2 ^ (- -51))%Z with 2251799813685248%Z. lra. }
    assert (Q2 : Rabs (f2r (fmul l0 (float_of_Z 180)) / f2r float_pi) <= 300).
    { unfold Rdiv. rewrite Rabs_mult, Rabs_inv, (Rabs_right (f2r float_pi)) by lra. apply Rle_trans with (900 * / (314 / 100)); [|lra]. apply Rmult_le_compat; [apply Rabs_pos|apply Rlt_le, Rinv_0_lt_compat; lra|exact R9|apply Rinv_le_contravar; lra]. }
    destruct (fdiv_correct _ float_pi Gm Gp ltac:(lra) (big_1000 _ ltac:(eapply Rle_trans; [exact Q2|lra]))) as [q [Eq [Gq Rq]]]. assert (d = q) by congruence. subst d. split; [exact Gq|]. rewrite Rq.
    destruct (good_Z 300 ltac:(vm_compute; discriminate)) as [G30 E30]. exact (rnd_bound _ 300 _ G30 E30 Q2).
Qed.
(** a longitude of 360: a site just west of the zero meridian *)
Definition e_lit : float := S754_finite false 5895694038274163 (-56).
Definition l_lit : float := S754_finite true 5087983429305873 (-108).
Lemma pow_F m x : library m -> is_inf (fmul x x) = false -> o_pow (Fops m) x 2 = Ok (fmul x x).
Proof. intros L H. cbn [o_pow Fops]. unfold float_pow. rewrite (lib_square m L), H. reflexivity. Qed.
Lemma e_F m : library m -> datum_e (Fops m) = Ok e_lit.
Proof. intros L. unfold datum_e. rewrite (pow_F m _ L) by (vm_compute; reflexivity). cbn [bind]. rewrite (pow_F m _ L) by (vm_compute; reflexivity). cbn [bind]. vm_compute. reflexivity. Qed.
Lemma zero_sin m : library m -> o_sin (Fops m) fzero = Ok fzero.
Proof. intros L. cbn [o_sin Fops]. unfold no_inf. cbn [is_inf fzero]. rewrite (lib_sin0 m L). reflexivity. Qed.
Lemma zero_cos m : library m -> o_cos (Fops m) fzero = Ok (float_of_Z 1).
Proof. intros L. cbn [o_cos Fops]. unfold no_inf. cbn [is_inf fzero]. rewrite (lib_cos0 m L). reflexivity. Qed.
Lemma loop_F m n : library m -> lat_loop (Fops m) (S n) e_lit fzero west_x fzero = Ok (fzero, west_x).
Proof.
  intros L. cbn [lat_loop]. rewrite (pow_F m e_lit L) by (vm_compute; reflexivity). cbn [bind]. rewrite (zero_sin m L). cbn [bind]. rewrite (pow_F m fzero L) by (vm_compute; reflexivity). cbn [bind].
  set (w := o_sqrt (Fops m) _). assert (W : w = Ok (float_of_Z 1)) by (vm_compute; reflexivity). rewrite W. cbn [bind].
  set (q := o_div (Fops m) _ _). assert (Q : q = Ok west_x) by (vm_compute; reflexivity). rewrite Q. cbn [bind].
  set (t := o_add (Fops m) _ _). assert (T : t = fzero) by (vm_compute; reflexivity). rewrite T. cbn [o_atan2 Fops]. rewrite (lib_atan0 m L).
  set (c := o_leb (Fops m) _ _). assert (C : c = true) by (vm_compute; reflexivity). rewrite C. reflexivity.
Qed.
Lemma west_xyz2lbh m n : library m -> xyz2lbh (Fops m) (S n) west_x west_y fzero = Ok (l_lit, fzero, fzero).
Proof.
  intros L. unfold xyz2lbh. rewrite (e_F m L). cbn [bind]. rewrite (pow_F m west_x L) by (vm_compute; reflexivity). cbn [bind]. rewrite (pow_F m west_y L) by (vm_compute; reflexivity). cbn [bind].
  set (q := o_sqrt (Fops m) _). assert (Q : q = Ok west_x) by (vm_compute; reflexivity). rewrite Q. cbn [bind].
  set (x0 := o_eqb (Fops m) _ _). assert (X : x0 = false) by (vm_compute; reflexivity). rewrite X. cbn [bind o_atan2 Fops].
  assert (A : l_atan2 m west_y west_x = l_lit). { pose proof (lib_tiny m L) as K. assert (V : fdiv west_y west_x = Ok l_lit) by (vm_compute; reflexivity). congruence. } rewrite A.
  set (zq := o_div (Fops m) _ _). assert (Z : zq = Ok fzero) by (vm_compute; reflexivity). rewrite Z. cbn [bind].
  rewrite (pow_F m e_lit L) by (vm_compute; reflexivity). cbn [bind].
  set (bi := o_div (Fops m) _ _). assert (B : bi = Ok fzero) by (vm_compute; reflexivity). rewrite B. cbn [bind]. rewrite (loop_F m n L). cbn [bind].
  rewrite (zero_cos m L). cbn [bind]. rewrite (zero_sin m L). cbn [bind]. rewrite (pow_F m fzero L) by (vm_compute; reflexivity). cbn [bind]. apply f_equal. apply f_equal. vm_compute. reflexivity.
Qed.
Lemma west_longitude m fuel : (1 <= fuel)%nat -> library m -> xyz2lbh_deg (Fops m) fuel west_x west_y fzero = Ok (float_of_Z 360, fzero, fzero).
Proof. intros Hf L. destruct fuel as [|fuel]; [lia|]. unfold xyz2lbh_deg. rewrite (west_xyz2lbh m fuel L). vm_compute. reflexivity. Qed.
Definition ex_lib : libm := mkLibm (fun x => x) (fun x => float_of_Z 1) (fun x => x) (fun y x => match fdiv y x with Ok v => v | _ => y end) (fun x _ => fmul x x).
Lemma ex_library : library ex_lib.
Proof. split; try reflexivity; vm_compute; reflexivity. Qed.
