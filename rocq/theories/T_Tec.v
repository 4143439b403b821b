(** C27-C30, C55, C56: TEC values. *)
From Coq Require Import Reals Lra.
From Verif Require Import Base PyStr PyFloat M_Num M_Label M_Tec S_Tec P_Tec P_TecF P_TecG E_Tec.
Open Scope R_scope.

(** C27.  Two pseudoranges that are a common range plus the ionospheric delay give the slant TEC. *)
Theorem C27_slant_tec : forall r s f1 f2, 0 < f1 -> 0 < f2 -> f1 <> f2 -> r + delay s f1 <> 0 -> r + delay s f2 <> 0 ->
  via_p Rops (Some (r + delay s f1)) (Some (r + delay s f2)) (Some f1) (Some f2) = Ok (Some s).
Proof. exact via_p_tec. Qed.
Print Assumptions C27_slant_tec.
(** The program (binary64, any C library) gives None exactly for a missing or zero number. *)
Theorem C27_none : forall m p1 p2 f1 f2,
  via_p (Fops m) p1 p2 f1 f2 = Ok None <-> missing_f p1 \/ missing_f p2 \/ missing_f f1 \/ missing_f f2.
Proof. exact via_p_none. Qed.
Print Assumptions C27_none.
Example C27_example : 21000000 + delay 50 1575420000 <> 0 /\ 21000000 + delay 50 1227600000 <> 0.
Proof. unfold delay. lra. Qed.

(** C28.  Two phases (in cycles) that are a common range minus the ionospheric advance plus constants: TEC plus a
    constant that depends on neither the range nor the TEC. *)
Theorem C28_slant_tec : forall r s b1 b2 f1 f2 l1 l2, 0 < f1 -> 0 < f2 -> f1 <> f2 -> l1 <> 0 -> l2 <> 0 ->
  lambda f1 * l1 = r - delay s f1 + b1 -> lambda f2 * l2 = r - delay s f2 + b2 ->
  via_l Rops (Some l1) (Some l2) (Some f1) (Some f2) 0 =
  Ok (Some (s + (b1 - b2) * (f1 * f1 * (f2 * f2)) / (40.308 * 10000000000000000 * (f1 * f1 - f2 * f2)))).
Proof. exact via_l_tec. Qed.
Print Assumptions C28_slant_tec.
Theorem C28_none : forall m p1 p2 f1 f2 l0,
  via_l (Fops m) p1 p2 f1 f2 l0 = Ok None <-> missing_f p1 \/ missing_f p2 \/ missing_f f1 \/ missing_f f2.
Proof. exact via_l_none. Qed.
Print Assumptions C28_none.
Example C28_example : let l1 := 21000000 / lambda 1575420000 in let l2 := 21000000 / lambda 1227600000 in
  l1 <> 0 /\ l2 <> 0 /\ lambda 1575420000 * l1 = 21000000 - delay 0 1575420000 + 0 /\ lambda 1227600000 * l2 = 21000000 - delay 0 1227600000 + 0.
Proof. cbn zeta. unfold lambda, delay. repeat split; lra. Qed.

(** C29.  Code and phase on one frequency. *)
Theorem C29_slant_tec : forall r s b f l, 0 < f -> l <> 0 -> r + delay s f <> 0 -> lambda f * l = r - delay s f + b ->
  via_l1_c1 Rops (Some l) (Some (r + delay s f)) (Some f) = Ok (Some (s - b * (f * f) / (2 * 40.308 * 10000000000000000))).
Proof. exact via_lc_tec. Qed.
Print Assumptions C29_slant_tec.
Theorem C29_none : forall m p1 p2 f1, via_l1_c1 (Fops m) p1 p2 f1 = Ok None <-> missing_f p1 \/ missing_f p2 \/ missing_f f1.
Proof. exact via_lc_none. Qed.
Print Assumptions C29_none.
Example C29_example : let l := 21000000 / lambda 1575420000 in
  l <> 0 /\ 21000000 + delay 0 1575420000 <> 0 /\ lambda 1575420000 * l = 21000000 - delay 0 1575420000 + 0.
Proof. cbn zeta. unfold lambda, delay. repeat split; lra. Qed.

(** C30.  A requested TEC column holds the combination its name says.  Missing: tec.l8c8, unless tec.l1c1 or tec.l2c2
    is also requested. *)
Theorem C30_requested_partial : forall (T : Type) (o : ops T) fields ds f n, In n tec_names -> In (lit "tec." ++ n)%list fields ->
  (n = lit "l8c8" -> In (lit "tec.l1c1") fields \/ In (lit "tec.l2c2") fields) ->
  tec_named o ds f n (tec_column o fields ds f n).
Proof. exact @tec_name_cases. Qed.
Print Assumptions C30_requested_partial.
(** tec.l8c8 requested alone is never computed, although its column says code and phase of band 8. *)
Theorem C30_refuted : forall (T : Type) (o : ops T) ds f,
  tec_column o [lit "tec.l8c8"] ds f (lit "l8c8") = Ok None /\
  tec_named o ds f (lit "l8c8") (via_l1_c1 o (ds cL8) (ds cC8) (fr8 f)).
Proof. intros T o ds f. split; [exact (l8c8_lost o ds f)|exact (tn_mixed o ds f "8"%char cL8 cC8 eq_refl eq_refl)]. Qed.
Print Assumptions C30_refuted.
Example C30_example : In (lit "l2l7") tec_names /\ In (lit "tec." ++ lit "l2l7")%list [lit "sat.name"; lit "tec.l2l7"].
Proof. split; cbn; auto 10. Qed.

(** C55.  The carrier frequencies, exact in binary64: the published ones for GPS, SBAS, Galileo and BeiDou, and
    base plus k steps for GLONASS. *)
Theorem C55_carriers : forall m system band k base step, In (system, band, (base, step)) carriers -> (Z.abs k <= 2 ^ 20)%Z ->
  let kf := float_of_Z k in
  exists f, band_freq (system_freqs (Fops m) system (glo_f1 (Fops m) kf, glo_f2 (Fops m) kf)) band = Some f /\ has_value f (base + k * step).
Proof. exact carrier_exact. Qed.
Print Assumptions C55_carriers.
(** No other band of a system has a frequency, so no TEC is computed from it. *)
Theorem C55_no_others : forall m system band g, In system (lit "GRSCE") -> In band (lit "125678") ->
  (forall p, ~ In (system, band, p) carriers) -> band_freq (system_freqs (Fops m) system g) band = None.
Proof. exact carrier_none. Qed.
Print Assumptions C55_no_others.
Example C55_example : In ("R", "2", (1246000000, 437500)%Z)%char carriers /\ (Z.abs (-7) <= 2 ^ 20)%Z.
Proof. split; [cbn; auto 20|cbn; lia]. Qed.

(** C56.  Rounding: the printed TEC (binary64) against the exact formula on the same numbers. *)
Theorem C56_pseudorange : forall m p1 p2 f1 f2, carrier m f1 -> carrier m f2 -> apart f1 f2 -> pseudorange p1 -> pseudorange p2 ->
  exists t T, via_p (Fops m) (Some p1) (Some p2) (Some f1) (Some f2) = Ok (Some t) /\ is_real t /\
    via_p Rops (Some (real p1)) (Some (real p2)) (Some (real f1)) (Some (real f2)) = Ok (Some T) /\
    Rabs (real t - T) <= / 100000000000000 * Rabs T.
Proof. exact via_p_rounding. Qed.
Print Assumptions C56_pseudorange.
Theorem C56_phase : forall m l1 l2 f1 f2, carrier m f1 -> carrier m f2 -> apart f1 f2 -> phase l1 -> phase l2 ->
  exists t T K, via_l (Fops m) (Some l1) (Some l2) (Some f1) (Some f2) (o_int (Fops m) 0) = Ok (Some t) /\ is_real t /\
    via_l Rops (Some (real l1)) (Some (real l2)) (Some (real f1)) (Some (real f2)) 0 = Ok (Some T) /\
    tec_factor Rops (real f1) (real f2) = Ok K /\
    Rabs (real t - T) <= / 100000000000000 * (Rabs K * (Rabs (lambda (real f1) * real l1) + Rabs (lambda (real f2) * real l2))).
Proof. exact via_l_rounding. Qed.
Print Assumptions C56_phase.
Theorem C56_code_phase : forall m l c f, carrier m f -> phase l -> pseudorange c ->
  exists t T, via_l1_c1 (Fops m) (Some l) (Some c) (Some f) = Ok (Some t) /\ is_real t /\
    via_l1_c1 Rops (Some (real l)) (Some (real c)) (Some (real f)) = Ok (Some T) /\
    Rabs (real t - T) <= / 100000000000000 * (real f * real f / (2 * 40.308 * 10000000000000000) * (Rabs (real c) + Rabs (lambda (real f) * real l))).
Proof. exact via_lc_rounding. Qed.
Print Assumptions C56_code_phase.
(** The carriers of every column satisfy the hypotheses (GLONASS: up to |k| = 100), with an accurate square. *)
Theorem C56_carriers : forall m system k x y f1 f2, In system (lit "GRSCE") -> In (x, y) band_pairs -> (Z.abs k <= 100)%Z ->
  let fr := system_freqs (Fops m) system (glo_f1 (Fops m) (float_of_Z k), glo_f2 (Fops m) (float_of_Z k)) in
  band_freq fr x = Some f1 -> band_freq fr y = Some f2 ->
  apart f1 f2 /\ (forall f, In f [f1; f2] -> is_real f /\ 1000000000 <= real f <= 2000000000).
Proof. exact columns_apart. Qed.
Print Assumptions C56_carriers.
Example C56_example : let f1 := gps_f1 (Fops ex_libm) in let f2 := gps_f2 (Fops ex_libm) in
  carrier ex_libm f1 /\ carrier ex_libm f2 /\ apart f1 f2 /\
  pseudorange (float_of_Z 21000000) /\ pseudorange (float_of_Z 21000013) /\ phase (float_of_Z 110358000).
Proof. cbn zeta. destruct ex_gps as [A [B C]]. destruct ex_range as [D [E F]]. auto 10. Qed.
