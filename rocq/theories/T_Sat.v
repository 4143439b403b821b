(** C31-C35: coordinates and orbits. *)
From Coq Require Import Reals Lra Lia.
From Verif Require Import Base PyStr PyFloat M_Num M_Sat S_Tec S_Sat S_SatF P_Sat3 P_Sat4 P_Sat5 P_Kepler P_Sat6 P_Sat7.
Open Scope R_scope.

(** C31.  Exact arithmetic: the azimuth is a bearing of the satellite from the site, and lies in [0, 360). *)
Theorem C31_azimuth : forall fuel obs sat el az, compute_el_az Rops fuel obs sat = Ok (el, az) ->
  exists l b h, geodetic obs l b h /\ bearing l b (sub sat obs) az /\ 0 <= az < 360.
Proof. exact azimuth_bearing. Qed.
Print Assumptions C31_azimuth.
(** It is computed, unless a division by zero stops it (the satellite at the zenith, nadir or 90 degrees away). *)
Theorem C31_azimuth_defined : forall fuel obs sat, (11 <= fuel)%nat -> off_axis obs -> far_out obs -> off_axis sat -> far_out sat ->
  (exists el az, compute_el_az Rops fuel obs sat = Ok (el, az)) \/ compute_el_az Rops fuel obs sat = Err ZeroDivisionError.
Proof. exact el_az_total. Qed.
Print Assumptions C31_azimuth_defined.
(** In binary64, with any C library: not a number, or from 0 to 360.  Missing: 360 itself is possible. *)
Theorem C31_azimuth_binary64_partial : forall m fuel obs sat el az, (forall y x, angle (l_atan2 m y x)) ->
  compute_el_az (Fops m) fuel obs sat = Ok (el, az) -> in_360 az.
Proof. exact azimuth_closed. Qed.
Print Assumptions C31_azimuth_binary64_partial.
Theorem C31_longitude_binary64_partial : forall m fuel x y z l b h, (forall y x, angle (l_atan2 m y x)) ->
  xyz2lbh_deg (Fops m) fuel x y z = Ok (l, b, h) -> in_360 l.
Proof. exact longitude_closed. Qed.
Print Assumptions C31_longitude_binary64_partial.
(** A site just west of the zero meridian is written with longitude 360. *)
Theorem C31_refuted : forall m fuel, (1 <= fuel)%nat -> library m ->
  xyz2lbh_deg (Fops m) fuel west_x west_y fzero = Ok (float_of_Z 360, fzero, fzero).
Proof. exact west_longitude. Qed.
Print Assumptions C31_refuted.
Example C31_example : library ex_lib /\ forall fuel, (1 <= fuel)%nat -> exists el az, compute_el_az Rops fuel (6378137, 0, 0) (-2500000, 26000000, 0) = Ok (el, az).
Proof. split; [exact ex_library|]. intros fuel H. destruct (low_elevation fuel H) as (el & az & E & _). eauto. Qed.
Example C31_positions : off_axis (2849830, 2186822, 5252937) /\ far_out (2849830, 2186822, 5252937) /\ off_axis (15600000, 7540000, 20140000) /\ far_out (15600000, 7540000, 20140000).
Proof. unfold off_axis, far_out, norm2. repeat split; lra. Qed.

(** C32.  The elevation's sign.  With c the cosine of the angle between the two verticals: right when c > 0;
    missing: c < 0, where the elevation is not negative although the satellite may be below the horizon. *)
Theorem C32_elevation_partial : forall fuel obs sat el az, compute_el_az Rops fuel obs sat = Ok (el, az) ->
  exists l b h l' b' h', geodetic obs l b h /\ geodetic sat l' b' h' /\ -90 < el < 90 /\
    let rk := sqrt (norm2 sat) in let c := dot (up l b) (up l' b') in
    0 < rk /\ c <> 0 /\ c ^ 2 < 1 /\
    (0 < c -> tan (radians el) = (rk * c - mean_radius) / (rk * sqrt (1 - c ^ 2)) /\ (0 <= el <-> 0 <= above_horizon (up l b) (up l' b') rk)) /\
    (c < 0 -> 0 <= el <-> - mean_radius <= rk * c).
Proof. exact elevation_sign. Qed.
Print Assumptions C32_elevation_partial.
(** A satellite more than 8000 km below the site's tangent plane gets a positive elevation. *)
Theorem C32_refuted : forall fuel, (1 <= fuel)%nat ->
  geodetic (6378137, 0, 0) 0 0 0 /\ dot (sub (-2500000, 26000000, 0) (6378137, 0, 0)) (up 0 0) = -8878137 /\
  exists el az, compute_el_az Rops fuel (6378137, 0, 0) (-2500000, 26000000, 0) = Ok (el, az) /\ 0 < el < 90.
Proof. intros fuel H. exact (conj low_site (conj low_below (low_elevation fuel H))). Qed.
Print Assumptions C32_refuted.

(** C33.  The geodetic coordinates of every point at least 1000 km from the centre and off the polar axis. *)
Theorem C33_geodetic : forall fuel x y z, (11 <= fuel)%nat -> off_axis (x, y, z) -> far_out (x, y, z) ->
  exists l b h, xyz2lbh_deg Rops fuel x y z = Ok (l, b, h) /\ 0 <= l < 360 /\ -90 < b < 90 /\ geodetic (x, y, z) (radians l) (radians b) h.
Proof. exact lbh_deg_ok. Qed.
Print Assumptions C33_geodetic.
(** On the axis: zeros. *)
Theorem C33_axis : forall fuel z, xyz2lbh_deg Rops fuel 0 0 z = Ok (0, 0, 0).
Proof. exact lbh_deg_axis. Qed.
Print Assumptions C33_axis.
(** Whenever radians are computed (no bound on the distance), they are the coordinates. *)
Theorem C33_radians : forall fuel x y z l b h, xyz2lbh Rops fuel x y z = Ok (l, b, h) -> geodetic (x, y, z) l b h.
Proof. exact geodetic_ok. Qed.
Print Assumptions C33_radians.

(** C34.  The GPS position.  Missing: the radius is A (1 + e cos E), not IS-GPS-200's A (1 - e cos E). *)
Theorem C34_orbit_partial : forall fuel eph el t p, broadcast eph el -> 0 <= el_e el < 1 / 2 -> el_sqrt_a el <> 0 -> gps_xyz Rops fuel eph t = Ok p ->
  exists tk E v, half_week (t - el_toe el) tk /\ kepler (el_e el) (mean_anomaly pz_mu el tk) E /\ true_anomaly (el_e el) E v /\
    p = orbit_position el v (el_sqrt_a el ^ 2 * (1 + el_e el * cos E)) tk.
Proof. exact gps_orbit. Qed.
Print Assumptions C34_orbit_partial.
(** For circular orbits it is IS-GPS-200's position. *)
Theorem C34_circular : forall fuel eph el t, (2 <= fuel)%nat -> broadcast eph el -> el_e el = 0 -> el_sqrt_a el <> 0 ->
  exists p, gps_xyz Rops fuel eph t = Ok p /\ is_gps_200 pz_mu el t p.
Proof. exact gps_circular. Qed.
Print Assumptions C34_circular.
(** In binary64, the eccentric anomaly solves Kepler's equation to 1e-13. *)
Theorem C34_kepler_binary64 : forall lm e m n E, trig_accurate lm -> is_real e -> is_real m -> 0 <= real e <= / 4 -> Rabs (real m) <= 50 ->
  kepler_loop (Fops lm) n e m m (o_add (Fops lm) m (o_int (Fops lm) 1)) (o_int (Fops lm) 0) (o_int (Fops lm) 1) = Ok E ->
  is_real E /\ Rabs (real E - real e * sin (real E) - real m) <= / 10000000000000.
Proof. exact kepler_binary64. Qed.
Print Assumptions C34_kepler_binary64.
(** At its perigee, a satellite of eccentricity 0.01 is put at the apogee's radius: 531 km too far. *)
Theorem C34_refuted : forall fuel, (2 <= fuel)%nat ->
  broadcast (perigee_eph 5153 0.01) (perigee 5153 0.01) /\
  exists p, gps_xyz Rops fuel (perigee_eph 5153 0.01) 0 = Ok p /\ norm2 p = (5153 ^ 2 * 1.01) ^ 2 /\
  forall mu q, is_gps_200 mu (perigee 5153 0.01) 0 q -> norm2 q = (5153 ^ 2 * 0.99) ^ 2.
Proof. intros fuel H. exact (conj (perigee_broadcast 5153 0.01) (radius_wrong fuel H)). Qed.
Print Assumptions C34_refuted.
Example C34_example : exists eph el, broadcast eph el /\ el_e el = 0 /\ el_sqrt_a el <> 0 /\ el_i0 el = 0.96.
Proof. exists [0; 1; 0; 0.5; 0; 0; 0; 5153; 7200; 0; 1; 0; 0.96; 200; 0.3; 0; 0], (mkElements 1 0 0.5 0 0 0 5153 7200 0 1 0 0.96 200 0.3 0 0). split; [exists 0, []; reflexivity|]. cbn. repeat split; lra. Qed.

(** C35.  GLONASS and SBAS. *)
Theorem C35_at_zero : forall eph m, glonass_broadcast eph m -> glo_xyz Rops eph 0 = Ok (m_pos m).
Proof. exact glo_zero. Qed.
Print Assumptions C35_at_zero.
(** Near the ephemeris time the position follows the equations of motion, to the second order in the offset. *)
Theorem C35_second_order : forall eph m D, glonass_broadcast eph m -> 0 < norm2 (m_pos m) ->
  exists K, forall t, Rabs t <= D -> exists p, glo_xyz Rops eph t = Ok p /\ within (K * Rabs t ^ 3) p (second_order m t).
Proof. exact glo_second_order. Qed.
Print Assumptions C35_second_order.
(** SBAS positions are computed by the same function of the ephemeris, in exact arithmetic as in binary64. *)
Theorem C35_sbas : forall (T : Type) (o : ops T) eph dt, geo_xyz o eph dt = glo_xyz o eph dt.
Proof. exact @geo_glo. Qed.
Print Assumptions C35_sbas.
Example C35_example : exists eph m, glonass_broadcast eph m /\ 0 < norm2 (m_pos m).
Proof. exists [13280; -1; 0; 0; -5820; 2; 0; 1; 20943; 1; 0], (mkMotion (13280 * 1000, -5820 * 1000, 20943 * 1000) (-1 * 1000, 2 * 1000, 1 * 1000) (0 * 1000, 0 * 1000, 0 * 1000)).
  split; [repeat eexists|]. cbn. lra. Qed.
