(** Specification: geodetic coordinates, local horizon, broadcast orbits.  Over the real numbers; nothing here refers to the model. *)
From Coq Require Import Reals List.
Import ListNotations.
Open Scope R_scope.

Definition point : Type := R * R * R.
Definition norm2 (p : point) : R := let '(x, y, z) := p in x ^ 2 + y ^ 2 + z ^ 2.
Definition sub (p q : point) : point := let '(x, y, z) := p in let '(u, v, w) := q in (x - u, y - v, z - w).
Definition dot (p q : point) : R := let '(x, y, z) := p in let '(u, v, w) := q in x * u + y * v + z * w.
Definition off_axis (p : point) : Prop := let '(x, y, z) := p in 0 < x ^ 2 + y ^ 2.
(** at least 1000 km from the centre of the Earth *)
Definition far_out (p : point) : Prop := 1000000 ^ 2 <= norm2 p.

(** ** WGS-84 geodetic coordinates *)
Definition wgs_a : R := 6378137.
Definition wgs_b : R := 6356752.314245.
Definition wgs_e2 : R := (wgs_a ^ 2 - wgs_b ^ 2) / wgs_a ^ 2.
Definition vertical_radius (b : R) : R := wgs_a / sqrt (1 - wgs_e2 * sin b ^ 2).
Definition cartesian (l b h : R) : point :=
  let N := vertical_radius b in ((N + h) * cos b * cos l, (N + h) * cos b * sin l, (N * (1 - wgs_e2) + h) * sin b).
(** every coordinate within a tenth of a micrometre *)
Definition close (p q : point) : Prop :=
  let '(x, y, z) := p in let '(u, v, w) := q in Rabs (x - u) <= / 10000000 /\ Rabs (y - v) <= / 10000000 /\ Rabs (z - w) <= / 10000000.
(** longitude, latitude (radians) and height of a point *)
Definition geodetic (p : point) (l b h : R) : Prop := close p (cartesian l b h) /\ - (PI / 2) < b < PI / 2.

(** ** directions at a site with longitude l and latitude b *)
Definition up (l b : R) : point := (cos b * cos l, cos b * sin l, sin b).
Definition east (l b : R) : point := (- sin l, cos l, 0).
Definition north (l b : R) : point := (- sin b * cos l, - sin b * sin l, cos b).
Definition degrees (t : R) : R := t * (180 / PI).
Definition radians (d : R) : R := d * (PI / 180).
(** d is a direction of bearing az degrees, clockwise from the north *)
Definition bearing (l b : R) (d : point) (az : R) : Prop :=
  exists rho, 0 <= rho /\ dot d (east l b) = rho * sin (radians az) /\ dot d (north l b) = rho * cos (radians az).
(** a mean Earth sphere *)
Definition mean_radius : R := 6371000.
(** height, above the plane tangent to the sphere at a site with vertical u, of a satellite at distance r with vertical v *)
Definition above_horizon (u v : point) (r : R) : R := r * dot u v - mean_radius.

(** ** GPS: IS-GPS-200, table 20-IV *)
Record elements := mkElements {
  el_crs : R; el_dn : R; el_m0 : R; el_cuc : R; el_e : R; el_cus : R; el_sqrt_a : R; el_toe : R; el_cic : R; el_omega0 : R; el_cis : R;
  el_i0 : R; el_crc : R; el_w : R; el_omega_dot : R; el_i_dot : R }.
Definition omega_earth : R := 7.2921151467 / 100000.
(** the time from the reference time, across the week's ends *)
Definition half_week (d tk : R) : Prop := (tk = d \/ tk = d + 604800 \/ tk = d - 604800) /\ (-907200 < d < 907200 -> -302400 <= tk <= 302400).
Definition mean_anomaly (mu : R) (el : elements) (tk : R) : R := el_m0 el + (sqrt (mu / (el_sqrt_a el ^ 2) ^ 3) + el_dn el) * tk.
Definition kepler (e m E : R) : Prop := m = E - e * sin E.
Definition true_anomaly (e E v : R) : Prop :=
  cos v = (cos E - e) / (1 - e * cos E) /\ sin v = sqrt (1 - e ^ 2) * sin E / (1 - e * cos E).
(** the position given the eccentric and true anomalies, and the radius of the orbit there *)
Definition latitude_argument (el : elements) (v : R) : R :=
  let p := v + el_w el in p + (el_cus el * sin (2 * p) + el_cuc el * cos (2 * p)).
Definition radius (el : elements) (v r0 : R) : R :=
  let p := v + el_w el in r0 + (el_crs el * sin (2 * p) + el_crc el * cos (2 * p)).
Definition inclination (el : elements) (v tk : R) : R :=
  let p := v + el_w el in el_i0 el + (el_cis el * sin (2 * p) + el_cic el * cos (2 * p)) + el_i_dot el * tk.
Definition node (el : elements) (tk : R) : R := el_omega0 el + (el_omega_dot el - omega_earth) * tk - omega_earth * el_toe el.
Definition in_plane (u r i om : R) : point :=
  let x' := r * cos u in let y' := r * sin u in
  (x' * cos om - y' * cos i * sin om, x' * sin om + y' * cos i * cos om, y' * sin i).
Definition orbit_position (el : elements) (v r0 tk : R) : point :=
  in_plane (latitude_argument el v) (radius el v r0) (inclination el v tk) (node el tk).
(** IS-GPS-200: the distance of an ellipse's point from its focus *)
Definition ellipse_radius (el : elements) (E : R) : R := el_sqrt_a el ^ 2 * (1 - el_e el * cos E).
Definition is_gps_200 (mu : R) (el : elements) (t : R) (p : point) : Prop :=
  exists tk E v, half_week (t - el_toe el) tk /\ kepler (el_e el) (mean_anomaly mu el tk) E /\ true_anomaly (el_e el) E v /\
    p = orbit_position el v (ellipse_radius el E) tk.

(** ** GLONASS: the differential equations of the interface document (PZ-90) *)
Definition pz_mu : R := 398600.44e9.
Definition pz_ae : R := 6378136.
Definition pz_j : R := 1082.6257e-6.
Record motion := mkMotion { m_pos : point; m_vel : point; m_acc : point }.     (* metres and seconds; m_acc: Sun and Moon *)
Definition acceleration (m : motion) : point :=
  let '(x, y, z) := m_pos m in let '(vx, vy, _) := m_vel m in let '(ax, ay, az) := m_acc m in
  let r := sqrt (norm2 (m_pos m)) in
  let c := 3 / 2 * pz_j * pz_mu * pz_ae ^ 2 / r ^ 5 in
  (- pz_mu / r ^ 3 * x - c * x * (1 - 5 * z ^ 2 / r ^ 2) + omega_earth ^ 2 * x + 2 * omega_earth * vy + ax,
   - pz_mu / r ^ 3 * y - c * y * (1 - 5 * z ^ 2 / r ^ 2) + omega_earth ^ 2 * y - 2 * omega_earth * vx + ay,
   - pz_mu / r ^ 3 * z - c * z * (3 - 5 * z ^ 2 / r ^ 2) + az).
(** the motion with constant acceleration *)
Definition second_order (m : motion) (t : R) : point :=
  let '(x, y, z) := m_pos m in let '(vx, vy, vz) := m_vel m in let '(ax, ay, az) := acceleration m in
  (x + vx * t + ax * t ^ 2 / 2, y + vy * t + ay * t ^ 2 / 2, z + vz * t + az * t ^ 2 / 2).
(** every coordinate within k of *)
Definition within (k : R) (p q : point) : Prop :=
  let '(x, y, z) := p in let '(u, v, w) := q in Rabs (x - u) <= k /\ Rabs (y - v) <= k /\ Rabs (z - w) <= k.
(** the order of the broadcast parameters in a navigation record *)
Definition broadcast (eph : list R) (el : elements) : Prop :=
  exists iode rest, eph = iode :: el_crs el :: el_dn el :: el_m0 el :: el_cuc el :: el_e el :: el_cus el :: el_sqrt_a el ::
    el_toe el :: el_cic el :: el_omega0 el :: el_cis el :: el_i0 el :: el_crc el :: el_w el :: el_omega_dot el :: el_i_dot el :: rest.
Definition glonass_broadcast (eph : list R) (m : motion) : Prop :=
  exists x vx ax h y vy ay k z vz az rest, eph = x :: vx :: ax :: h :: y :: vy :: ay :: k :: z :: vz :: az :: rest /\
    m = mkMotion (x * 1000, y * 1000, z * 1000) (vx * 1000, vy * 1000, vz * 1000) (ax * 1000, ay * 1000, az * 1000).
