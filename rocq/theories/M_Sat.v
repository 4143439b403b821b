(** Model of tecs/sat/datum.py, common.py, gps.py, glonass.py and geo.py, over abstract operations (M_Num).
    Loops take a bound on the number of turns, OutOfFuel when it is used up. *)
From Verif Require Import Base M_Num.
Open Scope nat_scope.

Section Sat.
Context {T : Type} (o : ops T).
Local Notation "x + y" := (o_add o x y).
Local Notation "x - y" := (o_sub o x y).
Local Notation "x * y" := (o_mul o x y).
Local Notation int := (o_int o).

(** datum.py:31-55 *)
Definition datum_a : T := o_lit o 6378137 0.
Definition datum_b : T := o_lit o 6356752314245 (-6).
Definition datum_e : res T :=
  do b2 <- o_pow o datum_b 2; do a2 <- o_pow o datum_a 2; do q <- o_div o b2 a2; o_sqrt o (int 1 - q).
Definition datum_re : T := o_lit o 6371 3.
Definition datum_mu : T := o_lit o 39860044 7.
Definition datum_ae : Z := 6378136.
Definition datum_j : T := o_lit o 10826257 (-10).
Definition datum_omega : T := o_lit o 72921151467 (-15).

(** common.py:81-96: the latitude loop; result: Bi1 and N *)
Fixpoint lat_loop (fuel : nat) (e z q bi : T) : res (T * T) :=
  match fuel with
  | O => Err OutOfFuel
  | S fuel' =>
    do e2 <- o_pow o e 2;
    do s <- o_sin o bi; do s2 <- o_pow o s 2;
    do w <- o_sqrt o (int 1 - e2 * s2);
    do n <- o_div o datum_a w;
    let t := z + n * e2 * s in
    let bi1 := o_atan2 o t q in
    if o_leb o (o_abs o (bi1 - bi)) (o_lit o 1 (-12)) then Ok (bi1, n) else lat_loop fuel' e z q bi1
  end.
(** common.py:37-103 xyz2lbh *)
Definition xyz2lbh (fuel : nat) (x y z : T) : res (T * T * T) :=
  do e <- datum_e;
  do x2 <- o_pow o x 2; do y2 <- o_pow o y 2;
  do q <- o_sqrt o (x2 + y2);
  do l <- (if o_eqb o x (int 0) then
             if o_ltb o (int 0) y then o_div o (o_pi o) (int 2)
             else o_div o (int 3 * o_pi o) (int 2)
           else Ok (o_atan2 o y x));
  do zq <- o_div o z q; do e2 <- o_pow o e 2;
  do bi <- o_div o (zq * int 1) (int 1 - e2);
  do (b, n) <- lat_loop fuel e z q bi;
  do cb <- o_cos o b; do sb <- o_sin o b; do sb2 <- o_pow o sb 2;
  Ok (l, b, q * cb + z * sb - n * (int 1 - e2 * sb2)).

(** common.py:106-165 compute_el_az *)
Definition compute_el_az (fuel : nat) (obs sat : T * T * T) : res (T * T) :=
  let '(x0, y0, z0) := obs in
  let '(xs, ys, zs) := sat in
  do (l0, b0, _) <- xyz2lbh fuel x0 y0 z0;
  do (ls, bs, _) <- xyz2lbh fuel xs ys zs;
  do xs2 <- o_pow o xs 2; do ys2 <- o_pow o ys 2; do zs2 <- o_pow o zs 2;
  do rk <- o_sqrt o (xs2 + ys2 + zs2);
  do sb0 <- o_sin o b0; do sbs <- o_sin o bs; do cb0 <- o_cos o b0; do cbs <- o_cos o bs; do cl <- o_cos o (ls - l0);
  let c := sb0 * sbs + cb0 * cbs * cl in
  do c2 <- o_pow o c 2;
  do s <- o_sqrt o (int 1 - c2);
  do sc <- o_div o s c;
  let sigma := o_atan o sc in
  do sl0 <- o_sin o l0; do cl0 <- o_cos o l0;
  let xt := o_neg o (xs - x0) * sl0 + (ys - y0) * cl0 in
  let yt := o_neg o (xs - x0) * cl0 * sb0 - (ys - y0) * sl0 * sb0 + (zs - z0) * cb0 in
  do csg <- o_cos o sigma; do rr <- o_div o datum_re rk; do ssg <- o_sin o sigma;
  do t <- o_div o (csg - rr) ssg;
  let el := o_atan o t in
  let az := o_atan2 o xt yt in
  do d1 <- o_div o (int 180) (o_pi o);
  let el := el * d1 in
  let az := az * d1 in
  let az := if o_ltb o az (int 0) then az + int 360 else az in
  Ok (el, az).

(** the subclasses of ArithmeticError *)
Definition arithmetic : list exn := [ZeroDivisionError; OverflowError].
(** common.py:168-188 xyz2lbh_deg *)
Definition xyz2lbh_deg (fuel : nat) (x y z : T) : res (T * T * T) :=
  match xyz2lbh fuel x y z with
  | Ok (l, b, h) =>
    do l <- o_div o (l * int 180) (o_pi o);
    do b <- o_div o (b * int 180) (o_pi o);
    Ok (if o_ltb o l (int 0) then l + int 360 else l, b, h)
  | Err e => if existsb (exn_eqb e) arithmetic then Ok (int 0, int 0, int 0) else Err e
  end.

(** ephemeris[i] *)
Definition eph_at (eph : list T) (i : nat) : res T := of_option IndexError (nth_error eph i).
(** gps.py:96-103: Newton's iteration for the eccentric anomaly *)
Fixpoint kepler_loop (fuel : nat) (e0 mk ek ek1 prv cur : T) : res T :=
  if o_eqb o prv cur then Ok ek
  else
    match fuel with
    | O => Err OutOfFuel
    | S fuel' =>
      let prv := o_abs o (ek - ek1) in
      let ek1 := ek in
      do s <- o_sin o ek1; do c <- o_cos o ek1;
      do d <- o_div o (ek1 - e0 * s - mk) (int 1 - e0 * c);
      let ek := ek1 - d in
      kepler_loop fuel' e0 mk ek ek1 prv (o_abs o (ek - ek1))
    end.
(** gps.py:84-88: the time from the ephemeris *)
Definition time_from (sec toe : T) : T :=
  let tk := sec - toe in
  if o_ltb o (int 302400) tk then tk - int 604800
  else if o_ltb o tk (int (-302400)) then tk + int 604800 else tk.
(** gps.py:105-107: the true anomaly *)
Definition gps_anomaly (e0 ek : T) : res T :=
  do e2 <- o_pow o e0 2; do se <- o_sqrt o (int 1 - e2); do sek <- o_sin o ek; do cek <- o_cos o ek;
  do fs <- o_div o (se * sek) (int 1 - e0 * cek);
  do fc <- o_div o (cek - e0) (int 1 - e0 * cek);
  Ok (o_atan2 o fs fc).
(** gps.py:110-115: a value plus its correction cc * cos(2 * u0k) + cs * sin(2 * u0k), summed in the code's two ways *)
Definition corrected (v cc cs u0k : T) : res T :=
  do c2u <- o_cos o (int 2 * u0k); do s2u <- o_sin o (int 2 * u0k); Ok (v + cc * c2u + cs * s2u).
Definition corrected_sum (v cc cs u0k : T) : res T :=
  do c2u <- o_cos o (int 2 * u0k); do s2u <- o_sin o (int 2 * u0k); Ok (v + (cc * c2u + cs * s2u)).
(** gps.py:91-92: the mean anomaly *)
Definition gps_mean (m0 dn a0 tk : T) : res T :=
  do a3 <- o_pow o a0 3; do nq <- o_div o datum_mu a3; do n0 <- o_sqrt o nq; Ok (m0 + (n0 + dn) * tk).
(** gps.py:119-121 *)
Definition gps_place (rk uk ik omega_k : T) : res (T * T * T) :=
  do cu <- o_cos o uk; do su <- o_sin o uk; do co <- o_cos o omega_k; do so <- o_sin o omega_k;
  do ci <- o_cos o ik; do si <- o_sin o ik;
  Ok (rk * (cu * co - su * so * ci), rk * (cu * so + su * co * ci), rk * su * si).
(** gps.py:41-125 compute_sat_xyz *)
Definition gps_xyz (fuel : nat) (eph : list T) (sec : T) : res (T * T * T) :=
  do crs <- eph_at eph 1; do dn <- eph_at eph 2; do m0 <- eph_at eph 3; do cuc <- eph_at eph 4; do e0 <- eph_at eph 5;
  do cus <- eph_at eph 6; do sa <- eph_at eph 7; do a0 <- o_pow o sa 2; do toe <- eph_at eph 8; do cic <- eph_at eph 9;
  do omega_0 <- eph_at eph 10; do cis <- eph_at eph 11; do i0 <- eph_at eph 12; do crc <- eph_at eph 13; do w0 <- eph_at eph 14;
  do omega_dot <- eph_at eph 15; do i_dot <- eph_at eph 16;
  let tk := time_from sec toe in
  do mk <- gps_mean m0 dn a0 tk;
  do ek <- kepler_loop fuel e0 mk mk (mk + int 1) (int 0) (int 1);
  do tettak <- gps_anomaly e0 ek;
  let u0k := tettak + w0 in
  do uk <- corrected u0k cuc cus u0k;
  do cek <- o_cos o ek;
  do rk <- corrected (a0 * (int 1 + e0 * cek)) crc crs u0k;
  do ik <- corrected_sum i0 cic cis u0k;
  let ik := ik + i_dot * tk in
  let omega_k := omega_0 + (omega_dot - datum_omega) * tk - datum_omega * toe in
  gps_place rk uk ik omega_k.

(** glonass.py:92-103: the factor (n - 5 * z ** 2 / r ** 2) *)
Definition glo_oblate (r z : T) (n : Z) : res T :=
  do z2 <- o_pow o z 2; do r2 <- o_pow o r 2; do f <- o_div o (int 5 * z2) r2; Ok (int n - f).
(** glonass.py:90-103: fx, fy, fz; fs = first_sd, sd = second_sd *)
Definition glo_fx (fs sd r vY aX x z : T) : res T :=
  do p <- glo_oblate r z 1%Z; do om2 <- o_pow o datum_omega 2;
  Ok (fs * x - sd * x * p + om2 * x + int 2 * datum_omega * vY + aX).
Definition glo_fy (fs sd r vX aY y z : T) : res T :=
  do p <- glo_oblate r z 1%Z; do om2 <- o_pow o datum_omega 2;
  Ok (fs * y - sd * y * p + om2 * y - int 2 * datum_omega * vX + aY).
Definition glo_fz (fs sd r aZ z : T) : res T :=
  do p <- glo_oblate r z 3%Z; Ok (fs * z - sd * z * p + aZ).
(** glonass.py:118-129: one coordinate at the middle of the step *)
Definition glo_half (dt p0 v k : T) : res T :=
  do a <- o_div o (v * dt) (o_lit o 2 0); do b <- o_div o (k * dt) (o_lit o 8 0); Ok (p0 + a + b).
(** glonass.py:136-140: one coordinate of the result *)
Definition glo_last (dt p0 v k1 k2 k3 : T) : res T :=
  do a <- o_div o ((k1 + k2 + k3) * dt) (int 6); Ok (p0 + v * dt + a).
(** glonass.py:83-87: r, first_sd and second_sd *)
Definition glo_factors (x0 y0 z0 : T) : res (T * T * T) :=
  do x02 <- o_pow o x0 2; do y02 <- o_pow o y0 2; do z02 <- o_pow o z0 2;
  do r <- o_sqrt o (x02 + y02 + z02);
  do r3 <- o_pow o r 3; do q1 <- o_div o datum_mu r3;
  do h <- o_div o (int 3) (o_lit o 2 0);
  do r5 <- o_pow o r 5;
  do sd <- o_div o (h * datum_j * datum_mu * int (datum_ae * datum_ae)) r5;
  Ok (r, o_neg o q1, sd).
(** glonass.py:44-143 compute_sat_xyz; the computation on metres *)
Definition glo_move (dt x0 vX aX y0 vY aY z0 vZ aZ : T) : res (T * T * T) :=
  do (r, fs, sd) <- glo_factors x0 y0 z0;
  do fx1 <- glo_fx fs sd r vY aX x0 z0; do fy1 <- glo_fy fs sd r vX aY y0 z0; do fz1 <- glo_fz fs sd r aZ z0;
  let kx1 := fx1 * dt in let ky1 := fy1 * dt in let kz1 := fz1 * dt in
  do x1 <- glo_half dt x0 vX kx1; do y1 <- glo_half dt y0 vY ky1; do z1 <- glo_half dt z0 vZ kz1;
  do fx2 <- glo_fx fs sd r vY aX x1 z1; do fy2 <- glo_fy fs sd r vX aY y1 z1; do fz2 <- glo_fz fs sd r aZ z1;
  let kx2 := fx2 * dt in let ky2 := fy2 * dt in let kz2 := fz2 * dt in
  do x2 <- glo_half dt x0 vX kx2; do y2 <- glo_half dt y0 vY ky2; do z2 <- glo_half dt z0 vZ kz2;
  do fx3 <- glo_fx fs sd r vY aX x2 z2; do fy3 <- glo_fy fs sd r vX aY y2 z2; do fz3 <- glo_fz fs sd r aZ z2;
  let kx3 := fx3 * dt in let ky3 := fy3 * dt in let kz3 := fz3 * dt in
  do xr <- glo_last dt x0 vX kx1 kx2 kx3; do yr <- glo_last dt y0 vY ky1 ky2 ky3; do zr <- glo_last dt z0 vZ kz1 kz2 kz3;
  Ok (xr, yr, zr).
Definition glo_xyz (eph : list T) (dt : T) : res (T * T * T) :=
  do e0 <- eph_at eph 0; do e1 <- eph_at eph 1; do e2 <- eph_at eph 2; do e4 <- eph_at eph 4; do e5 <- eph_at eph 5; do e6 <- eph_at eph 6;
  do e8 <- eph_at eph 8; do e9 <- eph_at eph 9; do e10 <- eph_at eph 10;
  let x0 := e0 * int 1000 in let vX := e1 * int 1000 in let aX := e2 * int 1000 in
  let y0 := e4 * int 1000 in let vY := e5 * int 1000 in let aY := e6 * int 1000 in
  let z0 := e8 * int 1000 in let vZ := e9 * int 1000 in let aZ := e10 * int 1000 in
  if o_eqb o dt (int 0) then Ok (x0, y0, z0) else glo_move dt x0 vX aX y0 vY aY z0 vZ aZ.

(** geo.py:82-93: the factor (n - 5 * z ** 2 / r ** 2) *)
Definition geo_oblate (r z : T) (n : Z) : res T :=
  do z2 <- o_pow o z 2; do r2 <- o_pow o r 2; do f <- o_div o (int 5 * z2) r2; Ok (int n - f).
(** geo.py:80-93: fx, fy, fz; fs = first_sd, sd = second_sd *)
Definition geo_fx (fs sd r vY aX x z : T) : res T :=
  do p <- geo_oblate r z 1%Z; do om2 <- o_pow o datum_omega 2;
  Ok (fs * x - sd * x * p + om2 * x + int 2 * datum_omega * vY + aX).
Definition geo_fy (fs sd r vX aY y z : T) : res T :=
  do p <- geo_oblate r z 1%Z; do om2 <- o_pow o datum_omega 2;
  Ok (fs * y - sd * y * p + om2 * y - int 2 * datum_omega * vX + aY).
Definition geo_fz (fs sd r aZ z : T) : res T :=
  do p <- geo_oblate r z 3%Z; Ok (fs * z - sd * z * p + aZ).
(** geo.py:108-119: one coordinate at the middle of the step *)
Definition geo_half (dt p0 v k : T) : res T :=
  do a <- o_div o (v * dt) (o_lit o 2 0); do b <- o_div o (k * dt) (o_lit o 8 0); Ok (p0 + a + b).
(** geo.py:126-130: one coordinate of the result *)
Definition geo_last (dt p0 v k1 k2 k3 : T) : res T :=
  do a <- o_div o ((k1 + k2 + k3) * dt) (int 6); Ok (p0 + v * dt + a).
(** geo.py:73-77: r, first_sd and second_sd *)
Definition geo_factors (x0 y0 z0 : T) : res (T * T * T) :=
  do x02 <- o_pow o x0 2; do y02 <- o_pow o y0 2; do z02 <- o_pow o z0 2;
  do r <- o_sqrt o (x02 + y02 + z02);
  do r3 <- o_pow o r 3; do q1 <- o_div o datum_mu r3;
  do h <- o_div o (int 3) (o_lit o 2 0);
  do r5 <- o_pow o r 5;
  do sd <- o_div o (h * datum_j * datum_mu * int (datum_ae * datum_ae)) r5;
  Ok (r, o_neg o q1, sd).
(** geo.py:35-133 compute_sat_xyz; the computation on metres *)
Definition geo_move (dt x0 vX aX y0 vY aY z0 vZ aZ : T) : res (T * T * T) :=
  do (r, fs, sd) <- geo_factors x0 y0 z0;
  do fx1 <- geo_fx fs sd r vY aX x0 z0; do fy1 <- geo_fy fs sd r vX aY y0 z0; do fz1 <- geo_fz fs sd r aZ z0;
  let kx1 := fx1 * dt in let ky1 := fy1 * dt in let kz1 := fz1 * dt in
  do x1 <- geo_half dt x0 vX kx1; do y1 <- geo_half dt y0 vY ky1; do z1 <- geo_half dt z0 vZ kz1;
  do fx2 <- geo_fx fs sd r vY aX x1 z1; do fy2 <- geo_fy fs sd r vX aY y1 z1; do fz2 <- geo_fz fs sd r aZ z1;
  let kx2 := fx2 * dt in let ky2 := fy2 * dt in let kz2 := fz2 * dt in
  do x2 <- geo_half dt x0 vX kx2; do y2 <- geo_half dt y0 vY ky2; do z2 <- geo_half dt z0 vZ kz2;
  do fx3 <- geo_fx fs sd r vY aX x2 z2; do fy3 <- geo_fy fs sd r vX aY y2 z2; do fz3 <- geo_fz fs sd r aZ z2;
  let kx3 := fx3 * dt in let ky3 := fy3 * dt in let kz3 := fz3 * dt in
  do xr <- geo_last dt x0 vX kx1 kx2 kx3; do yr <- geo_last dt y0 vY ky1 ky2 ky3; do zr <- geo_last dt z0 vZ kz1 kz2 kz3;
  Ok (xr, yr, zr).
Definition geo_xyz (eph : list T) (dt : T) : res (T * T * T) :=
  do e0 <- eph_at eph 0; do e1 <- eph_at eph 1; do e2 <- eph_at eph 2; do e4 <- eph_at eph 4; do e5 <- eph_at eph 5; do e6 <- eph_at eph 6;
  do e8 <- eph_at eph 8; do e9 <- eph_at eph 9; do e10 <- eph_at eph 10;
  let x0 := e0 * int 1000 in let vX := e1 * int 1000 in let aX := e2 * int 1000 in
  let y0 := e4 * int 1000 in let vY := e5 * int 1000 in let aY := e6 * int 1000 in
  let z0 := e8 * int 1000 in let vZ := e9 * int 1000 in let aZ := e10 * int 1000 in
  if o_eqb o dt (int 0) then Ok (x0, y0, z0) else geo_move dt x0 vX aX y0 vY aY z0 vZ aZ.

End Sat.
