(** Specification of the TEC values: first-order ionospheric refraction. *)
From Coq Require Import Reals.
From Flocq Require Import Core BinarySingleNaN.
From Verif Require Import Base PyStr PyFloat M_Num M_Label M_Tec.
Open Scope R_scope.

(** The group delay, in metres, on frequency [f] (Hz) for a slant TEC of [s] TECU (1e16 electrons per square
    metre); the phase is advanced by the same amount. *)
Definition delay (s f : R) : R := 40.308 * (s * 10000000000000000) / (f * f).
Definition lambda (f : R) : R := 299792458 / f.
(** a missing or zero number *)
Definition missing (x : option R) : Prop := x = None \/ x = Some 0.
Definition missing_f (x : option float) : Prop := x = None \/ exists b, x = Some (S754_zero b).

(** ** what a TEC column is, from its name: observable and band of each operand *)
Open Scope nat_scope.
Inductive obs_kind := KCode | KPcode | KPhase.
Definition kind_of (c : ascii) : option obs_kind :=
  match c with "c"%char => Some KCode | "p"%char => Some KPcode | "l"%char => Some KPhase | _ => None end.
(** the class of the observables of a kind on a band *)
Definition band_class (k : obs_kind) (band : ascii) : option oclass :=
  match k, band with
  | KCode, "1"%char => Some cC1 | KCode, "2"%char => Some cC2 | KCode, "5"%char => Some cC5 | KCode, "6"%char => Some cC6
  | KCode, "7"%char => Some cC7 | KCode, "8"%char => Some cC8
  | KPcode, "1"%char => Some cP1 | KPcode, "2"%char => Some cP2
  | KPhase, "1"%char => Some cL1 | KPhase, "2"%char => Some cL2 | KPhase, "5"%char => Some cL5 | KPhase, "6"%char => Some cL6
  | KPhase, "7"%char => Some cL7 | KPhase, "8"%char => Some cL8
  | _, _ => None
  end.
Definition band_freq {T} (f : freqs T) (band : ascii) : option T :=
  match band with
  | "1"%char => fr1 f | "2"%char => fr2 f | "5"%char => fr5 f | "6"%char => fr6 f | "7"%char => fr7 f | "8"%char => fr8 f | _ => None
  end.
(** [value] is the TEC combination named by two kinds and bands *)
Inductive tec_named {T} (o : ops T) (ds : oclass -> option T) (f : freqs T) : str -> res (option T) -> Prop :=
| tn_code a x b y ka kb ca cb : kind_of a = Some ka -> kind_of b = Some kb -> ka <> KPhase -> kb <> KPhase ->
    band_class ka x = Some ca -> band_class kb y = Some cb ->
    tec_named o ds f [a; x; b; y] (via_p o (ds ca) (ds cb) (band_freq f x) (band_freq f y))
| tn_phase x y ca cb : band_class KPhase x = Some ca -> band_class KPhase y = Some cb ->
    tec_named o ds f ["l"; x; "l"; y]%char (via_l o (ds ca) (ds cb) (band_freq f x) (band_freq f y) (o_int o 0))
| tn_mixed x ca cb : band_class KPhase x = Some ca -> band_class KCode x = Some cb ->
    tec_named o ds f ["l"; x; "c"; x]%char (via_l1_c1 o (ds ca) (ds cb) (band_freq f x)).

(** ** carrier frequencies in Hz by system and RINEX band: base and step per GLONASS frequency number *)
Definition carriers : list (ascii * ascii * (Z * Z)) :=
  [("G", "1", (1575420000, 0)); ("G", "2", (1227600000, 0)); ("G", "5", (1176450000, 0));
   ("S", "1", (1575420000, 0)); ("S", "5", (1176450000, 0));
   ("E", "1", (1575420000, 0)); ("E", "5", (1176450000, 0)); ("E", "6", (1278750000, 0)); ("E", "7", (1207140000, 0)); ("E", "8", (1191795000, 0));
   ("C", "2", (1561098000, 0)); ("C", "6", (1268520000, 0)); ("C", "7", (1207140000, 0));
   ("R", "1", (1602000000, 562500)); ("R", "2", (1246000000, 437500))]%char%Z.

(** ** rounding *)
Open Scope R_scope.
(** a finite binary64 number and its value *)
Definition is_real (x : float) : Prop := valid_binary 53 1024 x = true /\ is_finite_SF x = true.
Definition real (x : float) : R := SF2R radix2 x.
(** x ** 2 of the C library is off by at most one unit in the last place *)
Definition square_accurate (m : libm) (f : float) : Prop :=
  is_real (l_pow m f 2) /\ Rabs (real (l_pow m f 2) - real f * real f) <= / 4503599627370496 * (real f * real f).
(** an L-band carrier frequency in Hz *)
Definition carrier (m : libm) (f : float) : Prop := is_real f /\ 1000000000 <= real f <= 2000000000 /\ square_accurate m f.
Definition apart (f1 f2 : float) : Prop := real f1 * real f1 + real f2 * real f2 <= 25 * Rabs (real f1 * real f1 - real f2 * real f2).
(** a pseudorange of 1 m to a million km *)
Definition pseudorange (p : float) : Prop := is_real p /\ 1 <= real p <= 1000000000.
(** a phase between 1/10000 and 10^12 cycles in absolute value *)
Definition phase (l : float) : Prop := is_real l /\ / 10000 <= Rabs (real l) <= 1000000000000.
(** the pairs of bands combined by the columns *)
Definition band_pairs : list (ascii * ascii) := [("1", "2"); ("1", "5"); ("2", "5"); ("2", "6"); ("2", "7"); ("6", "7")]%char.
Definition has_value (x : float) (n : Z) : Prop := is_real x /\ real x = IZR n.
