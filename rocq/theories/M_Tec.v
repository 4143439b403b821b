(** Model of tecs/gtb/tec.py and of the TEC values computed in tecs/__main__.py:498-592. *)
From Verif Require Import Base PyStr M_Num M_Label.
Open Scope nat_scope.

Section Tec.
Context {T : Type} (o : ops T).
Local Notation "x + y" := (o_add o x y).
Local Notation "x - y" := (o_sub o x y).
Local Notation "x * y" := (o_mul o x y).

(** tec.py:38 *)
Definition light : T := o_int o 299792458.
(** 40.308 *)
Definition k40 : T := o_lit o 40308 (-3).
Definition tecu : T := o_lit o 1 (-16).
(** tec.py:53-68 tec_factor *)
Definition tec_factor (f1 f2 : T) : res T :=
  do a <- o_div o (o_int o 1) k40;
  do s1 <- o_pow o f1 2; do s2 <- o_pow o f2 2;
  do s3 <- o_pow o f1 2; do s4 <- o_pow o f2 2;
  do q <- o_div o (a * (s1 * s2)) (s3 - s4);
  Ok (q * tecu).

(** bool() of a number or None *)
Definition truth (x : option T) : bool := match x with Some v => o_truth o v | None => false end.

(** tec.py:107-137 compute_via_p, undecorated *)
Definition via_p (p1 p2 f1 f2 : option T) : res (option T) :=
  if negb (truth f1) then Ok None
  else if negb (truth f2) then Ok None
  else match p1, p2, f1, f2 with
       | Some p1', Some p2', Some f1', Some f2' =>
         if truth p1 && truth p2 then
           do k <- tec_factor f1' f2';
           Ok (Some (k * (p2' - p1')))
         else Ok None
       | _, _, _, _ => Ok None
       end.

(** tec.py:140-172 compute_via_l, undecorated *)
Definition via_l (l1 l2 f1 f2 : option T) (l0 : T) : res (option T) :=
  if negb (truth f1) then Ok None
  else if negb (truth f2) then Ok None
  else match l1, l2, f1, f2 with
       | Some l1', Some l2', Some f1', Some f2' =>
         if truth l1 && truth l2 then
           do k <- tec_factor f1' f2';
           do w1 <- o_div o light f1';
           do w2 <- o_div o light f2';
           Ok (Some (k * (w1 * l1' - w2 * l2') - l0))
         else Ok None
       | _, _, _, _ => Ok None
       end.

(** tec.py:175-202 compute_via_l1_c1, undecorated *)
Definition via_l1_c1 (l1 c1 f1 : option T) : res (option T) :=
  if negb (truth f1) then Ok None
  else match l1, c1, f1 with
       | Some l1', Some c1', Some f1' =>
         if truth c1 && truth l1 && truth f1 then
           do s <- o_pow o f1' 2;
           do a <- o_div o (o_lit o 5 (-1) * s) k40;
           do w <- o_div o (l1' * light) f1';
           Ok (Some (a * (c1' - w) * tecu))
         else Ok None
       | _, _, _ => Ok None
       end.
End Tec.

(** label.py:33-86 R_TEC_ALL *)
Definition tec_all : list str := map lit
  ["tec.l1l2"; "tec.l1l5"; "tec.l2l5"; "tec.p1p2"; "tec.c1p2"; "tec.c1c2"; "tec.c1c5"; "tec.c2c5"; "tec.l1c1"; "tec.l2c2"; "tec.l8c8";
   "tec.l2l6"; "tec.l2l7"; "tec.l6l7"; "tec.c2c6"; "tec.c2c7"; "tec.c6c7"]%string.
(** tec.py:46-50 *)
Definition tec_p : list str := map lit
  ["tec.p1p2"; "tec.c1p2"; "tec.c1c5"; "tec.c1c2"; "tec.c2c5"; "tec.c2c6"; "tec.c2c7"; "tec.c6c7"]%string.
Definition tec_l : list str := map lit ["tec.l1l2"; "tec.l1l5"; "tec.l2l5"; "tec.l2l6"; "tec.l2l7"; "tec.l6l7"]%string.
(** tec.py:43 TEC2CALC *)
Definition tec2calc (fields : list str) : list str := filter (fun f => existsb (seqb f) tec_all) fields.
Definition requested (fields names : list str) : bool := existsb (fun t => existsb (seqb t) (tec2calc fields)) names.
(** tec.py:76-104 the decorators; outFileModeText is always True (config.py:162-168) *)
Definition on_demand_p (fields : list str) : bool := requested fields tec_p.
Definition on_demand_l (fields : list str) : bool := requested fields tec_l.
Definition on_demand_l1_c1 (fields : list str) : bool := requested fields (map lit ["tec.l1c1"; "tec.l2c2"]%string).

(** frequencies of a record, __main__.py:455-500 *)
Record freqs (T : Type) := mkFreqs { fr1 : option T; fr2 : option T; fr5 : option T; fr6 : option T; fr7 : option T; fr8 : option T }.
Arguments fr1 {T}. Arguments fr2 {T}. Arguments fr5 {T}. Arguments fr6 {T}. Arguments fr7 {T}. Arguments fr8 {T}.
Arguments mkFreqs {T}.

Section Values.
Context {T : Type} (o : ops T).
Definition mega : T := o_lit o 1 6.
Definition mhz (m e : Z) : T := o_mul o (o_lit o m e) mega.
(** sat/gps.py:36-38 *)
Definition gps_f1 : T := mhz 157542 (-2).
Definition gps_f2 : T := mhz 122760 (-2).
Definition gps_f5 : T := mhz 117645 (-2).
(** sat/geo.py:29-30 *)
Definition geo_f1 : T := mhz 157542 (-2).
Definition geo_f5 : T := mhz 117645 (-2).
(** sat/glonass.py:34-41 *)
Definition glo_f1 (k : T) : T := o_add o (o_mul o (o_lit o 1602 (-3)) (o_lit o 1 9)) (o_mul o (o_mul o k (o_lit o 5625 (-1))) (o_lit o 1 3)).
Definition glo_f2 (k : T) : T := o_add o (o_mul o (o_lit o 1246 (-3)) (o_lit o 1 9)) (o_mul o (o_mul o k (o_lit o 4375 (-1))) (o_lit o 1 3)).
(** __main__.py:455-500; [glo] is the entry of glo_freq *)
Definition system_freqs (system : ascii) (glo : T * T) : freqs T :=
  match system with
  | "R"%char => mkFreqs (Some (fst glo)) (Some (snd glo)) None None None None
  | "G"%char => mkFreqs (Some gps_f1) (Some gps_f2) (Some gps_f5) None None None
  | "S"%char => mkFreqs (Some geo_f1) None (Some geo_f5) None None None
  | "C"%char => mkFreqs None (Some (mhz 1561098 (-3))) None (Some (mhz 126852 (-2))) (Some (mhz 120714 (-2))) None
  | "E"%char => mkFreqs (Some (mhz 157542 (-2))) None (Some (mhz 117645 (-2))) (Some (mhz 127875 (-2))) (Some (mhz 120714 (-2))) (Some (mhz 1191795 (-3)))
  | _ => mkFreqs None None None None None None
  end.

(** __main__.py:505-592: the value of a TEC column; [fields] is recFields, [ds] gives the observables.
    The calls are pure, so each column is given on its own; an exception of any of them would stop the
    program. *)
Definition tec_column (fields : list str) (ds : oclass -> option T) (f : freqs T) (name : str) : res (option T) :=
  let p a b fa fb := if on_demand_p fields then via_p o (ds a) (ds b) fa fb else Ok None in
  let l a b fa fb := if on_demand_l fields then via_l o (ds a) (ds b) fa fb (o_int o 0) else Ok None in
  let c a b fa := if on_demand_l1_c1 fields then via_l1_c1 o (ds a) (ds b) fa else Ok None in
  if seqb name (lit "l1l2") then l cL1 cL2 (fr1 f) (fr2 f)
  else if seqb name (lit "l1l5") then l cL1 cL5 (fr1 f) (fr5 f)
  else if seqb name (lit "l2l5") then l cL2 cL5 (fr2 f) (fr5 f)
  else if seqb name (lit "l2l6") then l cL2 cL6 (fr2 f) (fr6 f)
  else if seqb name (lit "l2l7") then l cL2 cL7 (fr2 f) (fr7 f)
  else if seqb name (lit "l6l7") then l cL6 cL7 (fr6 f) (fr7 f)
  else if seqb name (lit "p1p2") then p cP1 cP2 (fr1 f) (fr2 f)
  else if seqb name (lit "c1p2") then p cC1 cP2 (fr1 f) (fr2 f)
  else if seqb name (lit "l1c1") then c cL1 cC1 (fr1 f)
  else if seqb name (lit "l2c2") then c cL2 cC2 (fr2 f)
  else if seqb name (lit "l8c8") then c cL8 cC8 (fr8 f)
  else if seqb name (lit "c1c5") then p cC1 cC5 (fr1 f) (fr5 f)
  else if seqb name (lit "c1c2") then p cC1 cC2 (fr1 f) (fr2 f)
  else if seqb name (lit "c2c5") then p cC2 cC5 (fr2 f) (fr5 f)
  else if seqb name (lit "c2c6") then p cC2 cC6 (fr2 f) (fr6 f)
  else if seqb name (lit "c2c7") then p cC2 cC7 (fr2 f) (fr7 f)
  else if seqb name (lit "c6c7") then p cC6 cC7 (fr6 f) (fr7 f)
  else Ok None.
(** the columns of data_chunk *)
Definition tec_names : list str := map lit
  ["l1l2"; "l1l5"; "l2l5"; "l2l6"; "l2l7"; "l6l7"; "p1p2"; "c1p2"; "l1c1"; "l2c2"; "l8c8"; "c1c5"; "c1c2"; "c2c5"; "c2c6"; "c2c7"; "c6c7"]%string.
Definition tec_columns (fields : list str) (ds : oclass -> option T) (f : freqs T) : res (list (str * option T)) :=
  mapM (fun n => do v <- tec_column fields ds f n; Ok (n, v)) tec_names.
End Values.
