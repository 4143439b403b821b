(** Specification of runs that differ in settings only. *)
From Verif Require Import Base PyStr PyFloat PyDate M_Common M_Header M_Rec M_Text M_Cfg M_Main S_Main.
Open Scope nat_scope.

(** the settings that say what to read: the directories with observation and navigation files, the preferred navigation files, the
    sampling interval *)
Definition same_inputs (c c' : cfg) : Prop :=
  c_obsdir c = c_obsdir c' /\ c_navdir c = c_navdir c' /\ c_gps c = c_gps c' /\ c_glo c = c_glo c' /\ c_geo c = c_geo c' /\ c_sampling c = c_sampling c'.
(** TEC column [n] is a column of the format; "tec.l8c8" only in the company of "tec.l1c1" or "tec.l2c2" *)
Definition wanted (c : cfg) (n : string) : Prop :=
  In (lit "tec." ++ lit n) (rf_fields (c_format c)) /\
  (n = "l8c8"%string -> In (lit "tec.l1c1") (rf_fields (c_format c)) \/ In (lit "tec.l2c2") (rf_fields (c_format c))).
(** the same position of the site, or rows of the same satellite and time with the same values, as far as TEC values are wanted *)
Inductive same_entry (c c' : cfg) : wop -> wop -> Prop :=
| se_pos t p l : same_entry c c' (WPos t p l) (WPos t p l)
| se_row sat sd nav t q q' : (forall x, (forall n, x = QTec n -> wanted c n /\ wanted c' n) -> q x = q' x) ->
    same_entry c c' (WRow sat sd nav t q) (WRow sat sd nav t q').
Definition same_entries (c c' : cfg) (a b : str * list wop) : Prop := fst a = fst b /\ Forall2 (same_entry c c') (snd a) (snd b).
(** a row of a satellite without position *)
Definition row_of_zeros (op : wop) : Prop :=
  exists sat sd nav t q, op = WRow sat sd nav t q /\ shows_sat q (fzero, fzero, fzero) fzero fzero.
(** [ops'] is [ops] with rows of zeros put in *)
Inductive with_zeros (c c' : cfg) : list wop -> list wop -> Prop :=
| wz_nil : with_zeros c c' [] []
| wz_keep a b ops ops' : same_entry c c' a b -> with_zeros c c' ops ops' -> with_zeros c c' (a :: ops) (b :: ops')
| wz_zeros b ops ops' : row_of_zeros b -> with_zeros c c' ops ops' -> with_zeros c c' ops (b :: ops').
Definition zeros_more (c c' : cfg) (a b : str * list wop) : Prop := fst a = fst b /\ with_zeros c c' (snd a) (snd b).
