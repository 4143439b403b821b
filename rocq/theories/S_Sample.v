(** Specification of runs with and without a sampling interval. *)
From Verif Require Import Base PyStr PyFloat M_Common M_Header M_Obs2 M_Text M_Cfg M_Main S_Text S_Main.
Open Scope nat_scope.

(** the settings with this sampling interval *)
Definition with_sampling (c : cfg) (iv : option Z) : cfg :=
  mkCfg (c_level c) (c_format c) (c_obsdir c) (c_navdir c) (c_outdir c) (c_dtformat c) (c_gps c) (c_glo c) (c_geo c) (c_ignore c) (c_logfile c) iv.
(** the second list is the first with some entries left out *)
Inductive left_out {A : Type} : list A -> list A -> Prop :=
| lo_nil : left_out [] []
| lo_keep x l l' : left_out l l' -> left_out (x :: l) (x :: l')
| lo_drop x l l' : left_out l l' -> left_out (x :: l) l'.
(** for the same observation file, the rows of [b] are rows of [a], in their order *)
Definition rows_left_out (a b : str * list wop) : Prop := fst b = fst a /\ left_out (rows_only (snd a)) (rows_only (snd b)).
