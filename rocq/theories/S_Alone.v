(** Specification of runs over other sets of observation files. *)
From Verif Require Import Base PyStr PyFloat PyDate PyPath PyRegex M_Common M_Header M_Obs2 M_Names M_Xyz M_Nav M_Text M_Cfg M_Main S_Text S_Names S_Main S_Run.
Open Scope nat_scope.

(** The directories as listed by [ls] have the same navigation files, and a file of coordinates if and only if those of [w] have. *)
Definition same_aids (w : world) (c : cfg) (ls : str -> list str) : Prop :=
  (forall t sys, find_nav_files ls (c_navdir c) t sys = find_nav_files (w_ls w) (c_navdir c) t sys) /\
  (find_files ls (c_obsdir c) RE_XYZ = [] <-> find_files (w_ls w) (c_obsdir c) RE_XYZ = []).
(** no record of the observation files has an ephemeris whose position cannot be computed *)
Definition computable_files (w : world) (c : cfg) : Prop :=
  forall name b s t sys n, In name (find_files (w_ls w) (c_obsdir c) RE_OBS) -> open_obs w name = Ok b -> In s (b_steps b) -> identifies s t sys n ->
    In sys systems -> ~ incomputable w c t sys n.

(** ** Other files in the directories *)
(** an extension of RINEX files: two digits and the letter of a type, or rnx or crx; letter case does not matter *)
Definition rinex_ext (x : str) : Prop :=
  same_ci x (lit "rnx") \/ same_ci x (lit "crx") \/
  exists a b t, x = [a; b; t] /\ digit a /\ digit b /\ In (lower_c t) (lit "odnghlp").
(** a name without such an extension, at its end or before other text *)
Definition no_rinex (name : str) : Prop := forall u x v, name = u ++ "."%char :: x ++ v -> ~ rinex_ext x.
(** the list [l'] is [l] with other names put in anywhere *)
Inductive with_others : list str -> list str -> Prop :=
| wo_nil : with_others [] []
| wo_keep name l l' : with_others l l' -> with_others (name :: l) (name :: l')
| wo_other name l l' : no_rinex name -> with_others l l' -> with_others l (name :: l').
