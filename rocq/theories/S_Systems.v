(** Specification of runs over observation files from which the records of some systems are taken out. *)
From Verif Require Import Base PyStr PyFloat PyDate PyPath PyRegex M_Common M_Header M_Obs2 M_Names M_Xyz M_Nav M_Text M_Cfg M_Main S_Text S_Names S_Main S_Run.
Open Scope nat_scope.

(** the records [steps'] are those of [steps] of the systems kept, in their order *)
Inductive without_systems (keep : ascii -> bool) : list step -> list step -> Prop :=
| ws_nil : without_systems keep [] []
| ws_keep s sys number r r' : s_sat s = sys :: number -> keep sys = true -> without_systems keep r r' -> without_systems keep (s :: r) (s :: r')
| ws_drop s sys number r r' : s_sat s = sys :: number -> keep sys = false -> without_systems keep r r' -> without_systems keep (s :: r) r'.
(** the observation file [b'] is [b] without the records of the other systems *)
Definition taken_out (keep : ascii -> bool) (b b' : obs) : Prop :=
  b_name b' = b_name b /\ b_date b' = b_date b /\ b_hdr b' = b_hdr b /\ b_end b' = b_end b /\ without_systems keep (b_steps b) (b_steps b').
(** the world with other contents of the observation files *)
Definition with_contents (w : world) (o : str -> res (list str)) : world :=
  mkWorld (w_libm w) (w_fuel w) (w_ls w) o (w_nav w) (w_crd w) (w_there w) (w_strftime w) (w_now w).
(** the contents are those of [w] but for the records of the other systems; what cannot be opened is the same *)
Definition contents_of (keep : ascii -> bool) (w : world) (c : cfg) (o : str -> res (list str)) : Prop :=
  forall name, In name (find_files (w_ls w) (c_obsdir c) RE_OBS) ->
    match open_obs w name, open_obs (with_contents w o) name with
    | Ok b, Ok b' => taken_out keep b b'
    | Err e, Err e' => e' = e
    | _, _ => False
    end.
(** no coordinate is -0.0 *)
Definition no_minus_zero (p : xyz) : Prop := let '(x, y, z) := p in forall v, In v [x; y; z] -> v <> S754_zero true.
(** none of the positions of a site, in observation files or files of coordinates *)
Definition plain_positions (w : world) (c : cfg) : Prop :=
  forall name b, In name (find_files (w_ls w) (c_obsdir c) RE_OBS) -> open_obs w name = Ok b ->
    no_minus_zero (h_xyz (b_hdr b)) /\ (forall s, In s (b_steps b) -> no_minus_zero (s_xyz s)) /\
    (forall xyzs t p, coordinates w c name xyzs -> entry xyzs t p -> no_minus_zero p).
(** no record is left out by sampling *)
Definition no_sampling (w : world) (c : cfg) : Prop :=
  forall name b, In name (find_files (w_ls w) (c_obsdir c) RE_OBS) -> open_obs w name = Ok b -> keeps_all c b.
(** the rows of the systems kept *)
Definition row_of_kept (keep : ascii -> bool) (op : wop) : bool :=
  match op with WRow (sys :: _) _ _ _ _ => keep sys | _ => false end.
(** for the same observation file, the rows of [b] are those rows of [a], in their order *)
Definition rows_kept (keep : ascii -> bool) (a b : str * list wop) : Prop :=
  fst b = fst a /\ rows_only (snd b) = filter (row_of_kept keep) (snd a).
