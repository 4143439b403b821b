(** Specification of runs over observation files of which the end is missing. *)
From Verif Require Import Base PyStr PyFloat PyDate M_Common M_Header M_Obs2 M_Names M_Text M_Cfg M_Main S_Text S_Names S_Main S_Systems.
Open Scope nat_scope.

(** The observation file [b'] is the beginning of [b]: what is announced at its beginning is the same, its records are the first of
    [b], and reading it ends at its end or at a broken record there. *)
Definition beginning_of (b b' : obs) : Prop :=
  b_name b' = b_name b /\ b_date b' = b_date b /\ b_hdr b' = b_hdr b /\ (b_end b' = GStop \/ b_end b' = GRaise RinexError) /\
  exists missing, b_steps b = b_steps b' ++ missing.
(** The contents are beginnings of those of [w], or so short that the file cannot be opened. *)
Definition cut_contents (w : world) (c : cfg) (o : str -> res (list str)) : Prop :=
  forall name, In name (find_files (w_ls w) (c_obsdir c) RE_OBS) ->
    match open_obs w name, open_obs (with_contents w o) name with
    | Ok b, Ok b' => beginning_of b b'
    | Ok b, Err e => e = RinexError
    | Err e, Err e' => e' = e
    | _, _ => False
    end.
(** for the same observation file, what is written for [b] is the beginning of what is written for [a] *)
Definition writes_less (a b : str * list wop) : Prop := fst b = fst a /\ exists missing, snd a = snd b ++ missing.
(** ** Texts *)
(** how often the time changes from one record to the next *)
Fixpoint changes (l : list Z) : nat :=
  match l with
  | a :: ((b :: _) as r) => (if (a =? b)%Z then 0 else 1) + changes r
  | _ => 0
  end.
(** The records after the header of a RINEX 2 text, as the reader delivers them, have eleven different times in succession. *)
Definition eleven_times (v : ver) (lines : list str) : Prop :=
  forall types h, set_obs_num_types (fst (split_header is_end_regex lines)) = Ok types -> parse_header v (fst (split_header is_end_regex lines)) hdr0 = Ok h ->
    10 <= changes (map (fun y => dt_us (fst (fst (fst y)))) (fst (fst (run_records v types (snd (split_header is_end_regex lines)) (mkObj2 None h))))).
