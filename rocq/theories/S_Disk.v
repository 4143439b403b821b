(** Specification vocabulary: runs that are stopped. *)
From Verif Require Import Base PyStr PyFloat PyDate PyPath M_Common M_Header M_Rec M_Text M_Cfg M_Names M_Main M_Disk S_Out S_Main.
Open Scope nat_scope.

(** [x] is the beginning of [y] *)
Definition begins (x y : str) : Prop := exists z, y = x ++ z.
(** all operations of a run, in order *)
Definition operations (w : world) (c : cfg) : list event := concat (map snd (fst (main_events w c))).
(** A run that starts with the files [f] is stopped from outside after some of its operations, when some of the text is still in
    the buffers; the files then are [f']. *)
Definition killed (w : world) (c : cfg) (f f' : fs) : Prop :=
  exists did rest d, operations w c = did ++ rest /\ moves (mkDisk f []) did d /\ d_files d = f'.
(** ... and that happens after [n] observation files were done, during the next one *)
Definition killed_after (n : nat) (w : world) (c : cfg) (f f' : fs) : Prop :=
  exists pre name did rest post d, fst (main_events w c) = pre ++ (name, did ++ rest) :: post /\ length pre = n /\
    moves (mkDisk f []) (concat (map snd pre) ++ did) d /\ d_files d = f'.
(** A run comes to its end (or to the exception that stops it) and the buffers are written out, as they are when the interpreter
    exits. *)
Definition exits (w : world) (c : cfg) (f f' : fs) : Prop :=
  exists d, moves (mkDisk f []) (operations w c) d /\ (forall p b, dict_get seqb p (d_open d) = Some b -> b = []) /\ d_files d = f'.
(** none of the observation files [l] (with their rows) writes to the file of [sat] of the observation file [name]: another site or
    day, or no row of the satellite.  If the run is stopped by an exception [e], the last file may have opened a file without
    writing a row, so rows do not count then. *)
Definition apart (e : option exn) (name sat : str) (l : list (str * list wop)) : Prop :=
  forall name' ops', In (name', ops') l -> rows_of sat ops' <> [] \/ e <> None -> marker_of name' <> marker_of name \/ get_rinex_date name' <> get_rinex_date name.
