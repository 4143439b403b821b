(** Specification vocabulary: runs on a disk that refuses operations, and --save-coordinates that is stopped. *)
From Verif Require Import Base PyStr PyFloat PyDate PyPath PyRegex M_Common M_Header M_Obs2 M_Obs3 M_Label M_Rec M_Text M_Cfg M_Names M_Xyz M_Nav M_NmUtils M_Num M_Tec M_Sat M_Main M_Run M_Disk M_Fault S_Out S_Main S_Disk.
Open Scope nat_scope.

(** A run that starts with the files [f]; any operation on a result file may be refused by the system.  It ends with the files [f']
    and the exception [e] (None: it ends normally). *)
Definition faulty (w : world) (c : cfg) (f f' : fs) (e : option exn) : Prop :=
  exists d x, attempts (mkDisk f []) (operations w c) d x /\ d_files d = f' /\ e = match x with Some _ => x | None => snd (main_events w c) end.
(** ... and the refusal happens after [n] observation files were done, during the next one *)
Definition faulty_after (n : nat) (w : world) (c : cfg) (f f' : fs) : Prop :=
  exists pre name ev post d d', fst (main_events w c) = pre ++ (name, ev) :: post /\ length pre = n /\
    attempts (mkDisk f []) (concat (map snd pre)) d None /\ attempts d ev d' (Some OSError) /\ d_files d' = f'.
(** A run with --save-coordinates is stopped from outside at any moment ... *)
Definition save_killed (w : world) (c : cfg) (f f' : fs) : Prop :=
  exists did rest d, fst (save_events w c) = did ++ rest /\ moves (mkDisk f []) did d /\ d_files d = f'.
(** ... comes to its end, or to the exception that stops it, and the buffer is written out ... *)
Definition save_exits (w : world) (c : cfg) (f f' : fs) (e : option exn) : Prop :=
  exists d, moves (mkDisk f []) (fst (save_events w c)) d /\ (forall p b, dict_get seqb p (d_open d) = Some b -> b = []) /\ d_files d = f' /\ e = snd (save_events w c).
(** ... or the system refuses an operation. *)
Definition save_faulty (w : world) (c : cfg) (f f' : fs) (e : option exn) : Prop :=
  exists d x, attempts (mkDisk f []) (fst (save_events w c)) d x /\ d_files d = f' /\ e = match x with Some _ => x | None => snd (save_events w c) end.
