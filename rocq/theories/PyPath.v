(** os.path (POSIX), strftime('%Y'), strftime('%j'), and a file system as a map from paths to contents.
    This file models the Python runtime, not code of the repository. *)
From Verif Require Import Base PyStr PyDate.
Open Scope nat_scope.

Definition slash : ascii := "/"%char.
(** os.path.basename: what follows the last '/' *)
Fixpoint basename_acc (cur : str) (p : str) : str :=
  match p with
  | [] => rev cur
  | c :: r => if ceqb c slash then basename_acc [] r else basename_acc (c :: cur) r
  end.
Definition basename (p : str) : str := basename_acc [] p.
(** os.path.join(a, b) *)
Definition ends_slash (a : str) : bool := match rev a with c :: _ => ceqb c slash | [] => false end.
Definition path_join (a b : str) : str :=
  match b with
  | c :: _ => if ceqb c slash then b
              else match a with [] => b | _ => if ends_slash a then a ++ b else a ++ slash :: b end
  | [] => match a with [] => [] | _ => if ends_slash a then a else a ++ [slash] end
  end.

(** strftime('%Y') (no padding on Linux) and strftime('%j') *)
Definition strf_Y (t : datetime) : str := z_str (dy t).
Definition strf_j (t : datetime) : str := fmt_0d 3 (day_of_year (dy t) (dmo t) (dd t)).

(** Files; open(p, 'wt') truncates; writes are immediate (buffers are flushed by close()). *)
Definition fs := list (str * str).
Definition fs_get (p : str) (f : fs) : option str := dict_get seqb p f.
Definition fs_truncate (p : str) (f : fs) : fs := dict_set seqb p [] f.
Definition fs_append (p s : str) (f : fs) : fs :=
  match fs_get p f with Some c => dict_set seqb p (c ++ s) f | None => dict_set seqb p s f end.
