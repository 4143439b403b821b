(** Python's re module, for the patterns of the repository: all ways to match, in the order the
    backtracking matcher tries them.  Repetition without bound is only needed for single characters.
    This file models the Python runtime, not code of the repository. *)
From Verif Require Import Base PyStr.
Open Scope nat_scope.

Inductive re :=
| RChr (p : ascii -> bool)
| REps
| RCat (a b : re)
| RAlt (a b : re)
| RStar (p : ascii -> bool)      (* greedy *)
| RGroup (n : nat) (r : re)
| RBol                            (* ^ *)
| REol                            (* $ : at the end or before a final newline *).

(** position, remaining text, captured groups (the latest first) *)
Definition mstate := (nat * str * list (nat * str))%type.

(** RStar: longest first *)
Fixpoint star_ways (p : ascii -> bool) (pos : nat) (s : str) (g : list (nat * str)) : list mstate :=
  match s with
  | c :: r => if p c then star_ways p (S pos) r g ++ [(pos, s, g)] else [(pos, s, g)]
  | [] => [(pos, s, g)]
  end.
Definition newline_c : ascii := ascii_of_nat 10.
Fixpoint run (r : re) (m : mstate) : list mstate :=
  let '(pos, s, g) := m in
  match r with
  | RChr p => match s with c :: t => if p c then [(S pos, t, g)] else [] | [] => [] end
  | REps => [m]
  | RCat a b => flat_map (run b) (run a m)
  | RAlt a b => run a m ++ run b m
  | RStar p => star_ways p pos s g
  | RGroup n a => map (fun m' => let '(pos', s', g') := m' in (pos', s', (n, firstn (pos' - pos) s) :: g')) (run a m)
  | RBol => if Nat.eqb pos 0 then [m] else []
  | REol => match s with [] => [m] | [c] => if ceqb c newline_c then [m] else [] | _ => [] end
  end.

(** pattern.match(s) *)
Definition re_match (r : re) (s : str) : option mstate := hd_error (run r (0, s, [])).
Definition re_test (r : re) (s : str) : bool := match re_match r s with Some _ => true | None => false end.
(** pattern.search(s): the first position at which it matches *)
Fixpoint re_search_from (r : re) (pos : nat) (s : str) : option mstate :=
  match hd_error (run r (pos, s, [])) with
  | Some m => Some m
  | None => match s with [] => None | _ :: t => re_search_from r (S pos) t end
  end.
Definition re_search (r : re) (s : str) : option mstate := re_search_from r 0 s.
(** match.group(n) *)
Definition group (n : nat) (m : mstate) : str :=
  let '(_, _, g) := m in match dict_get Nat.eqb n g with Some t => t | None => [] end.

(** x{n} *)
Fixpoint rep (n : nat) (r : re) : re := match n with O => REps | S k => RCat r (rep k r) end.
(** x? *)
Definition opt (r : re) : re := RAlt r REps.
Definition w_ : re := RChr is_word.
Definition d_ : re := RChr is_digit.
(** a character, letter case ignored (re.I) *)
Definition ci (c x : ascii) : bool := ceqb (lower_c x) (lower_c c).
Definition chr (c : ascii) : re := RChr (ci c).
(** a literal text, letter case ignored *)
Fixpoint text (s : str) : re := match s with [] => REps | c :: r => RCat (chr c) (text r) end.
(** one of the characters *)
Definition one_of (cs : str) : re := RChr (fun x => existsb (fun c => ci c x) cs).
Fixpoint cats (l : list re) : re := match l with [] => REps | [r] => r | r :: l' => RCat r (cats l') end.
Definition any : ascii -> bool := fun c => negb (ceqb c newline_c).
