(** Specification of the header lines an observation reader uses. *)
From Verif Require Import Base PyStr PyFloat PyDate S_Text S_Time M_Header S_Obs2.
Open Scope nat_scope.

(** What a header line states: format version (sign-free decimal m / 10^k) with file type and satellite
    system; time of first observation; position; interval in milliseconds; anything else. *)
Inductive hitem :=
| IVersion (m : Z) (k : nat) (ftype sys : ascii)
| ITime (ep : datetime) (tsys : str)
| IPosition (d : dec_position)
| IInterval (ms : Z)
| IOther.

Inductive header_line (v : ver) : str -> hitem -> Prop :=
| hl_version (w1 ip fp w2 a c : str) ft sys w :
    blanks w1 -> digits ip -> digits fp -> ip ++ fp <> [] -> blanks w2 ->
    List.length (w1 ++ ip ++ "."%char :: fp ++ w2) = 9 ->
    List.length a = 11 -> List.length c = 19 -> white w ->
    forall c2, List.length c2 = 19 ->
    header_line v ((w1 ++ ip ++ "."%char :: fp ++ w2) ++ a ++ [ft] ++ c ++ [sys] ++ c2 ++ lit "RINEX VERSION / TYPE" ++ w)
      (IVersion (dec_value (ip ++ fp)) (List.length fp) ft sys)
| hl_time (ty tmo td th tmi tsec gap ts c w : str) y mo d h mi k7 ep :
    int_field 6 ty y -> int_field 6 tmo mo -> int_field 6 td d -> int_field 6 th h -> int_field 6 tmi mi ->
    fix_field 13 7 tsec false k7 -> List.length gap = 5 -> blanks gap -> List.length ts = 3 -> List.length c = 9 -> white w ->
    epoch_in_range y mo d h mi (k7 / 10000000) (k7 mod 10000000 / 10) ->
    valid_datetime ep -> instant ep = epoch_value y mo d h mi (k7 / 10000000) (k7 mod 10000000 / 10) ->
    header_line v (ty ++ tmo ++ td ++ th ++ tmi ++ tsec ++ gap ++ ts ++ c ++ lit "TIME OF FIRST OBS" ++ w) (ITime ep ts)
| hl_position line d : event_line line (Some d) -> header_line v line (IPosition d)
| hl_interval20 (ti c w : str) n : v = V20 -> int_field 6 ti n -> List.length c = 54 -> white w ->
    header_line v (ti ++ c ++ lit "INTERVAL" ++ w) (IInterval (n * 1000))
| hl_interval (ti c w : str) ms : v <> V20 -> fix_field 10 3 ti false ms -> List.length c = 50 -> white w ->
    header_line v (ti ++ c ++ lit "INTERVAL" ++ w) (IInterval ms)
| hl_other line : (forall lab, In lab known_labels -> ~ has_label lab line) -> header_line v line IOther.

(** the first item of a kind *)
Fixpoint first_of {A} (f : hitem -> option A) (items : list hitem) : option A :=
  match items with
  | [] => None
  | i :: r => match f i with Some a => Some a | None => first_of f r end
  end.
Definition version_of (i : hitem) := match i with IVersion m k ft sys => Some (m, k, ft, sys) | _ => None end.
Definition time_of (i : hitem) := match i with ITime ep ts => Some (ep, ts) | _ => None end.
Definition position_of (i : hitem) := match i with IPosition d => Some d | _ => None end.
Definition interval_of (i : hitem) := match i with IInterval ms => Some ms | _ => None end.

(** The values of the header object: those of the first line of each kind.  A blank satellite system is GPS
    in version 2, a blank time system is GPS; version 2.0 has whole seconds (I6). *)
Definition start_values (v : ver) (items : list hitem) (h : hdr) : Prop :=
  match first_of version_of items, h_ver h with
  | Some (m, k, ft, sys), Some (f, ft', sys') => nearest64 f (dec_real false m k) /\ ft' = ft /\
      sys' = if match v with V20 | V21 | V211 => Ascii.eqb sys " " | _ => false end then "G"%char else sys
  | None, None => True
  | _, _ => False
  end /\
  h_tofo h = option_map (fun p => (fst p, if seqb (snd p) (lit "   ") then lit "GPS" else snd p)) (first_of time_of items) /\
  match first_of position_of items with
  | Some d => near_position (h_xyz h) d
  | None => h_xyz h = (fzero, fzero, fzero)
  end.
Definition interval_value (v : ver) (items : list hitem) (h : hdr) : Prop :=
  match first_of interval_of items, h_interval h with
  | Some ms, Some (PFloat f) => v <> V20 /\ nearest64 f (dec_real false ms 3)
  | Some ms, Some (PInt n) => v = V20 /\ ms = (n * 1000)%Z
  | None, None => True
  | _, _ => False
  end.
Definition header_values (v : ver) (items : list hitem) (h : hdr) : Prop := start_values v items h /\ interval_value v items h.
