(** Specification of navigation files: which text states which broadcast orbits.  Independent of the
    readers; columns are those of the RINEX 2 and RINEX 3 format descriptions. *)
From Coq Require Import Reals.
From Verif Require Import Base PyStr PyFloat PyDate S_Text S_Time S_Obs2 S_Names M_Common M_Header.
Open Scope nat_scope.

(** A broadcast-orbit field: blank, or (-1)^neg * m * 10^e. *)
Inductive nfield := NBlank | NNum (neg : bool) (m e : Z).
Definition nfield_real (f : nfield) : R :=
  match f with NBlank => 0%R | NNum neg m e => ((if neg then -1 else 1) * IZR m * powerRZ 10 e)%R end.

Definition sign_text (s : str) (neg : bool) : Prop := (s = [] /\ neg = false) \/ (s = ["+"%char] /\ neg = false) \/ (s = ["-"%char] /\ neg = true).
(** D19.12 and the like: nineteen columns, exponent letter D, d, E or e, exponent of at most two digits *)
Inductive nfield_text : str -> nfield -> Prop :=
| nt_blank s : List.length s = 19 -> blanks s -> nfield_text s NBlank
| nt_num (b ip fp es ed : str) (neg : bool) (c : ascii) (eneg : bool) :
    blanks b -> digits ip -> digits fp -> ip ++ fp <> [] -> In c (lit "DdEe") -> sign_text es eneg -> digits ed -> 1 <= List.length ed <= 2 ->
    List.length (b ++ (if neg then ["-"%char] else []) ++ ip ++ "."%char :: fp ++ c :: es ++ ed) = 19 ->
    nfield_text (b ++ (if neg then ["-"%char] else []) ++ ip ++ "."%char :: fp ++ c :: es ++ ed)
      (NNum neg (dec_value (ip ++ fp)) ((if eneg then - dec_value ed else dec_value ed) - Z.of_nat (List.length fp))).

(** One message as the file states it. *)
Record nmessage := mkNM { nm_sys : ascii; nm_num : Z; nm_epoch : datetime; nm_orbits : list (list nfield) }.

(** Number of values on each orbit line: seven lines for GPS and the systems like it, three for
    GLONASS and SBAS. *)
Definition orbit_counts (sys : ascii) : list nat :=
  if Ascii.eqb sys "R" || Ascii.eqb sys "S" then [4; 4; 4] else [4; 4; 4; 4; 4; 4; 2].
(** Satellite systems a navigation file of this version can have (version 2: by the type of the file). *)
Definition nav_systems (v : ver) : str :=
  match v with V20 => lit "GR" | V21 | V211 => lit "GRS" | _ => lit "GRESCJI" end.
Definition nav_file_type (sys : ascii) : ascii :=
  if Ascii.eqb sys "G" then "N"%char else if Ascii.eqb sys "R" then "G"%char else "H"%char.

(** three clock values, nothing of which is kept *)
Definition clock_text (s : str) : Prop :=
  exists t1 t2 t3 n1 m1 e1 n2 m2 e2 n3 m3 e3, s = t1 ++ t2 ++ t3 /\
    nfield_text t1 (NNum n1 m1 e1) /\ nfield_text t2 (NNum n2 m2 e2) /\ nfield_text t3 (NNum n3 m3 e3).

(** The epoch line of a RINEX 2 file: I2, 5(1X,I2), F5.1, 3D19.12; whatever follows is ignored.
    [k] is the seconds field in tenths of a second. *)
Inductive nav_epoch2 : Z -> datetime -> str -> Prop :=
| ne2 (tn ty tmo td th tmi tsec clk rest : str) (num y mo d h mi k : Z) ep :
    int_field 2 tn num -> int_field 3 ty y -> int_field 3 tmo mo -> int_field 3 td d -> int_field 3 th h -> int_field 3 tmi mi ->
    fix_field 5 1 tsec false k -> clock_text clk -> (y < 100)%Z ->
    epoch_in_range y mo d h mi (k / 10) (k mod 10 * 100000) -> valid_datetime ep ->
    instant ep = epoch_value y mo d h mi (k / 10) (k mod 10 * 100000) ->
    nav_epoch2 num ep (tn ++ ty ++ tmo ++ td ++ th ++ tmi ++ tsec ++ clk ++ rest).
(** The epoch line of a RINEX 3 file: A1, I2.2, 1X, I4, 5(1X,I2.2), 3D19.12. *)
Inductive nav_epoch3 : ascii -> Z -> datetime -> str -> Prop :=
| ne3 sys (tn ty tmo td th tmi tsec clk rest : str) (num : Z) ep :
    int_field 2 tn num -> int_field 4 ty (dy ep) -> int_field 2 tmo (dmo ep) -> int_field 3 td (dd ep) -> int_field 3 th (dh ep) ->
    int_field 3 tmi (dmi ep) -> int_field 3 tsec (ds ep) -> dus ep = 0%Z -> (100 <= dy ep)%Z -> valid_datetime ep -> clock_text clk ->
    nav_epoch3 sys num ep (sys :: tn ++ " "%char :: ty ++ " "%char :: tmo ++ td ++ th ++ tmi ++ tsec ++ clk ++ rest).

(** An orbit line: three (RINEX 2) or four (RINEX 3) blanks and the fields; trailing blanks may be
    missing, what follows the fields is ignored. *)
Definition orbit_line (v : ver) (n : nat) (fs : list nfield) (line : str) : Prop :=
  exists texts rest, List.length fs = n /\ Forall2 nfield_text texts fs /\ line <> [] /\
    same_line (spaces (if ver_lt3 v then 3 else 4) ++ concat texts ++ rest) line.

(** The lines of one message of a file of type [ft]. *)
Definition message_lines (v : ver) (ft : ascii) (m : nmessage) (lines : list str) : Prop :=
  In (nm_sys m) (nav_systems v) /\
  exists first more, lines = first :: more /\
    (if ver_lt3 v then ft = nav_file_type (nm_sys m) /\ nav_epoch2 (nm_num m) (nm_epoch m) first
     else nav_epoch3 (nm_sys m) (nm_num m) (nm_epoch m) first) /\
    exists counted, Forall2 (fun nf line => orbit_line v (fst nf) (snd nf) line) counted more /\
      map fst counted = orbit_counts (nm_sys m) /\ map snd counted = nm_orbits m.

(** The text of a whole navigation file: a version line (F9.2, 11X, A1, then anything, label in columns
    61-80), other header lines, the end of the header, the messages. *)
Definition nav_file_text (v : ver) (ms : list nmessage) (lines : list str) : Prop :=
  exists (ft : ascii) (w1 s w2 mid rest1 w : str) micro head endl parts,
    version_text s micro /\ dict_get Z.eqb micro nav_versions = Some v /\ white w1 /\ white w2 /\ white w /\
    List.length (w1 ++ s ++ w2) = 9 /\ List.length mid = 11 /\ List.length rest1 = 39 /\
    lines = ((w1 ++ s ++ w2 ++ mid ++ ft :: rest1 ++ lit "RINEX VERSION / TYPE" ++ w) :: head) ++ endl :: concat parts /\
    Forall (fun l => ~ has_label (lit "END OF HEADER") l) head /\ has_label (lit "END OF HEADER") endl /\
    Forall2 (message_lines v ft) ms parts.

(** The last message of the given satellite and time of day among those of the given date. *)
Fixpoint last_message (day : date) (sys : ascii) (num : Z) (t : tod) (ms : list nmessage) : option nmessage :=
  match ms with
  | [] => None
  | m :: r =>
    match last_message day sys num t r with
    | Some x => Some x
    | None => if Ascii.eqb (nm_sys m) sys && (nm_num m =? num)%Z && tod_eqb (dt_time (nm_epoch m)) t && date_eqb (dt_date (nm_epoch m)) day
              then Some m else None
    end
  end.

(** What is stored under message[sys][num][t]. *)
Definition stored (m : list (ascii * list (Z * list (tod * list float)))) (sys : ascii) (num : Z) (t : tod) : option (list float) :=
  match dict_get Ascii.eqb sys m with
  | Some d => match dict_get Z.eqb num d with Some e => dict_get tod_eqb t e | None => None end
  | None => None
  end.

(** What the columns of any epoch line say; [c] is the type letter of the file, if it has one.
    The six-field epochs of RINEX 3 are described for minutes up to 59. *)
Definition columns (line : str) (cols : list (nat * nat)) (ns : list Z) : Prop :=
  Forall2 (fun ij n => py_int (slice (fst ij) (snd ij) line) = Ok n) cols ns.
Definition epoch_says (v : ver) (c : option ascii) (line : str) (sys : ascii) (num : Z) (ep : datetime) : Prop :=
  In sys (nav_systems v) /\ valid_datetime ep /\
  if ver_lt3 v then
    c = Some (nav_file_type sys) /\
    exists y mo d h mi f s us, columns line [(0, 2); (2, 5); (5, 8); (8, 11); (11, 14); (14, 17)] [num; y; mo; d; h; mi] /\
      py_float (slice 17 22 line) = Ok f /\ sec2sec_ms f = Ok (s, us) /\ instant ep = epoch_value y mo d h mi s us
  else
    hd_error line = Some sys /\
    exists y mo d h mi s, columns line [(1, 3); (4, 9); (8, 11); (11, 14); (14, 17); (17, 20); (20, 23)] [num; y; mo; d; h; mi; s] /\
      ((mi < 60)%Z -> ep = mkDT (century y) mo d h mi s 0).
(** What column [i] of any orbit line says. *)
Definition exponent_e (s : str) : str := map (fun c => if Ascii.eqb c "D" || Ascii.eqb c "d" then "e"%char else lower_c c) s.
Definition orbit_says (v : ver) (line : str) (i : nat) (x : float) : Prop :=
  let t := slice ((if ver_lt3 v then 3 else 4) + 19 * i) ((if ver_lt3 v then 3 else 4) + 19 * i + 19) (rstrip line) in
  if forallb is_space t then x = fzero else exists f, py_float (exponent_e (rstrip t)) = Ok f /\ x = if ftruth f then f else fzero.
(** The numbers [vals] are what the lines say, [n] on the k-th line for the k-th [n] of [counts]. *)
Inductive orbits_say (v : ver) : list nat -> list str -> list float -> Prop :=
| os_nil : orbits_say v [] [] []
| os_cons n ns line lines a b : List.length a = n -> (forall i, i < n -> exists x, nth_error a i = Some x /\ orbit_says v line i x) ->
    orbits_say v ns lines b -> orbits_say v (n :: ns) (line :: lines) (a ++ b).
(** a line that starts an ephemeris, and one that goes on with it *)
Definition starts_blank (v : ver) (line : str) : Prop :=
  let t := firstn (if ver_lt3 v then 3 else 1) line in t <> [] /\ white t.
(** A message of the file's day that the next epoch line cuts short, after [k] of its lines. *)
Definition cut_short (v : ver) (filename_day : option date) (lines : list str) (k : nat) : Prop :=
  exists c pre l0 os l1 post sys num ep, lines = pre ++ l0 :: os ++ l1 :: post /\ ~ starts_blank v l0 /\ epoch_says v c l0 sys num ep /\
    filename_day = Some (dt_date ep) /\ Forall (starts_blank v) os /\ ~ starts_blank v l1 /\ List.length os = k /\ k < List.length (orbit_counts sys).
