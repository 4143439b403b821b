(** Specification of RINEX file names, file dates, versions and decompression, written as
    decompositions of the name. *)
From Coq Require Import Reals.
From Verif Require Import Base PyStr PyFloat PyDate S_Text S_Time M_Header M_Names.
Open Scope nat_scope.

(** letters, digits and '_' *)
Definition word (s : str) : Prop := Forall (fun c => is_word c = true) s.
(** equal up to letter case *)
Definition same_ci (a b : str) : Prop := lower a = lower b.
Definition chars (n : nat) (s : str) : Prop := List.length s = n.

(** the 'h' or 'hmm' part of a classic observation name *)
Definition session (s : str) : Prop :=
  (chars 1 s /\ word s) \/
  (exists h mm, s = h :: mm /\ In (lower_c h) (lit "abcdefghijklmnopqrstuvwx") /\ In mm [lit "00"; lit "15"; lit "30"; lit "45"]).
(** base of the name of an observation file; [hat] for a compact (Hatanaka) one *)
Inductive obs_base : str -> bool -> Prop :=
| ob_classic site ddd h yy t hat :
    chars 4 site -> word site -> chars 3 ddd -> digits ddd -> session h -> chars 2 yy -> digits yy ->
    lower_c t = (if hat : bool then "d"%char else "o"%char) ->
    obs_base (site ++ ddd ++ h ++ lit "." ++ yy ++ [t]) hat
| ob_modern site src start period freq sys o ext hat :
    chars 9 site -> word site -> In (lower_c src) (lit "rsu") -> chars 11 start -> digits start ->
    chars 3 period -> word period -> chars 3 freq -> word freq -> is_word sys = true -> lower_c o = "o"%char ->
    same_ci ext (if hat : bool then lit "crx" else lit "rnx") ->
    obs_base (site ++ lit "_" ++ [src] ++ lit "_" ++ start ++ lit "_" ++ period ++ lit "_" ++ freq ++ lit "_" ++ [sys] ++ [o] ++ lit "." ++ ext) hat.
(** archive extension *)
Definition arch (ext : str) (packed : bool) : Prop :=
  if packed then same_ci ext (lit ".z") \/ same_ci ext (lit ".gz") else ext = [].
(** the path of a file with that name, in directory [dir] or in the current one *)
Definition path_of (dir name path : str) : Prop := path = name \/ path = dir ++ "/"%char :: name.
(** what has to be done with the file *)
Definition plan_for (hat packed : bool) : plan :=
  match hat, packed with
  | false, false => Plain | false, true => Gunzip | true, false => Crx | true, true => GunzipCrx
  end.
(** no directory on the way is named with a RINEX extension *)
Definition clean_dir (dir : str) : Prop :=
  forall u x v, dir = u ++ "."%char :: x ++ v ->
    ~ same_ci x (lit "crx") /\ ~ same_ci x (lit "rnx") /\
    (forall a b c, x = [a; b; c] -> digit a -> digit b -> lower_c c <> "o"%char /\ lower_c c <> "d"%char).

(** classic and modern names with their year and day fields *)
Definition classic_name (name yy ddd : str) : Prop :=
  exists site h t rest, name = site ++ ddd ++ h ++ lit "." ++ yy ++ [t] ++ rest /\
    chars 4 site /\ word site /\ chars 3 ddd /\ digits ddd /\ 1 <= List.length h <= 3 /\ word h /\ chars 2 yy /\ digits yy /\
    In (lower_c t) (lit "odnmglphbc").
Definition modern_name (name yyyy ddd : str) : Prop :=
  exists site src hhmm rest, name = site ++ lit "_" ++ [src] ++ lit "_" ++ yyyy ++ ddd ++ hhmm ++ rest /\
    chars 9 site /\ word site /\ In (lower_c src) (lit "rsu") /\ chars 4 yyyy /\ digits yyyy /\ chars 3 ddd /\ digits ddd /\
    chars 4 hhmm /\ digits hhmm.
(** [d] is day number n of year y *)
Definition is_day (y n : Z) (d : date) : Prop :=
  let '(y', m, dd) := d in
  y' = y /\ valid_date y' m dd /\ n = (months_len y (Z.to_nat (m - 1)) + dd)%Z.
(** the century of a two-digit year in a file name *)
Definition name_century (yy : Z) : Z := if (yy <? 69)%Z then (2000 + yy)%Z else (1900 + yy)%Z.

(** navigation file names of a day (year y, day n) and of a type letter or system letter *)
Definition classic_nav_name (name : str) (y n : Z) (letter : ascii) : Prop :=
  exists site ddd h yy t rest, name = site ++ ddd ++ [h] ++ lit "." ++ yy ++ [t] ++ rest /\
    chars 4 site /\ word site /\ chars 3 ddd /\ digits ddd /\ dec_value ddd = n /\ is_word h = true /\
    chars 2 yy /\ digits yy /\ dec_value yy = (y mod 100)%Z /\ lower_c t = letter.
Definition modern_nav_name (name : str) (y n : Z) (system : ascii) : Prop :=
  exists site src yyyy ddd hhmm period freq sys nn ext rest,
    name = site ++ lit "_" ++ [src] ++ lit "_" ++ yyyy ++ ddd ++ hhmm ++ lit "_" ++ period ++ freq ++ lit "_" ++ [sys] ++ [nn] ++ lit "." ++ ext ++ rest /\
    chars 9 site /\ word site /\ is_word src = true /\ chars 4 yyyy /\ digits yyyy /\ dec_value yyyy = y /\
    chars 3 ddd /\ digits ddd /\ dec_value ddd = n /\ chars 4 hhmm /\ digits hhmm /\
    chars 3 period /\ word period /\ (freq = [] \/ exists f, freq = "_"%char :: f /\ chars 3 f /\ word f) /\
    lower_c sys = lower_c system /\ lower_c nn = "n"%char /\ same_ci ext (lit "rnx").
(** systems with navigation files and M for mixed files; epochs with a four-digit year *)
Definition supported_nav (system : ascii) : Prop := In system (lit "GRSECM").
Definition epoch_ok (t : datetime) : Prop := (1000 <= dy t <= 9999)%Z /\ valid_date (dy t) (dmo t) (dd t).
(** the type letter of classic navigation files: GPS n, GLONASS g, SBAS h, Galileo l, mixed p *)
Definition nav_letter (system letter : ascii) : Prop :=
  In (system, letter) [("G"%char, "n"%char); ("R"%char, "g"%char); ("S"%char, "h"%char); ("E"%char, "l"%char); ("M"%char, "p"%char)].

(** A version number ip or ip.fp (at most twenty digits and six decimals), in units of 10^-6 *)
Definition version_text (s : str) (micro : Z) : Prop :=
  exists ip fp, digits ip /\ digits fp /\ ip <> [] /\ List.length ip <= 20 /\ List.length fp <= 6 /\
    (s = ip /\ fp = [] \/ s = ip ++ "."%char :: fp) /\
    micro = (dec_value (ip ++ fp) * 10 ^ (6 - Z.of_nat (List.length fp)))%Z.
(** first line of an observation file: the version, anything, the label *)
Definition version_line (line s : str) : Prop :=
  exists w1 mid label w2, line = w1 ++ s ++ mid ++ label ++ w2 /\ white w1 /\ white w2 /\
    same_ci label (lit "RINEX VERSION / TYPE") /\ ~ In (ascii_of_nat 10) mid /\
    (forall c r, mid = c :: r -> ~ digit c /\ c <> "."%char).
Definition obs_versions : list (Z * ver) :=
  [(2000000, V20); (2100000, V21); (2110000, V211); (3000000, V300); (3010000, V301); (3020000, V302); (3030000, V303)]%Z.
Definition nav_versions : list (Z * ver) :=
  [(2000000, V20); (2010000, V20); (2100000, V21); (2110000, V211); (3000000, V300); (3010000, V301); (3020000, V302);
   (3030000, V303); (3040000, V303)]%Z.
