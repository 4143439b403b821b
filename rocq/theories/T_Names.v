(** Properties of file names, file dates, versions, decompression and the coordinates file. *)
From Coq Require Import Reals.
From Verif Require Import Base PyStr PyFloat PyDate PyPath PyRegex S_Text S_Time M_Common M_Header M_Names S_Names M_Xyz S_Xyz.
From Verif Require Import P_Names P_Names2 P_Names3 P_Names4 P_Names5 P_Names6 P_Xyz.
Open Scope nat_scope.

(** C14: the epoch yy-m-d read from a file whose name has the same yy and the day of year of that
    epoch lies on the date of the file name, except for yy = 69..88. *)
Theorem C14_centuries_agree_partial path yy ddd m d h mi s us :
  classic_name (basename path) yy ddd ->
  ~ (69 <= dec_value yy <= 88)%Z ->
  let year := century (dec_value yy) in
  is_day year (dec_value ddd) (year, m, d) ->
  (0 <= h <= 23)%Z -> (0 <= mi <= 59)%Z -> (0 <= s <= 59)%Z -> (0 <= us <= 999999)%Z ->
  exists t, validate_epoch (dec_value yy) m d h mi s us = Ok t /\ get_rinex_date path = Some (dt_date t).
Proof. exact (centuries_agree path yy ddd m d h mi s us). Qed.
Print Assumptions C14_centuries_agree_partial.
(** the first of January 1980: the name says 1980, the epoch 2080 *)
Theorem C14_refuted : exists path yy ddd t, classic_name (basename path) yy ddd /\ dec_value yy = 80%Z /\ dec_value ddd = 1%Z /\
  validate_epoch 80 1 1 0 0 0 0 = Ok t /\ get_rinex_date path <> Some (dt_date t).
Proof. exact centuries_differ. Qed.
Print Assumptions C14_refuted.
Example C14_example : classic_name (basename (lit "/data/abcd0010.17o")) (lit "17") (lit "001") /\ is_day 2017 1 (2017, 1, 1)%Z.
Proof. exact C14_ex. Qed.

(** C16 *)
Theorem C16_classic path yy ddd : classic_name (basename path) yy ddd ->
  let year := name_century (dec_value yy) in
  (1 <= dec_value ddd <= year_len year)%Z ->
  exists d, get_rinex_date path = Some d /\ is_day year (dec_value ddd) d.
Proof. exact (date_classic path yy ddd). Qed.
Print Assumptions C16_classic.
Theorem C16_modern path yyyy ddd : modern_name (basename path) yyyy ddd ->
  (1 <= dec_value yyyy)%Z -> (1 <= dec_value ddd <= year_len (dec_value yyyy))%Z ->
  exists d, get_rinex_date path = Some d /\ is_day (dec_value yyyy) (dec_value ddd) d.
Proof. exact (date_modern path yyyy ddd). Qed.
Print Assumptions C16_modern.
Theorem C16_bad_day path y ddd : classic_name (basename path) y ddd \/ modern_name (basename path) y ddd ->
  (dec_value ddd = 0 \/ 366 < dec_value ddd)%Z -> get_rinex_date path = None.
Proof. exact (date_bad_day path y ddd). Qed.
Print Assumptions C16_bad_day.
Theorem C16_other_name path : (forall y ddd, ~ classic_name (basename path) y ddd) -> (forall y ddd, ~ modern_name (basename path) y ddd) ->
  get_rinex_date path = None.
Proof. exact (rinex_date_none path). Qed.
Print Assumptions C16_other_name.
(** day 366 of a common year is taken as the first day of the next year *)
Theorem C16_day_366 path yy ddd : classic_name (basename path) yy ddd ->
  let year := name_century (dec_value yy) in
  year_len year = 365%Z -> dec_value ddd = 366%Z -> get_rinex_date path = Some ((year + 1)%Z, 1%Z, 1%Z).
Proof. exact (date_366 path yy ddd). Qed.
Print Assumptions C16_day_366.
Example C16_example : modern_name (basename (lit "/x/ABCD00JPN_R_20173650000_01D_30S_MO.rnx")) (lit "2017") (lit "365").
Proof. exact C16_ex. Qed.

(** C47 *)
Theorem C47_obs line s micro : version_line line s -> version_text s micro ->
  obs_class line = match dict_get Z.eqb micro obs_versions with Some v => Ok v | None => Err RinexError end.
Proof. exact (obs_class_ok line s micro). Qed.
Print Assumptions C47_obs.
Theorem C47_obs_no_version line :
  (forall w1 c r, line = w1 ++ c :: r -> white w1 -> digit c ->
    ~ exists pre label w2, r = pre ++ label ++ w2 /\ same_ci label (lit "RINEX VERSION / TYPE") /\ white w2) ->
  obs_class line = Err RinexError.
Proof. exact (obs_class_none line). Qed.
Print Assumptions C47_obs_no_version.
Theorem C47_obs_total line : (exists v, obs_class line = Ok v) \/ obs_class line = Err RinexError.
Proof. exact (obs_class_total line). Qed.
Print Assumptions C47_obs_total.
Theorem C47_nav line w1 s w2 micro : slice 0 9 line = w1 ++ s ++ w2 -> white w1 -> white w2 -> version_text s micro ->
  nav_class line = match dict_get Z.eqb micro nav_versions with Some v => Ok v | None => Err RinexError end.
Proof. exact (nav_class_ok line w1 s w2 micro). Qed.
Print Assumptions C47_nav.
Theorem C47_nav_no_version line : white (slice 0 9 line) -> nav_class line = Err RinexError.
Proof. exact (nav_class_blank line). Qed.
Print Assumptions C47_nav_no_version.
Theorem C47_nav_total line : (exists v, nav_class line = Ok v) \/ nav_class line = Err RinexError.
Proof. exact (nav_class_total line). Qed.
Print Assumptions C47_nav_total.
Example C47_example : version_line (lit "     2.1            OBSERVATION DATA    M (MIXED)           RINEX VERSION / TYPE") (lit "2.1") /\
  version_text (lit "2.1") 2100000 /\ version_text (lit "2.10") 2100000 /\ version_text (lit "3") 3000000.
Proof. exact C47_ex. Qed.

(** C48 *)
Theorem C48_names ls dirs path : (forall d name, In d dirs -> In name (ls d) -> ~ In (ascii_of_nat 10) name) ->
  (In path (find_files ls dirs RE_OBS) <->
   exists d base ext hat packed, In d dirs /\ In (base ++ ext) (ls d) /\ path = path_join d (base ++ ext) /\ obs_base base hat /\ arch ext packed).
Proof. exact (find_obs_ok ls dirs path). Qed.
Print Assumptions C48_names.
Theorem C48_steps_partial dir base ext hat packed path : obs_base base hat -> arch ext packed ->
  path_of dir (base ++ ext) path -> clean_dir dir -> ~ In (ascii_of_nat 10) path ->
  expand_plan path = Ok (plan_for hat packed).
Proof. exact (expand_plan_ok dir base ext hat packed path). Qed.
Print Assumptions C48_steps_partial.
Theorem C48_other_name path : ~ In (ascii_of_nat 10) (basename path) ->
  (forall base ext hat packed, basename path = base ++ ext -> obs_base base hat -> ~ arch ext packed) ->
  expand_plan path = Err UncompressError.
Proof. exact (expand_plan_not path). Qed.
Print Assumptions C48_other_name.
(** in a directory x.12d a plain file goes through the Hatanaka program *)
Theorem C48_refuted : exists dir base path, obs_base base false /\ path_of dir (base ++ []) path /\
  expand_plan path <> Ok (plan_for false false).
Proof. exact steps_refuted. Qed.
Print Assumptions C48_refuted.
Example C48_example : obs_base (lit "abcd0010.17D") true /\ arch (lit ".Z") true /\ clean_dir (lit "/data/2017").
Proof. exact C48_ex. Qed.

(** C49 *)
Theorem C49_nav_files ls paths t sys f : epoch_ok t -> supported_nav sys ->
  let n := day_of_year (dy t) (dmo t) (dd t) in
  (In f (find_nav_files ls paths t sys) <->
   exists d name, In d paths /\ In name (ls d) /\ f = path_join d name /\
     ((exists l, nav_letter sys l /\ classic_nav_name name (dy t) n l) \/ modern_nav_name name (dy t) n sys)).
Proof. exact (find_nav_ok ls paths t sys f). Qed.
Print Assumptions C49_nav_files.
(** the day of year used above is the specified one *)
Theorem C49_day_of_year t : epoch_ok t -> is_day (dy t) (day_of_year (dy t) (dmo t) (dd t)) (dt_date t).
Proof. exact (doy_is_day t). Qed.
Print Assumptions C49_day_of_year.
Example C49_example : classic_nav_name (lit "brdc0010.17n") 2017 1 "n"%char /\
  modern_nav_name (lit "BRDC00IGS_R_20170010000_01D_MN.rnx") 2017 1 "M"%char.
Proof. exact C49_ex. Qed.

(** C50 *)
Theorem C50_positions ls ps : xyz_lines ls ps -> exists d, load_xyz_file ls = Ok d /\
  (forall t p, last_position t ps p -> exists f, dict_get dt_eqb t d = Some f /\ near_point f p) /\
  (forall t, (forall p, ~ In (t, p) ps) -> dict_get dt_eqb t d = None).
Proof. exact (load_xyz_file_ok ls ps). Qed.
Print Assumptions C50_positions.
Theorem C50_found_here there base ext hat packed : obs_base base hat -> arch ext packed ->
  find_xyz_file there (base ++ ext) = if there (base ++ lit ".xyz") then Some (base ++ lit ".xyz") else None.
Proof. exact (find_xyz_here there base ext hat packed). Qed.
Print Assumptions C50_found_here.
Theorem C50_found_in_dir there d c base ext hat packed : obs_base base hat -> arch ext packed -> c <> "/"%char ->
  let dir := d ++ [c] in
  let xyz := dir ++ lit "/" ++ base ++ lit ".xyz" in
  find_xyz_file there (dir ++ lit "/" ++ base ++ ext) = if there xyz then Some xyz else None.
Proof. exact (find_xyz_dir there d c base ext hat packed). Qed.
Print Assumptions C50_found_in_dir.
Example C50_example : exists ps, xyz_lines [lit "# Site: USUD"; []; lit "2011-03-11 05:00:00  -3855263.0771  3427432.6022  3741020.3066"] ps /\ List.length ps = 1.
Proof. exact C50_ex. Qed.

(** C52 *)
Theorem C52_ascii_only s : write_ascii_lines (byte_lines s) = filter (fun c => (nat_of_ascii c <? 128)) s.
Proof. exact (write_ascii_spec s). Qed.
Print Assumptions C52_ascii_only.
(** a packed file is delivered as the plain one with the same contents *)
Theorem C52_same_text content raw p : p <> Nothing ->
  expand_text content content content content p = expand_text raw raw raw content Plain.
Proof. exact (expand_same content raw p). Qed.
Print Assumptions C52_same_text.
