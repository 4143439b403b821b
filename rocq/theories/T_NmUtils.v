(** Property theorems: choosing the ephemeris and the navigation file (C21-C23). *)
From Coq Require Import Reals.
From Verif Require Import Base PyStr PyFloat PyDate PyPath M_Names M_Nav M_NmUtils S_Text S_Time S_Obs2 S_NmUtils P_Float P_NmUtils P_NmUtils2.
Open Scope nat_scope.

(** C21 *)
Theorem C21_selection epoch sys num (message : list (ascii * option sys_message)) first (sats : sys_message) (msgs : sat_message) :
  valid_datetime epoch -> In sys (lit "GCERS") ->
  dict_get Ascii.eqb sys message = Some (Some sats) -> dict_get Z.eqb num sats = Some msgs -> msgs <> [] ->
  exists o, selected sys first (dt_time epoch) (map fst msgs) o /\
    match o with
    | Some t => exists e x, dict_get tod_eqb t msgs = Some e /\ select_navigation_message epoch sys num message first = Ok (Some (x, e))
    | None => select_navigation_message epoch sys num message first = Ok None
    end.
Proof. exact (selection epoch sys num message first sats msgs). Qed.
Print Assumptions C21_selection.
(** no message of the system or of the satellite *)
Theorem C21_missing epoch sys num (message : list (ascii * option sys_message)) first :
  (forall sats msgs, dict_get Ascii.eqb sys message = Some (Some sats) -> dict_get Z.eqb num sats = Some msgs -> False) ->
  select_navigation_message epoch sys num message first = Ok None.
Proof. exact (select_missing epoch sys num message first). Qed.
Print Assumptions C21_missing.
(** the time passed on for GLONASS and SBAS: seconds from the message to the observation *)
Theorem C21_seconds epoch sys num (message : list (ascii * option sys_message)) first (sats : sys_message) (msgs : sat_message) :
  valid_datetime epoch -> In sys (lit "RS") -> (forall t, In t (map fst msgs) -> (0 <= day_second t < 86400)%Z) ->
  dict_get Ascii.eqb sys message = Some (Some sats) -> dict_get Z.eqb num sats = Some msgs ->
  forall x e, select_navigation_message epoch sys num message first = Ok (Some (x, e)) ->
  exists t, selected sys first (dt_time epoch) (map fst msgs) (Some t) /\ dict_get tod_eqb t msgs = Some e /\
    f2r x = IZR (day_second (dt_time epoch) - day_second t).
Proof. exact (selection_seconds epoch sys num message first sats msgs). Qed.
Print Assumptions C21_seconds.
Example C21_example : selected "E" true (12, 0, 30, 0)%Z (map fst [((14, 0, 0, 0)%Z, [fzero]); ((11, 0, 0, 0)%Z, [fzero])]) (Some (11, 0, 0, 0)%Z).
Proof. exact C21_ex. Qed.

(** C22 *)
Theorem C22_gps epoch num message first x e : valid_datetime epoch -> (instant week_start <= instant epoch)%Z ->
  select_navigation_message epoch "G"%char num message first = Ok (Some (x, e)) ->
  (Rabs (f2r x - IZR (seconds_of_week epoch)) <= 1 / 50000)%R.
Proof. exact (gps_week epoch num message first x e). Qed.
Print Assumptions C22_gps.
Theorem C22_beidou epoch num message first x e : valid_datetime epoch -> (instant bds_start <= instant epoch)%Z ->
  select_navigation_message epoch "C"%char num message first = Ok (Some (x, e)) ->
  (Rabs (f2r x - IZR (seconds_of_week epoch)) <= 1 / 50000)%R.
Proof. exact (bds_week epoch num message first x e). Qed.
Print Assumptions C22_beidou.
(** what the code computes for Galileo: thirteen seconds too little *)
Theorem C22_galileo_partial epoch num message first x e : valid_datetime epoch -> (instant gal_start <= instant epoch)%Z ->
  select_navigation_message epoch "E"%char num message first = Ok (Some (x, e)) ->
  (Rabs (f2r x - IZR ((seconds_of_week epoch - 13) mod 604800)) <= 1 / 50000)%R.
Proof. exact (gal_week epoch num message first x e). Qed.
Print Assumptions C22_galileo_partial.
Theorem C22_galileo_refuted : exists epoch message x e, valid_datetime epoch /\ (instant week_start <= instant epoch)%Z /\
  select_navigation_message epoch "E"%char 7 message true = Ok (Some (x, e)) /\ (Rabs (f2r x - IZR (seconds_of_week epoch)) > 12)%R.
Proof. exact gal_refuted. Qed.
Print Assumptions C22_galileo_refuted.

(** C23 *)
Theorem C23_choice files priority : files <> [] -> exists f, get_prior_file files priority = Some f /\ preferred occurs files priority f.
Proof. exact (prior_ok files priority). Qed.
Print Assumptions C23_choice.
Theorem C23_empty priority : get_prior_file [] priority = None.
Proof. reflexivity. Qed.
Print Assumptions C23_empty.
Theorem C23_given has files priority f : preferred has files priority f -> In f files.
Proof. exact (preferred_in has files priority f). Qed.
Print Assumptions C23_given.
(** by site codes, when a code occurs in a path only as the site code of the file *)
Theorem C23_site_partial files priority : files <> [] -> (forall q x, In q priority -> In x files -> (occurs q x <-> has_code q x)) ->
  exists f, get_prior_file files priority = Some f /\ preferred has_code files priority f.
Proof. exact (prior_site files priority). Qed.
Print Assumptions C23_site_partial.
Example C23_example : exists f, get_prior_file [lit "/nav/abcd0010.17n"; lit "/nav/BRDC0010.17n"] [lit "iisc"; lit "brdc"] = Some f /\
  preferred has_code [lit "/nav/abcd0010.17n"; lit "/nav/BRDC0010.17n"] [lit "iisc"; lit "brdc"] f.
Proof. exact site_ex. Qed.
(** the directory counts, too: /brdc/abcd0010.17n is taken for site brdc *)
Theorem C23_site_refuted : exists files priority f g, get_prior_file files priority = Some f /\ preferred has_code files priority g /\ f <> g.
Proof. exact site_refuted. Qed.
Print Assumptions C23_site_refuted.
(** the file that is loaded *)
Theorem C23_loaded ls content paths epoch sys priority f m : load_navigation_message ls content paths epoch sys priority = Ok (f, m) ->
  let own := find_nav_files ls paths epoch sys in
  let files := match own with [] => find_nav_files ls paths epoch "M"%char | _ => own end in
  files <> [] /\ preferred occurs files priority f /\ (exists lines, content f = Ok lines /\ nav_file f lines = Ok m) /\ exists d, dict_get Ascii.eqb sys m = Some d.
Proof. exact (load_ok ls content paths epoch sys priority f m). Qed.
Print Assumptions C23_loaded.
Theorem C23_not_found ls content paths epoch sys priority : find_nav_files ls paths epoch sys = [] -> find_nav_files ls paths epoch "M"%char = [] ->
  load_navigation_message ls content paths epoch sys priority = Err NMError.
Proof. exact (load_none ls content paths epoch sys priority). Qed.
Print Assumptions C23_not_found.
