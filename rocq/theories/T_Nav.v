(** Property theorems: navigation files (C17-C20). *)
From Coq Require Import Reals.
From Verif Require Import Base PyStr PyFloat PyDate PyPath M_Common M_Header M_Names M_Nav S_Text S_Time S_Obs2 S_Names S_Nav P_Nav5 P_Nav4 E_Nav.
Open Scope nat_scope.

(** C17.  Every number is the double nearest to the one written. *)
Theorem C17_round_trip v filename ms lines day : nav_file_text v ms lines -> get_rinex_date filename = Some day ->
  exists m, nav_file filename lines = Ok m /\
    (forall sys num t, match last_message day sys num t ms with
       | Some x => exists vals, stored m sys num t = Some vals /\ Forall2 (fun f r => nearest64 r (nfield_real f)) (concat (nm_orbits x)) vals
       | None => stored m sys num t = None
       end) /\
    (forall sys, (exists d, dict_get Ascii.eqb sys m = Some d) <-> exists x, In x ms /\ nm_sys x = sys /\ dt_date (nm_epoch x) = day).
Proof. exact (nav_round_trip v filename ms lines day). Qed.
Print Assumptions C17_round_trip.
Example C17_example : nav_file_text V21 [ex_msg] file_ok /\ get_rinex_date wname = Some (2017, 1, 1)%Z /\
  last_message (2017, 1, 1)%Z "R" 1 (0, 15, 0, 0)%Z [ex_msg] = Some ex_msg.
Proof. exact C17_ex. Qed.
(** C18.  For any content: what is kept was written under an epoch line of the day in the file's name. *)
Theorem C18_day filename lines m sys num t vals : nav_file filename lines = Ok m -> stored m sys num t = Some vals ->
  exists v c pre line post ep, nav_class (hd [] lines) = Ok v /\ lines = pre ++ line :: post /\ epoch_says v c line sys num ep /\
    get_rinex_date filename = Some (dt_date ep) /\ t = dt_time ep.
Proof. exact (date_kept filename lines m sys num t vals). Qed.
Print Assumptions C18_day.
Theorem C18_no_date filename lines m : get_rinex_date filename = None -> nav_file filename lines = Ok m -> m = [].
Proof. exact (nav_file_no_date filename lines m). Qed.
Print Assumptions C18_no_date.
Example C18_example : exists m vals, nav_file wname file_ok = Ok m /\ stored m "R"%char 1 (0, 15, 0, 0)%Z = Some vals /\ vals <> [].
Proof. exact kept_ex. Qed.

(** C19.  For any content. *)
Theorem C19_count filename lines m sys num t vals : nav_file filename lines = Ok m -> stored m sys num t = Some vals ->
  List.length vals = if Ascii.eqb sys "R" || Ascii.eqb sys "S" then 12 else 26.
Proof. exact (kept_count filename lines m sys num t vals). Qed.
Print Assumptions C19_count.

(** C20.  For any content: the numbers are those of the lines directly after the satellite's own epoch line. *)
Theorem C20_never_mix filename lines m sys num t vals : nav_file filename lines = Ok m -> stored m sys num t = Some vals ->
  exists v c ep pre line orbits post,
    nav_class (hd [] lines) = Ok v /\ lines = pre ++ line :: orbits ++ post /\
    ~ starts_blank v line /\ epoch_says v c line sys num ep /\ t = dt_time ep /\
    Forall (starts_blank v) orbits /\ orbits_say v (orbit_counts sys) orbits vals.
Proof. exact (kept_lines filename lines m sys num t vals). Qed.
Print Assumptions C20_never_mix.
(** A message cut short after at least one line, by a message of the file's day that has all its
    lines: the file is rejected. *)
Theorem C20_rejected_partial v filename head endl body ft l0 os l1 os1 post sys0 num0 ep0 sys1 num1 ep1 m :
  Forall (fun l => ~ has_label (lit "END OF HEADER") l) head -> has_label (lit "END OF HEADER") endl ->
  nav_class (hd [] (head ++ [endl])) = Ok v -> nav_header v head = Ok ft ->
  ~ starts_blank v l0 -> Forall (starts_blank v) os -> parse_epoch_n v ft l0 = Ok (sys0, num0, ep0) ->
  0 < List.length os < List.length (orbit_counts sys0) ->
  ~ starts_blank v l1 -> Forall (starts_blank v) os1 -> parse_epoch_n v ft l1 = Ok (sys1, num1, ep1) ->
  List.length os1 = List.length (orbit_counts sys1) -> get_rinex_date filename = Some (dt_date ep1) ->
  nav_file filename (head ++ endl :: body ++ l0 :: os) = Ok m ->
  nav_file filename (head ++ endl :: body ++ l0 :: os ++ l1 :: os1 ++ post) = Err RinexError.
Proof. exact (cut_short_rejected v filename head endl body ft l0 os l1 os1 post sys0 num0 ep0 sys1 num1 ep1 m). Qed.
Print Assumptions C20_rejected_partial.
Example C20_example : nav_file wname [ver_line2; end_line2; ep_a; blank3; ep_b; blank3; blank3; blank3] = Err RinexError.
Proof. exact C20_ex. Qed.
(** Cut short before its first line, or by a message of another day: dropped without an error. *)
Theorem C20_rejected_refuted : exists filename lines v m k, nav_class (hd [] lines) = Ok v /\ cut_short v (get_rinex_date filename) lines k /\ nav_file filename lines = Ok m.
Proof. exact (let (m, H) := cut_none in ex_intro _ wname (ex_intro _ file_none (ex_intro _ V21 (ex_intro _ m (ex_intro _ 0 H))))). Qed.
Print Assumptions C20_rejected_refuted.
Theorem C20_rejected_other_day_refuted : exists filename lines v m k, nav_class (hd [] lines) = Ok v /\ cut_short v (get_rinex_date filename) lines (S k) /\ nav_file filename lines = Ok m.
Proof. exact (let (m, H) := cut_other in ex_intro _ wname (ex_intro _ file_other (ex_intro _ V21 (ex_intro _ m (ex_intro _ 0 H))))). Qed.
Print Assumptions C20_rejected_other_day_refuted.
