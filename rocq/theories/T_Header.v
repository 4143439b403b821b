(** C54: the header values of an opened observation file. *)
From Verif Require Import Base PyStr PyFloat PyDate M_Common M_Header M_Obs2 M_Obs3 S_Text S_Time S_Obs2 S_Open2 S_Obs3 S_Header P_Header E_Obs2 E_Header.
Open Scope nat_scope.

(** C54.  Each header value is that of the first line with its label. *)
Theorem C54_header_values : forall v lines items, Forall2 (header_line v) lines items ->
  exists h, parse_header v lines hdr0 = Ok h /\ header_values v items h.
Proof. exact parse_header_values. Qed.
Print Assumptions C54_header_values.
(** ... and an opened reader reports them (the interval is measured instead, C06 and C53). *)
Theorem C54_opened_rinex2 : forall v header body file r blocks items,
  file_parts header body file -> open2 v file = Ok r -> NoDup (r_types r) ->
  body_lines (length (r_types r)) blocks body -> no_positions blocks -> Forall2 (header_line v) header items ->
  start_values v items (o_hdr (r_obj r)).
Proof. exact open2_header. Qed.
Print Assumptions C54_opened_rinex2.
Theorem C54_opened_rinex3 : forall fuel v header body file r items, file3_parts header body file -> open3 fuel v file = Ok r ->
  Forall2 (header_line v) header items -> start_values v items (o3_hdr (r3_obj r)).
Proof. exact open3_header. Qed.
Print Assumptions C54_opened_rinex3.
Example C54_example : Forall2 (header_line V211) ex_header ex_items /\ first_of position_of ex_items = Some ex_pos0 /\
  first_of time_of ex_items = Some (t0_2012, lit "GPS").
Proof. split; [exact ex_header_items|]. split; reflexivity. Qed.
