(** Property theorems: reading RINEX 3 observation files (C05, C07-C12, C53). *)
From Coq Require Import Reals.
From Verif Require Import Base PyStr PyFloat PyDate M_Common M_Header M_Obs2 M_Obs3.
From Verif Require Import S_Text S_Time S_Obs2 S_Open2 S_Errors2 S_Obs3.
From Verif Require Import P_Obs3 P_Obs3b P_Obs3c P_Obs3d P_Obs3e P_Obs3f W_Obs2 E_Obs2 E_Obs3.
Open Scope nat_scope.

(** C08.  Iterating over the records of an opened well-formed file delivers exactly the epochs, satellites
    and values that the file states, in its order ([delivered3], S_Obs3). *)
Theorem C08_rinex3_round_trip : forall fuel v header body file sel table r blocks, file3_parts header body file ->
  labelled (lit "SYS / # / OBS TYPES") header sel -> table_lines table sel -> NoDup (map fst table) ->
  types_distinct (read_table v table) -> open3 fuel v file = Ok r -> body3_lines (read_table v table) blocks body ->
  exists ys o', records3 v r = (ys, GStop, o') /\ delivered3 (read_table v table) blocks (map fst ys).
Proof. exact open3_delivers. Qed.
Print Assumptions C08_rinex3_round_trip.
Example C08_example : exists r, file3_parts header3 (put_body3 blocks3) (file3 (put_body3 blocks3)) /\
  labelled (lit "SYS / # / OBS TYPES") header3 sel3 /\ table_lines table3 sel3 /\ NoDup (map fst table3) /\ types_distinct (read_table V302 table3) /\
  open3 100 V302 (file3 (put_body3 blocks3)) = Ok r /\ body3_lines (read_table V302 table3) blocks3 (put_body3 blocks3).
Proof.
  destruct open3_ex as [r Hr]. exists r. split; [apply file3_ok|]. split; [exact header3_labelled|]. split; [exact table3_lines|]. split; [exact table3_nodup|].
  split; [exact read3_distinct|]. split; [exact Hr|exact blocks3_body].
Qed.
Example C08_count : match reader3_ex with Ok r => length (fst (fst (records3 V302 r))) = 6 | Err _ => False end.
Proof. exact count3_ex. Qed.

(** C09.  The observation types of every system are the declared ones, continuation lines joined; band 1 of
    BeiDou is band 2 from version 3.02 on ([read_code]). *)
Theorem C09_declared_types : forall fuel v header body file sel table r, file3_parts header body file ->
  labelled (lit "SYS / # / OBS TYPES") header sel -> table_lines table sel -> NoDup (map fst table) -> open3 fuel v file = Ok r ->
  o3_tab (r3_obj r) = map (fun e => ([fst e], map (read_code v (fst e)) (snd e))) table.
Proof.
  intros fuel v header body file sel table r H1 H2 H3 H4 H5.
  rewrite (open3_table fuel v header body file sel table r H1 H2 H3 H4 H5). unfold tab_of, read_table. now rewrite map_map.
Qed.
Print Assumptions C09_declared_types.
Example C09_example : exists r, open3 100 V302 (file3 (put_body3 blocks3)) = Ok r /\ table_lines table3 sel3 /\
  In ("C"%char, map lit ["C2I"; "L2I"; "C7I"; "L7I"]%string) (read_table V302 table3).
Proof. destruct open3_ex as [r Hr]. exists r. split; [exact Hr|]. split; [exact table3_lines|exact c_renamed]. Qed.

(** C05 (RINEX 3).  Right after opening the position is that of the header. *)
Theorem C05_rinex3_first_position : forall fuel v header body file r, file3_parts header body file -> open3 fuel v file = Ok r ->
  exists h, parse_header v header hdr0 = Ok h /\ h_xyz (o3_hdr (r3_obj r)) = h_xyz h.
Proof. exact open3_pos. Qed.
Print Assumptions C05_rinex3_first_position.

(** C10.  The records before the first announced position have the position of the header, those after it
    the announced one ... *)
Theorem C10_event_position_partial : forall fuel v header body file sel table r b1 ls d b2, file3_parts header body file ->
  labelled (lit "SYS / # / OBS TYPES") header sel -> table_lines table sel -> NoDup (map fst table) -> types_distinct (read_table v table) ->
  open3 fuel v file = Ok r -> body3_lines (read_table v table) (b1 ++ B3Event 4 ls (Some d) :: b2) body -> no_positions3 b1 ->
  exists before after o', records3 v r = (before ++ after, GStop, o') /\
    map fst (map fst before) = expected3 b1 /\ Forall (fun y => h_xyz (o3_hdr (snd y)) = h_xyz (o3_hdr (r3_obj r))) before /\
    map fst (map fst after) = expected3 b2 /\ Forall (fun y => near_position (h_xyz (o3_hdr (snd y))) d) after.
Proof. exact open3_event_position. Qed.
Print Assumptions C10_event_position_partial.
Example C10_example : exists b1 ls d b2, blocks3 = b1 ++ B3Event 4 ls (Some d) :: b2 /\ no_positions3 b1 /\ expected3 b1 <> [] /\ expected3 b2 <> [].
Proof.
  exists (firstn 4 blocks3), [put_pos ex_pos1; lit "a comment"], ex_pos1, (skipn 5 blocks3). split; [reflexivity|]. split; [|split; discriminate].
  intros fl ls np H. cbn in H. repeat destruct H as [H|H]; try discriminate; try contradiction. congruence.
Qed.
(** ... also after a later event announces another position. *)
Theorem C10_event_position_refuted : exists blocks r before last o',
  body3_lines read3 (blocks ++ [B3Event 4 [put_pos ex_pos2] (Some ex_pos2); B3Data (t3 0 1 0 0) 0 [g_sat 1 7]])
    (put_body3 (blocks ++ [B3Event 4 [put_pos ex_pos2] (Some ex_pos2); B3Data (t3 0 1 0 0) 0 [g_sat 1 7]])) /\
  open3 100 V302 (file3 (put_body3 (blocks ++ [B3Event 4 [put_pos ex_pos2] (Some ex_pos2); B3Data (t3 0 1 0 0) 0 [g_sat 1 7]]))) = Ok r /\
  records3 V302 r = (before ++ [last], GStop, o') /\ ~ near_position (h_xyz (o3_hdr (snd last))) ex_pos2.
Proof. exact second_position_ignored. Qed.
Print Assumptions C10_event_position_refuted.
(** An event that repeats the types of observation ends the reading with HeaderError. *)
Theorem C10_repeated_types_refuted : exists r,
  open3 100 V302 (file3 (put_body3 [B3Data (t3 0 0 0 0) 0 [g_sat 1 0]; B3Data (t3 0 0 30 0) 0 [g_sat 1 0]] ++ [put_epoch3 None 4 3; sno_g1; sno_g2; sno_c])) = Ok r /\
  snd (fst (records3 V302 r)) = GRaise HeaderError.
Proof. exact repeated_types. Qed.
Print Assumptions C10_repeated_types_refuted.

(** C53.  The interval is the difference of the first two different epochs [a] (repeated k times more) and
    [b]; a file with a single epoch, or with b before a, does not open. *)
Theorem C53_rinex3_interval : forall fuel v header body file h table sel blocks a k, file3_parts header body file ->
  parse_header v header hdr0 = Ok h -> labelled (lit "SYS / # / OBS TYPES") header sel -> table_lines table sel ->
  NoDup (map fst table) -> table <> [] -> body3_lines (read_table v table) blocks body -> k < fuel ->
  (forall b rest, data_epochs3 blocks = a :: repeat a k ++ b :: rest -> a <> b ->
    let us := (instant b - instant a)%Z in
    ((us <= 0)%Z -> open3 fuel v file = Err RinexError) /\
    ((500 < us < 999999000000)%Z -> exists r iv, open3 fuel v file = Ok r /\ h_interval (o3_hdr (r3_obj r)) = Some iv /\
       match iv with
       | PFloat f => ver_is20 v = false /\ (0 < P_Float.f2r f)%R /\ ((us mod 1000 = 0)%Z -> seconds us f)
       | PInt n => ver_is20 v = true /\ (0 <= n)%Z /\ ((us mod 1000000 = 0)%Z -> (n * 1000000 = us)%Z)
       end)) /\
  (data_epochs3 blocks = a :: repeat a k -> last_is_data blocks -> open3 fuel v file = Err RinexError).
Proof. exact open3_interval. Qed.
Print Assumptions C53_rinex3_interval.
Example C53_example : (exists h, parse_header V302 header3 hdr0 = Ok h) /\ table3 <> [] /\
  data_epochs3 blocks3 = t3 0 0 0 0 :: repeat (t3 0 0 0 0) 1 ++ t3 0 0 30 0 :: [t3 0 1 0 500000] /\
  match reader3_ex with Ok r => h_interval (o3_hdr (r3_obj r)) = Some (PFloat (float_of_Z 30)) | Err _ => False end.
Proof. split; [exact header3_parsed|]. split; [discriminate|]. split; [exact epochs3_ex|exact interval3_ex]. Qed.
(** C07 (RINEX 3) is false: an interval below half a millisecond becomes zero. *)
Theorem C07_rinex3_positive_interval_refuted : exists r, body3_lines read3 fast3 (put_body3 fast3) /\
  open3 100 V302 (file3 (put_body3 fast3)) = Ok r /\ h_interval (o3_hdr (r3_obj r)) = Some (PFloat fzero).
Proof. exact fast3_zero. Qed.
Print Assumptions C07_rinex3_positive_interval_refuted.

(** C11 (RINEX 3).  Reading the records of an opened file terminates, and so does opening a file whose first
    epoch line can be read ([fuel] bounds the loop that looks for the second epoch) ... *)
Theorem C11_rinex3_terminates_partial : forall fuel v header file skip line rest ep fl n,
  file3_parts header (skip ++ line :: rest) file -> Forall no_epoch_mark skip -> epoch3_line (Some ep) fl n line ->
  (fl = 0 \/ fl = 1)%Z -> length file < fuel -> open3 fuel v file <> Err OutOfFuel.
Proof. exact open3_terminates. Qed.
Print Assumptions C11_rinex3_terminates_partial.
Theorem C11_rinex3_records_terminate : forall v r, snd (fst (records3 v r)) <> GRaise OutOfFuel.
Proof. exact records3_terminates. Qed.
Print Assumptions C11_rinex3_records_terminate.
(** ... but opening a file without epochs does not. *)
Theorem C11_rinex3_terminates_refuted : file3_parts header3 [] (file3 []) /\ forall fuel, open3 fuel V302 (file3 []) = Err OutOfFuel.
Proof. exact loops3. Qed.
Print Assumptions C11_rinex3_terminates_refuted.

(** C12 (RINEX 3).  Well-formed blocks followed by an epoch line without a readable flag or count, or by a
    satellite of an undeclared system: everything before it is delivered, then RinexError. *)
Theorem C12_rinex3_malformed_partial : forall fuel v header file sel table r blocks pre bad bs, file3_parts header (pre ++ bad) file ->
  labelled (lit "SYS / # / OBS TYPES") header sel -> table_lines table sel -> NoDup (map fst table) -> types_distinct (read_table v table) ->
  open3 fuel v file = Ok r -> body3_lines (read_table v table) blocks pre -> bad_end3 (read_table v table) bad bs ->
  exists ys o', records3 v r = (ys, GRaise RinexError, o') /\ delivered3 (read_table v table) (blocks ++ bs) (map fst ys).
Proof. exact open3_bad_end. Qed.
Print Assumptions C12_rinex3_malformed_partial.
Example C12_rinex3_example : exists r, open3 100 V302 (file3 (put_body3 good3 ++ [bad_flag3])) = Ok r /\
  body3_lines read3 good3 (put_body3 good3) /\ bad_end3 read3 [bad_flag3] [].
Proof. destruct bad_flag_open as [r Hr]. exists r. split; [exact Hr|]. split; [exact good3_body|]. apply bad3_epoch, bad_flag3_bad. Qed.
(** Whatever the file, the record generator of an opened file ends normally or with one of these errors. *)
Theorem C12_rinex3_errors : forall fuel v header body file r e, file3_parts header body file -> Forall (fun l => l <> []) body ->
  open3 fuel v file = Ok r -> snd (fst (records3 v r)) = GRaise e ->
  (e = RinexError \/ (e = OverflowError /\ exists l, In l body /\ overflow3 l) \/
   (exists special o, (forall l, In l special -> In l body /\ no_epoch_mark l) /\ parse_header3 v special o = Err e) \/
   (e = IndexError /\ exists l, In l body /\ has_label (lit "SYS / # / OBS TYPES") l)) \/
  (e = TypeError /\ exists l rest, body = l :: rest /\ no_epoch_mark l).
Proof. exact records3_errors. Qed.
Print Assumptions C12_rinex3_errors.
(** The claim itself is false: a value that is not a number is delivered as 0.0 ... *)
Theorem C12_rinex3_junk_value_refuted : exists r, open3 100 V302 (file3 (put_body3 good3 ++ [put_epoch3 (Some (t3 0 1 0 0)) 0 1; junk_sat])) = Ok r /\
  snd (fst (records3 V302 r)) = GStop /\ last_value (Ok r) 0 = Some (Some fzero, 0%Z, 0%Z).
Proof. exact junk_zero. Qed.
Print Assumptions C12_rinex3_junk_value_refuted.
(** ... records are delivered without a date when their date is invalid ... *)
Theorem C12_rinex3_junk_date_refuted : exists r, open3 100 V302 (file3 (put_body3 good3 ++ [junk_date; put_sat3 (g_sat 1 0)])) = Ok r /\
  snd (fst (records3 V302 r)) = GStop /\ last_epoch3 (Ok r) = Some None.
Proof. exact junk_none. Qed.
Print Assumptions C12_rinex3_junk_date_refuted.
(** ... and a seconds field beyond a C int ends the run with OverflowError. *)
Theorem C12_rinex3_overflow_refuted : exists r, open3 100 V302 (file3 (put_body3 good3 ++ [huge_date])) = Ok r /\
  snd (fst (records3 V302 r)) = GRaise OverflowError.
Proof. exact huge_overflow3. Qed.
Print Assumptions C12_rinex3_overflow_refuted.
