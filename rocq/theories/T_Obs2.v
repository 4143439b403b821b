(** Property theorems: reading RINEX 2 observation files (C01-C07, C11-C13, C15). *)
From Coq Require Import Reals.
From Verif Require Import Base PyStr PyFloat PyDate M_Common M_Header M_Obs2.
From Verif Require Import S_Text S_Time S_Obs2 S_Open2 S_Errors2.
From Verif Require Import P_Common P_Sec P_Date P_Obs2 P_Obs2b P_Obs2c P_Open2 P_Open2b P_Interval P_View2 P_Errors2 P_Prop2 W_Obs2 E_Obs2.
Open Scope nat_scope.

(** C01.  Iterating over the records of an opened well-formed file delivers exactly what the
    file states ([delivered], S_Obs2): all epochs, satellites and values, each with the site
    position in force.  [first_epoch_once] excludes the files of C03_repeated_epochs_refuted. *)
Theorem C01_rinex2_round_trip : forall v header body file r blocks,
  file_parts header body file -> open2 v file = Ok r -> NoDup (r_types r) ->
  body_lines (length (r_types r)) blocks body -> first_epoch_once blocks ->
  exists ys o', records2 v r = (ys, GStop, o') /\
    delivered (r_types r) None (h_xyz (o_hdr (r_obj r))) blocks (map with_pos ys).
Proof. exact open2_delivers. Qed.
Print Assumptions C01_rinex2_round_trip.

(** every valid content has a file text, so the hypothesis of C01 covers every content *)
Theorem C01_every_content_has_a_text : forall n bs, Forall (valid_block n) bs -> body_lines n bs (put_body bs).
Proof. exact put_body_ok. Qed.
Print Assumptions C01_every_content_has_a_text.

Example C01_example : exists r, open2 V211 (ex_file (put_body ex_blocks)) = Ok r /\
  file_parts ex_header (put_body ex_blocks) (ex_file (put_body ex_blocks)) /\ NoDup (r_types r) /\
  body_lines (length (r_types r)) ex_blocks (put_body ex_blocks) /\ first_epoch_once ex_blocks.
Proof.
  destruct ex_open as [r [H1 H2]]. exists r. split; [exact H1|]. rewrite H2.
  split; [apply ex_parts|]. split; [exact ex_nodup|]. split; [exact ex_body|exact ex_once].
Qed.

(** C02.  The declared types are those listed, for any number of them ... *)
Theorem C02_declared_types : forall v header body file types r,
  file_parts header body file -> header_types header types -> open2 v file = Ok r -> r_types r = types.
Proof. exact declared_types. Qed.
Print Assumptions C02_declared_types.
(** ... and a satellite record takes ceil(n/5) lines of at most five values, n values in all *)
Theorem C02_lines_per_record : forall n, length (lines_per_rec n) = (n + 4) / 5 /\
  fold_right plus 0 (lines_per_rec n) = n /\ Forall (fun k => 1 <= k <= 5) (lines_per_rec n).
Proof. exact lines_per_record. Qed.
Print Assumptions C02_lines_per_record.
Example C02_example : header_types ex_header ex_types /\ length ex_types = 7.
Proof. split; [exact ex_header_types|reflexivity]. Qed.

(** C03.  Exactly the satellites of every block whose epoch differs from the block before. *)
Theorem C03_repeated_epochs_partial : forall v header body file r blocks,
  file_parts header body file -> open2 v file = Ok r -> NoDup (r_types r) ->
  body_lines (length (r_types r)) blocks body -> first_epoch_once blocks ->
  map (fun y => fst (fst y)) (fst (fst (records2 v r))) = expected None blocks.
Proof. exact repeated_epochs. Qed.
Print Assumptions C03_repeated_epochs_partial.
(** Without [first_epoch_once] the claim is false of the code: opening the file leaves the epoch
    of the last record it looked at behind, and a first block with that epoch is skipped. *)
Theorem C03_repeated_epochs_refuted : exists file header body blocks r,
  file_parts header body file /\ open2 V211 file = Ok r /\ NoDup (r_types r) /\
  body_lines (length (r_types r)) blocks body /\
  map (fun y => fst (fst y)) (fst (fst (records2 V211 r))) <> expected None blocks.
Proof. exact repeated_epochs_bad. Qed.
Print Assumptions C03_repeated_epochs_refuted.

(** C04.  Reading a file with an event record after any well-formed blocks gives the same
    interval, the same records and the same end as reading it without that event record;
    whatever follows ([tail]) need not be well-formed. *)
Theorem C04_event_as_if_absent : forall v header eoh types blocks pre b ls tail,
  Forall (fun l => ~ occurs (lit "END OF HEADER") l) header -> has_label (lit "END OF HEADER") eoh ->
  header_types header types -> NoDup types -> body_lines (length types) blocks pre ->
  (exists fl evl np, b = BEvent fl evl np) -> block_lines (length types) b ls ->
  observations2 v (header ++ eoh :: pre ++ ls ++ tail) = observations2 v (header ++ eoh :: pre ++ tail).
Proof. exact event_absent_file. Qed.
Print Assumptions C04_event_as_if_absent.
(** A position announced by a flag 3/4 event is the position of all records after it. *)
Theorem C04_event_position : forall v header body file r b1 fl ls d b2,
  file_parts header body file -> open2 v file = Ok r -> NoDup (r_types r) ->
  body_lines (length (r_types r)) (b1 ++ BEvent fl ls (Some d) :: b2) body ->
  first_epoch_once (b1 ++ BEvent fl ls (Some d) :: b2) -> no_positions b2 ->
  exists before after o' pos, records2 v r = (before ++ after, GStop, o') /\
    map (fun y => fst (fst y)) before = expected None b1 /\ near_position pos d /\
    Forall (fun y => h_xyz (o_hdr (snd y)) = pos) after.
Proof. exact event_position_file. Qed.
Print Assumptions C04_event_position.
Example C04_example : exists r fl ls d b1 b2, ex_reader = Ok r /\ ex_blocks = b1 ++ BEvent fl ls (Some d) :: b2 /\ no_positions b2 /\
  map fst (expected None b1) <> [].
Proof.
  destruct ex_open as [r [H1 H2]]. exists r, 4%Z, [put_pos ex_pos1; lit "a comment"], ex_pos1, (firstn 3 ex_blocks), (skipn 4 ex_blocks).
  split; [exact H1|]. split; [reflexivity|]. split; [|discriminate].
  intros fl ls np [H|[H|[]]]; [discriminate|]. injection H. congruence.
Qed.

(** C05.  True when no event changes the position ... *)
Theorem C05_first_position_partial : forall v header body file r blocks,
  file_parts header body file -> open2 v file = Ok r -> NoDup (r_types r) ->
  body_lines (length (r_types r)) blocks body -> no_positions blocks ->
  exists h, parse_header v header hdr0 = Ok h /\ h_xyz (o_hdr (r_obj r)) = h_xyz h.
Proof. exact open2_position. Qed.
Print Assumptions C05_first_position_partial.
(** ... and false in general: opening reads ahead and keeps the position of a later event. *)
Theorem C05_first_position_refuted : exists file header body blocks r h,
  file_parts header body file /\ open2 V211 file = Ok r /\ body_lines (length (r_types r)) blocks body /\
  parse_header V211 header hdr0 = Ok h /\ h_xyz (o_hdr (r_obj r)) <> h_xyz h.
Proof. exact first_position_bad. Qed.
Print Assumptions C05_first_position_refuted.

(** C06/C07.  The interval is the most frequent of the first ten non-zero differences of the
    delivered epochs (in microseconds); with no difference opening fails.  When that difference
    is above 0.0005 s the reported interval is positive (version 2.0: not negative), and it is the
    exact difference for whole milliseconds (version 2.0: whole seconds). *)
Theorem C06_interval : forall v header body file types blocks h,
  file_parts header body file -> header_types header types -> NoDup types -> parse_header v header hdr0 = Ok h ->
  body_lines (length types) blocks body ->
  exists out, delivered types None (h_xyz h) blocks out /\
    let D := firstn 10 (epoch_diffs (epochs_of out)) in
    (D = [] -> open2 v file = Err RinexError) /\
    (D <> [] -> exists us, most_frequent_us us D /\
      ((500 < us < 999999000000)%Z -> exists r iv, open2 v file = Ok r /\ h_interval (o_hdr (r_obj r)) = Some iv /\
         match iv with
         | PFloat f => ver_is20 v = false /\ (0 < P_Float.f2r f)%R /\ ((us mod 1000 = 0)%Z -> seconds us f)
         | PInt n => ver_is20 v = true /\ (0 <= n)%Z /\ ((us mod 1000000 = 0)%Z -> (n * 1000000 = us)%Z)
         end)).
Proof. exact open2_interval. Qed.
Print Assumptions C06_interval.
Example C06_example : match ex_reader with Ok r => h_interval (o_hdr (r_obj r)) = Some (PFloat (float_of_Z 30)) | Err _ => False end.
Proof. vm_compute. reflexivity. Qed.

(** C07 is false: a version 2.0 file at 2 Hz opens with interval 0 ... *)
Theorem C07_positive_interval_refuted : exists body blocks r, body_lines 7 blocks body /\
  open2 V20 (ex_file body) = Ok r /\ h_interval (o_hdr (r_obj r)) = Some (PInt 0).
Proof. exact interval_zero. Qed.
Print Assumptions C07_positive_interval_refuted.
(** ... and a file with descending epochs opens with a negative interval. *)
Theorem C07_negative_interval_refuted : exists body blocks r, body_lines 7 blocks body /\
  open2 V211 (ex_file body) = Ok r /\ h_interval (o_hdr (r_obj r)) = Some (PFloat (float_of_Z (-60))).
Proof. exact interval_negative. Qed.
Print Assumptions C07_negative_interval_refuted.

(** C11 (RINEX 2).  Opening any file and reading all its records terminates. *)
Theorem C11_rinex2_terminates : forall v file, open2 v file <> Err OutOfFuel /\
  forall r, snd (fst (records2 v r)) <> GRaise OutOfFuel.
Proof. exact terminates2. Qed.
Print Assumptions C11_rinex2_terminates.

(** C12 (RINEX 2).  Well-formed blocks followed by a malformed record: everything before it is
    delivered (including the good satellites of the malformed epoch), nothing after it, and the
    reader raises RinexError. *)
Theorem C12_rinex2_malformed_partial : forall v header file r blocks pre bad bs,
  file_parts header (pre ++ bad) file -> open2 v file = Ok r -> NoDup (r_types r) ->
  body_lines (length (r_types r)) blocks pre -> bad_end (length (r_types r)) bad bs -> first_epoch_once (blocks ++ bs) ->
  exists ys o', records2 v r = (ys, GRaise RinexError, o') /\
    delivered (r_types r) None (h_xyz (o_hdr (r_obj r))) (blocks ++ bs) (map with_pos ys).
Proof. exact open2_bad_end. Qed.
Print Assumptions C12_rinex2_malformed_partial.
Example C12_example : exists r, open2 V211 (ex_file (put_body many_blocks ++ [garbage_epoch])) = Ok r /\ r_types r = ex_types /\
  body_lines 7 many_blocks (put_body many_blocks) /\ bad_end 7 [garbage_epoch] [] /\ first_epoch_once (many_blocks ++ []).
Proof.
  destruct garbage_late as [r [H1 H2]]. exists r. split; [exact H1|]. split; [exact H2|]. split; [exact many_body|].
  split; [apply bad_end_epoch; exact garbage_bad|rewrite app_nil_r; exact many_once].
Qed.
(** Whatever the file, the record generator ends normally, with RinexError, with OverflowError
    because of a seconds field beyond a C int, or with the error of a malformed header line in an
    event record. *)
Theorem C12_rinex2_errors : forall v types lines o e, snd (fst (run_records v types lines o)) = GRaise e ->
  e = RinexError \/ (e = OverflowError /\ exists l, In l lines /\ huge_line l) \/ bad_event_header v lines e.
Proof. exact rinex2_errors. Qed.
Print Assumptions C12_rinex2_errors.
(** The claim itself is false: such an error is not a RinexError and ends the whole run ... *)
Theorem C12_rinex2_malformed_refuted : exists body blocks line r, body_lines 7 blocks body /\
  open2 V211 (ex_file (body ++ [line])) = Ok r /\ snd (fst (records2 V211 r)) = GRaise OverflowError.
Proof. exact malformed_overflow. Qed.
Print Assumptions C12_rinex2_malformed_refuted.
(** ... and a malformed record among the first epochs makes opening fail, so that the records
    before it are not delivered. *)
Theorem C12_rinex2_early_refuted : exists body blocks line, body_lines 7 blocks body /\ expected None blocks <> [] /\ bad_epoch line /\
  open2 V211 (ex_file (body ++ [line])) = Err RinexError.
Proof. exact malformed_early. Qed.
Print Assumptions C12_rinex2_early_refuted.

(** C13.  The instant denoted by the fields; errors. *)
Theorem C13_epoch_value : forall y mo d h mi s us,
  epoch_in_range y mo d h mi s us -> (epoch_value y mo d h mi s us < end_of_time)%Z ->
  exists t, validate_epoch y mo d h mi s us = Ok t /\ valid_datetime t /\ instant t = epoch_value y mo d h mi s us.
Proof. exact validate_epoch_ok. Qed.
Print Assumptions C13_epoch_value.
Theorem C13_out_of_range : forall y mo d h mi s us,
  ~ epoch_in_range y mo d h mi s us ->
  fits (century y) /\ fits mo /\ fits d /\ fits h /\ fits mi /\ fits s /\ fits us ->
  validate_epoch y mo d h mi s us = Err ValueError.
Proof. exact validate_epoch_bad. Qed.
Print Assumptions C13_out_of_range.
(** the two cases the claim leaves out *)
Theorem C13_overflow : forall y mo d h mi s us,
  (epoch_in_range y mo d h mi s us /\ (end_of_time <= epoch_value y mo d h mi s us)%Z) \/
  ~ (fits (century y) /\ fits mo /\ fits d /\ fits h /\ fits mi /\ fits s /\ fits us) ->
  validate_epoch y mo d h mi s us = Err OverflowError.
Proof. exact epoch_overflow. Qed.
Print Assumptions C13_overflow.
Example C13_example : epoch_in_range 12 2 29 23 59 60 5 /\ validate_epoch 12 2 29 23 59 60 5 = Ok (mkDT 2012 3 1 0 0 0 5).
Proof. split; [unfold epoch_in_range, valid_date; cbn; lia|vm_compute; reflexivity]. Qed.

(** C15.  A seconds field with seven decimals is split exactly, by the RINEX 2 reader ("%.5f")
    and by the RINEX 3 and header readers ("%.1f"). *)
Theorem C15_seconds_exact : forall w s n k, (k = 1 \/ k = 5) -> fix_field w 7 s false n -> (n < 1270000000)%Z -> w <= 300 ->
  exists f, py_float s = Ok f /\ split_sec k f = Ok (n / 10000000, n mod 10000000 / 10)%Z.
Proof. exact seconds_exact. Qed.
Print Assumptions C15_seconds_exact.
Example C15_example : fix_field 11 7 (put_fix 11 7 false 599999999) false 599999999 /\
  split_sec 1 (b64_of_dec false 599999999 (-7)) = Ok (59, 999999)%Z.
Proof. split; [apply put_fix_ok; cbn; lia|vm_compute; reflexivity]. Qed.
