(** Property theorems: output files (C39, C40). *)
From Verif Require Import Base PyStr PyFloat PyDate PyPath S_Text S_Time M_Header M_Rec M_Text S_Out P_Out P_Out2.
Open Scope nat_scope.

Definition ex_fmt : rec_format := mkFormat [lit "tsn"] [(0, FInt 11)] (lit "(I11)").
Definition ex_cfg : out_cfg := mkOut (lit "./out") ex_fmt (lit "%H") (fun _ => lit "00") (fun _ => false) (lit "now") None.
Definition ex_at (s : Z) : datetime := mkDT 2017 1 1 0 0 s 0.
Definition ex_q (q : quantity) : option pyval := None.
Definition ex_pos : wop := WPos (ex_at 0) (fzero, fzero, fzero) (fzero, fzero, fzero).
Definition ex_rows : list wop :=
  [ex_pos; WRow (lit "G01") (lit "G01") None (ex_at 0) ex_q; WRow (lit "G02") (lit "G02") None (ex_at 0) ex_q;
   WRow (lit "G01") (lit "G01") None (ex_at 30) ex_q].

(** C40.  After one observation file whose accepted records are all of day d, the file of each
    satellite is the comment lines and then exactly its rows in order; no other file is touched. *)
Theorem C40_rows_in_order : forall c f name iv os f' d, date_ok d -> basename name <> [] -> all_of_day d os ->
  (forall s sd nav t q, In (WRow s sd nav t q) os -> no_slash s) ->
  write_file c f name iv os = Ok f' ->
  (forall sat, rows_of sat os <> [] -> exists content,
     fs_get (result_file (oc_dir c) (marker_of name) sat d) f' = Some content /\ file_of_rows c iv (rows_of sat os) content) /\
  (forall p, (forall sat, rows_of sat os <> [] -> p <> result_file (oc_dir c) (marker_of name) sat d) -> fs_get p f' = fs_get p f).
Proof. exact one_file. Qed.
Print Assumptions C40_rows_in_order.
(** Writing goes through as soon as the position is announced first and each row can be rendered
    (C36). *)
Theorem C40_written : forall c f name iv t p l os,
  (forall s sd nav t q, In (WRow s sd nav t q) os -> exists r, row_text (oc_format c) (oc_strftime c) iv t q = Ok r) ->
  exists f', write_file c f name iv (WPos t p l :: os) = Ok f'.
Proof. exact write_file_total. Qed.
Print Assumptions C40_written.
Example C40_example : exists f' h, write_file ex_cfg [] (lit "obs/abcd0010.17o") (PInt 30) ex_rows = Ok f' /\
  fs_get (lit "./out/2017/001/abcd/abcd_G01_001_17.dat") f' =
    Some (h ++ lit "          0" ++ [ascii_of_nat 10] ++ lit "          1" ++ [ascii_of_nat 10]) /\
  result_file (lit "./out") (lit "abcd") (lit "G01") (2017, 1, 1)%Z = lit "./out/2017/001/abcd/abcd_G01_001_17.dat".
Proof.
  eexists. exists (concat (map comment_line
    [lit "Created on now"; lit "Sources: obs/abcd0010.17o, None"; lit "Satellite: G01"; lit "Interval: 30"; lit "Sampling interval: 0.0 (not used).";
     lit "Site: abcd"; lit "Position (L, B, H): 0.0, 0.0, 0.0"; lit "Position (X, Y, Z): 0.0, 0.0, 0.0"; lit "datetime format: %H"; lit "Columns: tsn,"; lit "(I11)"])).
  split; [vm_compute; reflexivity|]. split; vm_compute; reflexivity.
Qed.

(** ... and its comment lines name the sources, the satellite as defined at its first row, the interval and the
    site, and give the newest position announced before its first row. *)
Theorem C40_comments : forall c f name iv os f' d pre sat sd nav t q post, date_ok d -> basename name <> [] -> all_of_day d os ->
  (forall s sd nav t q, In (WRow s sd nav t q) os -> no_slash s) -> (forall t p l, In (WPos t p l) os -> valid_datetime t) ->
  write_file c f name iv os = Ok f' ->
  os = pre ++ WRow sat sd nav t q :: post -> rows_of sat pre = [] ->
  exists t0 p l rows, newest (t0, p, l) (announced pre) /\
    fs_get (result_file (oc_dir c) (marker_of name) sat d) f' = Some (comment_text (comment_lines c name iv sd nav p l) ++ rows).
Proof. exact comment_top. Qed.
Print Assumptions C40_comments.
Example C40_comments_example : let one := b64_of_dec false 1 0 in
  let os := [WPos (ex_at 30) (one, one, one) (one, one, one); WPos (ex_at 0) (fzero, fzero, fzero) (fzero, fzero, fzero);
             WRow (lit "G01") (lit "G01") None (ex_at 0) ex_q] in
  (exists f', write_file ex_cfg [] (lit "obs/abcd0010.17o") (PInt 30) os = Ok f') /\
  newest (ex_at 30, (one, one, one), (one, one, one)) (announced (firstn 2 os)) /\ valid_datetime (ex_at 30).
Proof.
  split; [eexists; vm_compute; reflexivity|]. split.
  - exists [], [(ex_at 0, (fzero, fzero, fzero), (fzero, fzero, fzero))]. split; [reflexivity|]. split; [intros y []|]. intros y [<-|[]]. vm_compute. reflexivity.
  - repeat split; cbn; lia.
Qed.

(** C39.  Different sites, satellites or days: different files ... *)
Theorem C39_separate : forall dir m m' sat sat' d d', date_ok d -> date_ok d' -> no_slash m -> no_slash m' ->
  result_file dir m sat d = result_file dir m' sat' d' -> m = m' /\ sat = sat' /\ d = d'.
Proof. exact result_file_inj. Qed.
Print Assumptions C39_separate.
(** ... and after a whole run every row of every observation file is in the file of its site,
    satellite and day, provided no two observation files are of the same site and day. *)
Theorem C39_no_loss_partial : forall c js f f' ds, Forall2 job_ok js ds -> write_files c f js = Ok f' ->
  (forall i j ji jj di dj, nth_error js i = Some ji -> nth_error js j = Some jj -> nth_error ds i = Some di -> nth_error ds j = Some dj ->
     i <> j -> marker_of (fst (fst ji)) <> marker_of (fst (fst jj)) \/ di <> dj) ->
  forall i name iv os d sat, nth_error js i = Some (name, iv, os) -> nth_error ds i = Some d -> rows_of sat os <> [] ->
    exists content, fs_get (result_file (oc_dir c) (marker_of name) sat d) f' = Some content /\ file_of_rows c iv (rows_of sat os) content.
Proof. exact all_files. Qed.
Print Assumptions C39_no_loss_partial.
(** Without that proviso the claim is false: the hourly files of one site overwrite each other. *)
Theorem C39_no_loss_refuted : exists js f', 
  map (fun j => fst (fst j)) js = [lit "abcd001a.17o"; lit "abcd001b.17o"] /\ Forall (fun j => job_ok j (2017, 1, 1)%Z) js /\
  write_files ex_cfg [] js = Ok f' /\
  (forall j, In j js -> rows_of (lit "G01") (snd j) <> []) /\
  exists h row, fs_get (result_file (lit "./out") (lit "abcd") (lit "G01") (2017, 1, 1)%Z) f' = Some (h ++ row ++ [ascii_of_nat 10]) /\
    comments h /\ row = lit "        120".
Proof.
  exists [(lit "abcd001a.17o", PInt 30, [ex_pos; WRow (lit "G01") (lit "G01") None (ex_at 0) ex_q]);
          (lit "abcd001b.17o", PInt 30, [ex_pos; WRow (lit "G01") (lit "G01") None (mkDT 2017 1 1 1 0 0 0) ex_q])].
  eexists. split; [reflexivity|]. split.
  { repeat constructor; cbn; try discriminate; try lia.
    all: try (intros s sd nav t q [H|[H|[]]]; try discriminate H; injection H as <- <- <- <- <-; reflexivity).
    all: intros s sd nav t q [H|[H|[]]]; try discriminate H; injection H as <- <- <- <- <-; cbn; intros K; repeat (destruct K as [K|K]; [discriminate|]); exact K. }
  split; [vm_compute; reflexivity|]. split; [intros j [<-|[<-|[]]]; discriminate|].
  exists (concat (map comment_line
    [lit "Created on now"; lit "Sources: abcd001b.17o, None"; lit "Satellite: G01"; lit "Interval: 30"; lit "Sampling interval: 0.0 (not used).";
     lit "Site: abcd"; lit "Position (L, B, H): 0.0, 0.0, 0.0"; lit "Position (X, Y, Z): 0.0, 0.0, 0.0"; lit "datetime format: %H"; lit "Columns: tsn,"; lit "(I11)"])), (lit "        120").
  split; [vm_compute; reflexivity|]. split; [|reflexivity]. eexists. split; [reflexivity|reflexivity].
Qed.
Print Assumptions C39_no_loss_refuted.
