(** Specification vocabulary for the output files: where the rows of a satellite go and what the
    file must contain. *)
From Verif Require Import Base PyStr PyFloat PyDate PyPath S_Text S_Time M_Header M_Rec M_Text.
Open Scope nat_scope.

(** a directory name followed by '/' unless it has one (or is empty) *)
Definition with_slash (dir : str) : str :=
  match dir with [] => [] | _ => if ends_slash dir then dir else dir ++ lit "/" end.
(** year in digits; day of the year in three digits *)
Definition year_text (d : date) : str := let '(y, _, _) := d in nat_str y.
Definition yday_text (d : date) : str := let '(y, m, dd) := d in pad_left "0"%char 3 (nat_str (civil_day y m dd - civil_day y 1 1 + 1)).
(** outDir/YYYY/DDD/site/site_sat_DDD_YY.dat *)
Definition result_file (dir site sat : str) (d : date) : str :=
  with_slash dir ++ year_text d ++ lit "/" ++ yday_text d ++ lit "/" ++ site ++ lit "/" ++
  site ++ lit "_" ++ sat ++ lit "_" ++ yday_text d ++ lit "_" ++ from 2 (year_text d) ++ lit ".dat".

Definition no_slash (s : str) : Prop := ~ In "/"%char s.
Definition date_ok (d : date) : Prop := let '(y, m, dd) := d in valid_date y m dd.

(** the rows requested for a satellite, in order *)
Fixpoint rows_of (sat : str) (os : list wop) : list (datetime * (quantity -> option pyval)) :=
  match os with
  | [] => []
  | WRow s _ _ t q :: r => (if seqb sat s then [(t, q)] else []) ++ rows_of sat r
  | WPos _ _ _ :: r => rows_of sat r
  end.
(** all rows are of day [d] *)
Definition all_of_day (d : date) (os : list wop) : Prop :=
  forall s sd nav t q, In (WRow s sd nav t q) os -> dt_date t = d.
(** comment lines: each starts with "# " and ends with a newline *)
Definition comments (h : str) : Prop :=
  exists ls, h = concat (map (fun l => lit "# " ++ l ++ [ascii_of_nat 10]) ls) /\ List.length ls = 11.

(** contents of a satellite's file: the comment lines, then one row per requested row, in order *)
Definition file_of_rows (c : out_cfg) (iv : pynum) (rows : list (datetime * (quantity -> option pyval))) (content : str) : Prop :=
  exists h rs, content = h ++ concat rs /\ comments h /\
    Forall2 (fun tq r => row_text (oc_format c) (oc_strftime c) iv (fst tq) (snd tq) = Ok r) rows rs.

(** ** the comment lines *)
(** the positions announced, in order *)
Fixpoint announced (os : list wop) : list (datetime * xyz * xyz) :=
  match os with
  | [] => []
  | WPos t p l :: r => (t, p, l) :: announced r
  | WRow _ _ _ _ _ :: r => announced r
  end.
(** [x] has the greatest time; of several with that time it is the last one announced *)
Definition newest (x : datetime * xyz * xyz) (anns : list (datetime * xyz * xyz)) : Prop :=
  let time y := instant (fst (fst y)) in
  exists before after, anns = before ++ x :: after /\
    (forall y, In y before -> (time y <= time x)%Z) /\ (forall y, In y after -> (time y < time x)%Z).
Fixpoint commas (l : list str) : str := match l with [] => [] | [a] => a | a :: r => a ++ lit ", " ++ commas r end.
Definition three (p : xyz) : str := let '(x, y, z) := p in commas (map (fun v => show_val (VFloat v)) [x; y; z]).
(** the sampling interval in seconds, and a mark if the records are farther apart than that *)
Definition sampling_note (c : out_cfg) (iv : pynum) : str :=
  let s := match oc_sampling c with None | Some 0%Z => fzero | Some u => total_seconds u end in
  show_val (VFloat s) ++ (if fltb s (match iv with PInt z => float_of_Z z | PFloat f => f end) then lit " (not used)." else []).
(** the eleven comment lines of the file of a satellite defined by [sat_def], from observation file [name] and
    navigation file [nav], for position [p] (Cartesian) and [l] (geodetic) *)
Definition comment_lines (c : out_cfg) (name : str) (iv : pynum) (sat_def : str) (nav : option str) (p l : xyz) : list str :=
  [lit "Created on " ++ oc_now c;
   lit "Sources: " ++ commas [name; match nav with Some n => n | None => lit "None" end];
   lit "Satellite: " ++ sat_def;
   lit "Interval: " ++ show_val (match iv with PInt n => VInt n | PFloat x => VFloat x end);
   lit "Sampling interval: " ++ sampling_note c iv;
   lit "Site: " ++ firstn 4 (basename name);
   lit "Position (L, B, H): " ++ (if oc_zeros c p then lit "0, 0, 0" else three l);
   lit "Position (X, Y, Z): " ++ three p;
   lit "datetime format: " ++ oc_dtformat c;
   lit "Columns: " ++ commas (rf_fields (oc_format c)) ++ (if List.length (rf_fields (oc_format c)) =? 1 then lit "," else []);
   rf_fortran (oc_format c)].
Definition comment_text (ls : list str) : str := concat (map (fun l => lit "# " ++ l ++ [ascii_of_nat 10]) ls).
