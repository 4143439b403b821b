(** Model of tecs/dio/text.py: the writer of text files. *)
From Verif Require Import Base PyStr PyFloat PyDate PyRepr PyPath M_Common M_Header M_Rec.
Open Scope nat_scope.

Definition xyz := (float * float * float)%type.

(** str() of a value, as format() uses it for '{}' *)
Definition show_val (v : pyval) : str :=
  match v with VInt z => z_str z | VFloat x => repr_float x | VStr s => s end.

(** Configuration the writer uses.  [oc_strftime] is strftime(datetimeFormat) (M_Main takes it from PyStrftime), [oc_now] the text
    of the creation time, not modelled further.  [oc_zeros] tells for which positions sat/common.py:168-188 xyz2lbh_deg gives the ints
    0, 0, 0 (elsewhere in the model these are floats), [oc_sampling] is samplingInterval in microseconds. *)
Record out_cfg := mkOut {
  oc_dir : str; oc_format : rec_format; oc_dtformat : str;
  oc_strftime : datetime -> str; oc_zeros : xyz -> bool; oc_now : str; oc_sampling : option Z }.

(** text.py:77-82: entry of a satellite; the file object is open exactly when 'fout' is set, so
    'fobj' is not kept. *)
Record satst := mkSat { s_def : str; s_nav : option str; s_fout : option str }.

(** text.py:60-85: the writer of one observation file *)
Record writer := mkWriter {
  w_obs : str; w_interval : pynum; w_path : option str;
  w_sats : list (str * satst); w_xyz : list (datetime * xyz); w_lbh : list (datetime * xyz) }.
Definition new_writer (filename : str) (iv : pynum) : writer := mkWriter filename iv None [] [] [].

(** text.py:98 *)
Definition marker_of (filename : str) : str := firstn 4 (basename filename).

(** text.py:225-243 with sat_def and nav (main calls it once per satellite) *)
Definition update_satellite (w : writer) (sat sat_def : str) (nav : option str) : writer :=
  let old := match dict_get seqb sat (w_sats w) with Some s => s_fout s | None => None end in
  mkWriter (w_obs w) (w_interval w) (w_path w) (dict_set seqb sat (mkSat sat_def nav old) (w_sats w)) (w_xyz w) (w_lbh w).
(** text.py:245-267 *)
Definition update_xyz (w : writer) (t : datetime) (p : xyz) : writer :=
  mkWriter (w_obs w) (w_interval w) (w_path w) (w_sats w) (dict_set dt_eqb t p (w_xyz w)) (w_lbh w).
Definition update_lbh (w : writer) (t : datetime) (p : xyz) : writer :=
  mkWriter (w_obs w) (w_interval w) (w_path w) (w_sats w) (w_xyz w) (dict_set dt_eqb t p (w_lbh w)).
(** text.py:299-311 xyz_latest, lbh_latest: the entry of the greatest key; IndexError when empty *)
Fixpoint latest_from (t : datetime) (p : xyz) (d : list (datetime * xyz)) : xyz :=
  match d with
  | [] => p
  | (t', p') :: r => if dt_ltb t t' then latest_from t' p' r else latest_from t p r
  end.
Definition latest (d : list (datetime * xyz)) : res xyz :=
  match d with [] => Err IndexError | (t, p) :: r => Ok (latest_from t p r) end.

(** "x, y, z" *)
Definition show3 (p : xyz) : str :=
  let '(x, y, z) := p in
  show_val (VFloat x) ++ lit ", " ++ show_val (VFloat y) ++ lit ", " ++ show_val (VFloat z).
(** text.py:129: str(recFields) without parentheses and quotes *)
Fixpoint join_comma (l : list str) : str :=
  match l with [] => [] | [a] => a | a :: r => a ++ lit ", " ++ join_comma r end.
Definition columns_text (fields : list str) : str :=
  match fields with [a] => a ++ lit "," | _ => join_comma fields end.

Definition comment_line (s : str) : str := lit "# " ++ s ++ [nl].
Definition show_num (v : pynum) : str :=
  show_val (match v with PInt n => VInt n | PFloat f => VFloat f end).
(** text.py:68-74: an int interval (RINEX 2.0) is compared as a float *)
Definition sampling_text (c : out_cfg) (iv : pynum) : str :=
  let s := match oc_sampling c with Some u => if (u =? 0)%Z then fzero else total_seconds u | None => fzero end in
  let x := match iv with PInt z => float_of_Z z | PFloat f => f end in
  if fltb s x then show_val (VFloat s) ++ lit " (not used)." else show_val (VFloat s).
(** text.py:118-156: the comment lines *)
Definition header_text (c : out_cfg) (w : writer) (s : satst) : res str :=
  do p <- latest (w_xyz w);
  do l <- latest (w_lbh w);
  Ok (concat (map comment_line
    [lit "Created on " ++ oc_now c;
     lit "Sources: " ++ w_obs w ++ lit ", " ++ (match s_nav s with Some n => n | None => lit "None" end);
     lit "Satellite: " ++ s_def s;
     lit "Interval: " ++ show_num (w_interval w);
     lit "Sampling interval: " ++ sampling_text c (w_interval w);
     lit "Site: " ++ marker_of (w_obs w);
     lit "Position (L, B, H): " ++ (if oc_zeros c p then lit "0, 0, 0" else show3 l);
     lit "Position (X, Y, Z): " ++ show3 p;
     lit "datetime format: " ++ oc_dtformat c;
     lit "Columns: " ++ columns_text (rf_fields (oc_format c));
     rf_fortran (oc_format c)])).

(** text.py:105-107, 113-114: directory and name *)
Definition out_dir (c : out_cfg) (filename : str) (t : datetime) : str :=
  path_join (path_join (path_join (oc_dir c) (strf_Y t)) (strf_j t)) (marker_of filename).
Definition out_name (filename sat : str) (t : datetime) : str :=
  marker_of filename ++ lit "_" ++ sat ++ lit "_" ++ strf_j t ++ lit "_" ++ from 2 (strf_Y t) ++ lit ".dat".

(** text.py:87-201 write_data: KeyError for a satellite without entry *)
Definition write_data (c : out_cfg) (f : fs) (w : writer) (sat : str) (t : datetime) (q : quantity -> option pyval)
  : res (fs * writer) :=
  let path := match w_path w with Some p => p | None => out_dir c (w_obs w) t end in
  let w := mkWriter (w_obs w) (w_interval w) (Some path) (w_sats w) (w_xyz w) (w_lbh w) in
  do s <- of_option KeyError (dict_get seqb sat (w_sats w));
  do (f, w, out) <-
    (match s_fout s with
     | Some out => Ok (f, w, out)
     | None =>
       let out := path_join path (out_name (w_obs w) sat t) in
       let w := mkWriter (w_obs w) (w_interval w) (w_path w) (dict_set seqb sat (mkSat (s_def s) (s_nav s) (Some out)) (w_sats w)) (w_xyz w) (w_lbh w) in
       do h <- header_text c w s;
       Ok (fs_append out h (fs_truncate out f), w, out)
     end);
  do row <- row_text (oc_format c) (oc_strftime c) (w_interval w) t q;
  Ok (fs_append out row f, w).

(** text.py:203-223 end_up *)
Definition end_up (w : writer) : writer :=
  mkWriter (w_obs w) (w_interval w) (w_path w) [] (w_xyz w) (w_lbh w).

(** What main does with a writer: the calls for one observation file, in order. *)
Inductive wop :=
| WPos (t : datetime) (p l : xyz)                          (* update_xyz, update_lbh *)
| WRow (sat sat_def : str) (nav : option str) (t : datetime) (q : quantity -> option pyval).
(** __main__.py:269-270, 421-423 and 689-696 *)
Definition do_op (c : out_cfg) (st : fs * writer) (o : wop) : res (fs * writer) :=
  let '(f, w) := st in
  match o with
  | WPos t p l => Ok (f, update_lbh (update_xyz w t p) t l)
  | WRow sat sd nav t q =>
    let w := match dict_get seqb sat (w_sats w) with Some _ => w | None => update_satellite w sat sd nav end in
    write_data c f w sat t q
  end.
Fixpoint do_ops (c : out_cfg) (st : fs * writer) (os : list wop) : res (fs * writer) :=
  match os with [] => Ok st | o :: r => do st <- do_op c st o; do_ops c st r end.
(** one observation file: a new writer, the calls, end_up *)
Definition write_file (c : out_cfg) (f : fs) (filename : str) (iv : pynum) (os : list wop) : res fs :=
  do (f, w) <- do_ops c (f, new_writer filename iv) os; Ok f.
(** all observation files, one after the other *)
Fixpoint write_files (c : out_cfg) (f : fs) (js : list (str * pynum * list wop)) : res fs :=
  match js with
  | [] => Ok f
  | (name, iv, os) :: r => do f <- write_file c f name iv os; write_files c f r
  end.
