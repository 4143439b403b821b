(** Model of tecs/rinex/header.py and of ObservationData._parse_header (tecs/rinex/basic.py). *)
From Verif Require Import Base PyStr PyFloat PyDate M_Common.
Open Scope nat_scope.

(** The VERSION class attributes: v2/o.py:60,628,641, v3/o.py, v2/n.py, v3/n.py. *)
Inductive ver := V20 | V21 | V211 | V300 | V301 | V302 | V303.
Definition ver_lt3 (v : ver) : bool := match v with V20 | V21 | V211 => true | _ => false end.
Definition ver_is20 (v : ver) : bool := match v with V20 => true | _ => false end.
Definition ver_ge302 (v : ver) : bool := match v with V302 | V303 => true | _ => false end.

(** Python number stored by Interval.value: int for version 2.0, float otherwise. *)
Inductive pynum := PInt (z : Z) | PFloat (f : float).

(** The values of the header labels of an ObservationData object
    (basic.py:122-127, header.py; None before the label is set). *)
Record hdr := mkHdr {
  h_ver : option (float * ascii * ascii);
  h_tofo : option (datetime * str);
  h_xyz : float * float * float;
  h_interval : option pynum }.

(** header.py:46-52,148: initial values. *)
Definition hdr0 : hdr := mkHdr None None (fzero, fzero, fzero) None.

(** header.py:81-90 RinexVersionType.value setter. *)
Definition set_ver (v : ver) (line : str) : res (float * ascii * ascii) :=
  do rv <- py_float (slice 0 9 line);
  do ft <- char_at 20 line;
  do ss <- char_at 40 line;
  Ok (rv, ft, if ver_lt3 v && ceqb ss " "%char then "G"%char else ss).

(** header.py:111-133 TimeOfFirstObs.value setter. *)
Definition set_tofo (v : ver) (line : str) : res (datetime * str) :=
  do e <- mapM (fun i => py_int (slice i (i + 6) line)) [0; 6; 12; 18; 24];
  do sec <- py_float (if ver_is20 v then slice 30 43 line else slice 30 44 line);
  do (s, us) <- sec2sec_ms sec;
  match e with
  | [y; mo; d; h; mi] =>
    do t <- validate_epoch y mo d h mi s us;
    let ts := slice 48 51 line in
    Ok (t, if seqb ts (lit "   ") then lit "GPS" else ts)
  | _ => Err ValueError
  end.

(** header.py:155-159 ApproxPositionXYX.value setter. *)
Definition set_xyz (line : str) : res (float * float * float) :=
  do x <- py_float (slice 0 14 line);
  do y <- py_float (slice 14 28 line);
  do z <- py_float (slice 28 42 line);
  Ok (x, y, z).

(** header.py:179-183 Interval.value setter. *)
Definition set_interval (v : ver) (line : str) : res pynum :=
  if ver_is20 v then do z <- py_int (slice 0 6 line); Ok (PInt z)
  else do f <- py_float (slice 0 10 line); Ok (PFloat f).

Inductive hlabel := HVer | HTofo | HXyz | HInterval.
Definition hlabel_text (l : hlabel) : str :=
  match l with
  | HVer => lit "RINEX VERSION / TYPE"       (* header.py:73 *)
  | HTofo => lit "TIME OF FIRST OBS"         (* header.py:104 *)
  | HXyz => lit "APPROX POSITION XYZ"        (* header.py:147 *)
  | HInterval => lit "INTERVAL"              (* header.py:172 *)
  end.
Definition hlabel_eqb (a b : hlabel) : bool :=
  match a, b with
  | HVer, HVer | HTofo, HTofo | HXyz, HXyz | HInterval, HInterval => true
  | _, _ => false
  end.

(** line[60:].rstrip() *)
Definition line_label (line : str) : str := rstrip (from 60 line).

(** i.value = line *)
Definition set_item (v : ver) (i : hlabel) (line : str) (h : hdr) : res hdr :=
  match i with
  | HVer => do x <- set_ver v line; Ok (mkHdr (Some x) (h_tofo h) (h_xyz h) (h_interval h))
  | HTofo => do x <- set_tofo v line; Ok (mkHdr (h_ver h) (Some x) (h_xyz h) (h_interval h))
  | HXyz => do x <- set_xyz line; Ok (mkHdr (h_ver h) (h_tofo h) x (h_interval h))
  | HInterval => do x <- set_interval v line;
                 Ok (mkHdr (h_ver h) (h_tofo h) (h_xyz h) (Some x))
  end.

(** basic.py:132-138: the loop over the lines with the shrinking list of items.
    Partial updates made before an exception are not tracked: no caller uses the object
    after its _parse_header raised. *)
Fixpoint parse_header_loop (v : ver) (items : list hlabel) (lines : list str) (h : hdr) : res hdr :=
  match lines with
  | [] => Ok h
  | line :: rest =>
    match find (fun i => seqb (hlabel_text i) (line_label line)) items with
    | Some i =>
      do h' <- set_item v i line h;
      parse_header_loop v (filter (fun j => negb (hlabel_eqb i j)) items) rest h'
    | None => parse_header_loop v items rest h
    end
  end.

(** basic.py:129-138 ObservationData._parse_header. *)
Definition parse_header (v : ver) (lines : list str) (h : hdr) : res hdr :=
  parse_header_loop v [HVer; HTofo; HXyz; HInterval] lines h.

Definition end_of_header : str := lit "END OF HEADER".

(** header lines up to (excluding) the end-of-header line, and the lines after it
    (basic.py:53-59, v3/o.py:64-69); [is_end] is the stop criterion. *)
Fixpoint split_header (is_end : str -> bool) (lines : list str) : list str * list str :=
  match lines with
  | [] => ([], [])
  | l :: r => if is_end l then ([], r)
              else let '(h, b) := split_header is_end r in (l :: h, b)
  end.
(** line[60:].rstrip() == 'END OF HEADER' *)
Definition is_end_label (l : str) : bool := seqb (line_label l) end_of_header.
