(** Model of tecs/rinex/v2/o.py: the RINEX 2 observation reader. *)
From Verif Require Import Base PyStr PyFloat PyDate M_Common M_Header.
Open Scope nat_scope.

(** (value or None, LLI, signal strength) *)
Definition obsval := (option float * Z * Z)%type.

(** v2/o.py:103-120: val[k] as a digit, 0 when missing or not a digit. *)
Definition digit_at (k : nat) (s : str) : Z :=
  match nth_error s k with
  | Some c => if is_digit c then digit_val c else 0%Z
  | None => 0%Z
  end.

(** v2/o.py:71-127 _get_val with rlen = REC_LEN = 16. *)
Definition get_val (rec : str) (i : nat) : res obsval :=
  let val := slice i (i + 16) rec in
  match val with
  | [] => Ok (None, 0%Z, 0%Z)
  | _ =>
    if seqb val (spaces (List.length val)) then Ok (None, 0%Z, 0%Z)
    else
      do obs <- catch (py_float (slice 0 14 val)) [ValueError] (Err RinexError);
      let val' := from 14 val in
      Ok (Some obs, digit_at 0 val', digit_at 1 val')
  end.

(** v2/o.py:129-155 _get_prn. *)
Definition get_prn (rec : str) (i : nat) : res str :=
  match slice i (i + 3) rec with
  | [] => Err RinexError
  | c :: num =>
    let cur_sys := upper_c c in
    let cur_sys := if ceqb cur_sys " "%char then "G"%char else cur_sys in
    do n <- catch (py_int num) [ValueError] (Err RinexError);
    Ok (cur_sys :: fmt_0d 2 n)
  end.

(** [n] satellites of one line, starting in column 32 (v2/o.py:413,423,432,438). *)
Definition get_prns (rec : str) (n : nat) : res (list str) :=
  mapM (fun k => get_prn rec (32 + 3 * k)) (seq 0 n).

(** basic.py:97-119 _next_rec. *)
Definition next_rec (lines : list str) : res (str * list str) :=
  match lines with
  | [] => Err RinexError
  | l :: r => Ok (rstrip l, r)
  end.

(** v2/o.py:419-425: [k] continuation lines with 12 satellites each. *)
Fixpoint get_prn_lines (k : nat) (lines : list str) : res (list str * list str) :=
  match k with
  | O => Ok ([], lines)
  | S k' =>
    do (rec, r) <- next_rec lines;
    do ps <- get_prns rec 12;
    do (qs, r') <- get_prn_lines k' r;
    Ok (ps ++ qs, r')
  end.

(** v2/o.py:402-445: the satellite list; [sat_num > 12] reads continuation lines. *)
Definition read_prns (epoch : str) (sat_num : Z) (lines : list str) : res (list str * list str) :=
  do (prns, r) <-
    (if (12 <? sat_num)%Z then
       do ps <- get_prns epoch 12;
       do (qs, r) <- get_prn_lines (Z.to_nat (sat_num / 12 - 1)) lines;
       let rest := (sat_num - sat_num / 12 * 12)%Z in
       if (rest =? 0)%Z then Ok (ps ++ qs, r)
       else
         do (rec, r') <- next_rec r;
         do ts <- get_prns rec (Z.to_nat rest);
         Ok (ps ++ qs ++ ts, r')
     else
       do ps <- get_prns epoch (Z.to_nat sat_num);
       Ok (ps, lines));
  if (sat_num =? Z.of_nat (List.length prns))%Z then Ok (prns, r) else Err RinexError.

(** v2/o.py:367-386: date of the epoch record. *)
Definition epoch_date (epoch : str) : res datetime :=
  catch
    (do e <- mapM (fun i => py_int (slice i (i + 3) epoch)) [0; 3; 6; 9; 12];
     do sec <- py_float (slice 15 26 epoch);
     do (s, us) <- split_sec 5 sec;
     match e with
     | [y; mo; d; h; mi] => validate_epoch y mo d h mi s us
     | _ => Err ValueError
     end)
    [IndexError; ValueError] (Err RinexError).

Inductive epoch_rec :=
| EEvent (flag num : Z)                        (* v2/o.py:354-365 *)
| EData (ep : datetime) (flag : Z) (prns : list str).

(** v2/o.py:327-447 read_epoch; [lines] are the following lines of the file.
    Simplified: the receiver clock offset (388-392) is not computed, because its exceptions are
    all caught and its value is never used. *)
Definition read_epoch (epoch : str) (lines : list str) : res (epoch_rec * list str) :=
  do flag <- catch (py_int (slice 26 29 epoch)) [ValueError] (Err RinexError);
  if (1 <? flag)%Z then
    do n <- catch (py_int (slice 29 32 epoch)) [ValueError] (Err RinexError);
    Ok (EEvent flag n, lines)
  else
    do ep <- epoch_date epoch;
    do n <- catch (py_int (slice 29 32 epoch)) [ValueError] (Err RinexError);
    do (prns, r) <- read_prns epoch n lines;
    Ok (EData ep flag prns, r).

(** v2/o.py:596-620 _det_lines_per_rec.  Simplified: math.ceil(obs_num / 5.) is computed in
    integers (equal for every obs_num that a header of 6 digits can declare). *)
Fixpoint lines_per_rec_loop (k : nat) (n : Z) : list nat :=
  match k with
  | O => []
  | S k' => let n' := (n - 5)%Z in
            (if (n' <? 0)%Z then Z.to_nat (n' + 5) else 5) :: lines_per_rec_loop k' n'
  end.
Definition lines_per_rec (obs_num : nat) : list nat :=
  lines_per_rec_loop ((obs_num + 4) / 5) (Z.of_nat obs_num).

(** v2/o.py:522-532: the observation lines of one satellite. *)
Fixpoint read_obs_lines (lpr : list nat) (lines : list str) : res (list obsval * list str) :=
  match lpr with
  | [] => Ok ([], lines)
  | n :: lpr' =>
    do (rec, r) <- next_rec lines;
    do vs <- mapM (fun k => get_val rec (16 * k)) (seq 0 n);
    do (ws, r') <- read_obs_lines lpr' r;
    Ok (vs ++ ws, r')
  end.

Definition record := list (str * obsval).

(** v2/o.py:534-539: dict of type -> value; IndexError if there are more values than types. *)
Fixpoint make_record (types : list str) (data : list obsval) (acc : record) : res record :=
  match data with
  | [] => Ok acc
  | v :: data' =>
    match types with
    | t :: types' => make_record types' data' (dict_set seqb t v acc)
    | [] => Err IndexError
    end
  end.

(** Mutable part of the reader object that the records' consumer can see. *)
Record obj2 := mkObj2 { o_prec : option datetime; o_hdr : hdr }.

(** A yielded tuple (epoch, satellite, record). *)
Definition orec := (datetime * str * record)%type.

(** How a generator ended. *)
Inductive gend := GStop | GRaise (e : exn).

(** Everything a generator does: what it yields (with the object as seen at that moment),
    how it ends, and the final object. *)
Definition trace2 := (list (orec * obj2) * gend * obj2)%type.

(** v2/o.py:518-548: the satellites of one epoch. *)
Fixpoint read_sats (types : list str) (ep : datetime) (prns : list str) (o : obj2)
         (lines : list str) : list (orec * obj2) * res (list str) :=
  match prns with
  | [] => ([], Ok lines)
  | prn :: prns' =>
    match read_obs_lines (lines_per_rec (List.length types)) lines with
    | Err e => ([], Err e)
    | Ok (data, r) =>
      match make_record types data [] with
      | Err e => ([], Err e)
      | Ok rec =>
        let '(ys, e) := read_sats types ep prns' o r in
        if odt_eqb (Some ep) (o_prec o) then (ys, e)
        else (((ep, prn, rec), o) :: ys, e)
      end
    end
  end.

(** [k] following lines, each through _next_rec (v2/o.py:478-481, 489-492, 505-509). *)
Fixpoint take_recs (k : nat) (lines : list str) : res (list str * list str) :=
  match k with
  | O => Ok ([], lines)
  | S k' =>
    do (rec, r) <- next_rec lines;
    do (rs, r') <- take_recs k' r;
    Ok (rec :: rs, r')
  end.

(** v2/o.py:449-550 read_records.  Log messages are not modelled. *)
Fixpoint read_records (fuel : nat) (v : ver) (types : list str) (lines : list str) (o : obj2)
  : trace2 :=
  match fuel with
  | O => ([], GRaise OutOfFuel, o)
  | S fuel' =>
    match lines with
    | [] => ([], GStop, o)
    | line :: rest =>
      match read_epoch (rstrip line) rest with
      | Err e => ([], GRaise e, o)
      | Ok (EEvent flag num, r) =>
        match take_recs (Z.to_nat num) r with
        | Err e => ([], GRaise e, o)
        | Ok (ls, r') =>
          if (flag =? 3)%Z || (flag =? 4)%Z then
            match parse_header v ls (o_hdr o) with
            | Err e => ([], GRaise e, o)
            | Ok h => read_records fuel' v types r' (mkObj2 (o_prec o) h)
            end
          else read_records fuel' v types r' o
        end
      | Ok (EData ep flag prns, r) =>
        match read_sats types ep prns o r with
        | (ys, Err e) => (ys, GRaise e, o)
        | (ys, Ok r') =>
          let '(ys', e, o') := read_records fuel' v types r' (mkObj2 (Some ep) (o_hdr o)) in
          (ys ++ ys', e, o')
        end
      end
    end
  end.

(** The generator started on the lines [lines]; one unit of fuel per line is always enough
    (see P_Obs2.read_records_fuel). *)
Definition run_records (v : ver) (types : list str) (lines : list str) (o : obj2) : trace2 :=
  read_records (S (List.length lines)) v types lines o.

(** v2/o.py:180-197: the loop of get_interval over the yielded records: collects up to [n]
    differences.  Result: the deltas and the object at the moment the generator is left. *)
Fixpoint collect_deltas (n : nat) (epoch : option datetime) (ys : list (orec * obj2))
         (ge : gend) (o_end : obj2) : res (list float * obj2) :=
  match ys with
  | [] =>
    match ge with
    | GStop => Ok ([], o_end)
    | GRaise e => Err e          (* RinexError is re-raised as RinexError: 199-201 *)
    end
  | ((ep, _, _), o) :: ys' =>
    match epoch with
    | None => collect_deltas n (Some ep) ys' ge o_end
    | Some e0 =>
      if dt_eqb e0 ep then collect_deltas n epoch ys' ge o_end
      else
        let dt := dt_sub ep e0 in
        if (dt =? 0)%Z then collect_deltas n (Some ep) ys' ge o_end
        else
          match n with
          | O => Ok ([], o)        (* not reached: n starts positive *)
          | S O => Ok ([total_seconds dt], o)
          | S n' => do (ds, o') <- collect_deltas n' (Some ep) ys' ge o_end;
                    Ok (total_seconds dt :: ds, o')
          end
    end
  end.

(** v2/o.py:217-228: dictionary of counts, stable sort by decreasing count, first key:
    the first key (in order of first occurrence) with the greatest count. *)
Definition count_f (x : float) (l : list float) : nat := List.length (filter (feqb x) l).
Fixpoint best_key (l : list float) (ks : list float) : option float :=
  match ks with
  | [] => None
  | k :: ks' =>
    match best_key l ks' with
    | None => Some k
    | Some b => if count_f b l <=? count_f k l then Some k else Some b
    end
  end.
(** keys of dt_dict in insertion order *)
Fixpoint nub_f (seen : list float) (l : list float) : list float :=
  match l with
  | [] => []
  | x :: l' => if existsb (feqb x) seen then nub_f seen l' else x :: nub_f (x :: seen) l'
  end.

(** v2/o.py:157-236 get_interval, started on the lines [body] after the header.
    With no difference found (dt is None) RinexError (203-206). *)
Definition get_interval (n : nat) (v : ver) (types : list str) (body : list str) (o : obj2)
  : res (float * obj2) :=
  let '(ys, ge, o_end) := run_records v types body o in
  do (ds, o') <- collect_deltas n None ys ge o_end;
  match best_key ds (nub_f [] ds) with
  | Some x => Ok (x, o')
  | None => Err RinexError
  end.

(** v2/o.py:266-280 get_o_types (the regular expression only triggers a warning). *)
Definition get_o_types (r : str) (n : nat) : list str :=
  map (fun k => let c := slice (6 * k) (6 * k + 6) r in
                (* c[-2:] *) from (List.length c - 2) c) (seq 0 n).

(** v2/o.py:300-302 *)
Fixpoint o_types_lines (k : nat) (header : list str) : res (list str) :=
  match k with
  | O => Ok []
  | S k' => match header with
            | [] => Err IndexError
            | l :: r => do ts <- o_types_lines k' r; Ok (get_o_types (slice 6 60 l) 9 ++ ts)
            end
  end.

Definition tobs_label : str := lit "# / TYPES OF OBSERV".

(** v2/o.py:238-320 set_obs_num_types.  RE_TOBS.match(rec) (anything in front) means that the
    label occurs anywhere in the line. *)
Fixpoint set_obs_num_types (header : list str) : res (list str) :=
  match header with
  | [] => Ok []
  | rec :: rest =>
    if negb (contains tobs_label rec) then set_obs_num_types rest
    else
      do n <- catch (py_int (slice 0 6 rec)) [ValueError; IndexError] (Err RinexError);
      do ts <-
        (if (9 <? n)%Z then
           let full := Z.to_nat (n / 9) in
           do ts <- o_types_lines full header;
           if (n mod 9 =? 0)%Z then Ok ts
           else
             let rest_num := Z.to_nat (n - n / 9 * 9) in
             match nth_error header full with
             | None => Err IndexError
             | Some l => Ok (ts ++ get_o_types (slice 6 (6 + rest_num * 6) l) rest_num)
             end
         else
           let m := Z.to_nat n in Ok (get_o_types (slice 6 (6 + m * 6) rec) m));
      if (n =? Z.of_nat (List.length ts))%Z then Ok ts else Err RinexError
  end.

(** An opened reader: declared types, object state, lines left to read. *)
Record reader2 := mkReader2 { r_types : list str; r_obj : obj2; r_rest : list str }.

(** v2/o.py:66,570: RE_END_HEADER.match(rec) *)
Definition is_end_regex (l : str) : bool := contains end_of_header l.

(** v2/o.py:552-594 __init__. *)
Definition open2 (v : ver) (lines : list str) : res reader2 :=
  let '(header, body) := split_header is_end_regex lines in
  do types <- set_obs_num_types header;
  do h <- parse_header v header hdr0;
  do (dt, o) <- get_interval 10 v types body (mkObj2 None h);
  do iv <- set_interval v (fmt_wf 10 3 dt);
  let h' := o_hdr o in
  let o' := mkObj2 (o_prec o) (mkHdr (h_ver h') (h_tofo h') (h_xyz h') (Some iv)) in
  (* v2/o.py:230-234: seek(0) and skip the header again *)
  Ok (mkReader2 types o' (snd (split_header is_end_label lines))).

(** All records of an opened file. *)
Definition records2 (v : ver) (r : reader2) : trace2 :=
  run_records v (r_types r) (r_rest r) (r_obj r).
