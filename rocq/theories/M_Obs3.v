(** Model of tecs/rinex/v3/o.py (the RINEX 3 observation reader) and of
    tecs/rinex/header.py SysNObsTypes. *)
From Verif Require Import Base PyStr PyFloat PyDate M_Common M_Header M_Obs2.
Open Scope nat_scope.

(** header.py:194-241: value of SYS / # / OBS TYPES, system -> observation types *)
Definition obs_table := list (str * list str).
Definition sno_label : str := lit "SYS / # / OBS TYPES".          (* header.py:197 *)
Definition sys_bds : str := lit "C".                              (* label.py SAT_SYS_BDS *)

(** header.py:209-215: joins continuation lines to the line before; the list is kept reversed.
    sys_n_obs[-1] of an empty list is an IndexError. *)
Fixpoint join_lines (acc : list str) (ls : list str) : res (list str) :=
  match ls with
  | [] => Ok (rev acc)
  | [] :: r => join_lines acc r
  | line :: r =>
    if isspace (slice 0 6 line) then
      match acc with
      | [] => Err IndexError
      | a :: acc' => join_lines ((a ++ slice 7 60 line) :: acc') r
      end
    else join_lines (slice 0 60 line :: acc) r
  end.

(** header.py:226-229: BeiDou band 1; t[1] of a shorter code is an IndexError. *)
Definition fix_bds (t : str) : res str :=
  do c <- char_at 1 t;
  Ok (if ceqb c "1"%char then replace_c "1"%char "2"%char t else t).

(** header.py:217-241: one joined line. *)
Definition add_sno (v : ver) (sno : str) (tab : obs_table) : res obs_table :=
  match split_ws sno with
  | sys :: cnt :: types =>
    do n <- py_int cnt;
    do types' <- (if ver_ge302 v && seqb sys sys_bds then mapM fix_bds types else Ok types);
    if negb (Z.of_nat (List.length types') =? n)%Z then Err AssertionError
    else if dict_mem seqb sys tab then Err HeaderError
    else Ok (dict_set seqb sys types' tab)
  | _ => Err IndexError
  end.
Fixpoint add_snos (v : ver) (snos : list str) (tab : obs_table) : res obs_table :=
  match snos with
  | [] => Ok tab
  | s :: r => do tab' <- add_sno v s tab; add_snos v r tab'
  end.

(** header.py:204-241 SysNObsTypes.value setter. *)
Definition set_sno (v : ver) (header_slice : str) (tab : obs_table) : res obs_table :=
  do snos <- join_lines [] (split_on "010"%char header_slice);
  add_snos v snos tab.

(** The reader object: header values and observation types. *)
Record obj3 := mkObj3 { o3_hdr : hdr; o3_tab : obs_table }.

(** v3/o.py:164-174 _parse_header (calls basic.py:129-138).  As in M_Header, partial updates before an
    exception are not tracked: the exception leaves the reader. *)
Definition parse_header3 (v : ver) (lines : list str) (o : obj3) : res obj3 :=
  do h <- parse_header v lines (o3_hdr o);
  do tab <- set_sno v (concat (filter (fun l => seqb sno_label (line_label l)) lines)) (o3_tab o);
  Ok (mkObj3 h tab).

(** timedelta(0, s, us): days beyond 999999999 are an OverflowError *)
Definition timedelta_ok (s us : Z) : res unit :=
  let days := ((s * us_per_sec + us) / us_per_day)%Z in
  if (Z.abs days <=? 999999999)%Z then Ok tt else Err OverflowError.

(** v3/o.py:207-217: the date, None when malformed *)
Definition epoch3_date (rec : str) : res (option datetime) :=
  catch
    (do sec <- py_float (slice 18 29 rec);
     do (s, us) <- sec2sec_ms sec;
     do y <- py_int (slice 1 6 rec);
     do e <- mapM (fun i => py_int (slice i (i + 3) rec)) [6; 9; 12; 15];
     match e with
     | [mo; d; h; mi] => do t <- validate_epoch y mo d h mi s us; Ok (Some t)
     | _ => Err ValueError
     end)
    [ValueError] (Ok None).

(** v3/o.py:176-239 _parse_epoch_record: epoch, flag, number of satellites.  The clock offset is only
    computed for its exceptions: no caller uses its value. *)
Definition parse_epoch3 (rec : str) : res (option datetime * Z * Z) :=
  do c0 <- char_at 0 rec;
  if negb (ceqb c0 ">"%char) then Err RinexError
  else
    do ep <- epoch3_date rec;
    do flag <- catch (do c <- char_at 31 rec; py_int [c]) [IndexError; ValueError] (Err RinexError);
    do n <- catch (py_int (slice 32 35 rec)) [ValueError] (Err RinexError);
    do _ <- catch (do sec <- py_float (from 42 rec); do (s, us) <- sec2sec_ms sec; timedelta_ok s us)
                  [ValueError] (Ok tt);
    Ok (ep, flag, n).

(** v3/o.py:277-303: one observation of sixteen columns (blank: (0, 0, 0); the integer 0 is modelled
    as the float 0.0). *)
Definition get_val3 (chunk : str) : obsval :=
  match chunk with
  | [] => (Some fzero, 0%Z, 0%Z)
  | _ =>
    if isspace chunk then (Some fzero, 0%Z, 0%Z)
    else
      let val := slice 0 14 chunk in
      let f := match val with
               | [] => fzero
               | _ => if isspace val then fzero else match py_float val with Ok f => f | Err _ => fzero end
               end in
      (Some f, digit_at 14 chunk, digit_at 15 chunk)
  end.

(** v3/o.py:80-99, 274-279: self._data_chunks[n] is (3 + 16 n, 19 + 16 n) for n < [chunks] *)
Definition chunk3 (chunks : nat) (n : nat) (rec : str) : res str :=
  if n <? chunks then Ok (slice (3 + 16 * n) (19 + 16 * n) rec) else Err IndexError.

(** v3/o.py:241-305 _parse_obs_record: satellite, its types, its values. *)
Definition parse_obs3 (chunks : nat) (tab : obs_table) (rec : str) : res (str * list str * list obsval) :=
  match slice 0 3 rec with
  | [] => Err RinexError
  | sat0 =>
    let sat := replace_c " "%char "0"%char sat0 in
    match sat with
    | [] => Err IndexError           (* not reached *)
    | c :: _ =>
      match dict_get seqb [c] tab with
      | None => Err RinexError
      | Some types =>
        do vals <- mapM (fun n => do ch <- chunk3 chunks n rec; Ok (get_val3 ch)) (seq 0 (List.length types));
        Ok (sat, types, vals)
      end
    end
  end.

(** A yielded tuple (epoch or None, satellite, record). *)
Definition orec3 := (option datetime * str * record)%type.
Definition trace3 := (list (orec3 * obj3) * gend * obj3)%type.

(** Local variables of read_records: None before the first epoch line. *)
Definition st3 := option (option datetime * Z * Z).

(** v3/o.py:307-318 _handle_event *)
Definition handle_event (v : ver) (flag : Z) (special : list str) (o : obj3) : res obj3 :=
  if (flag =? 4)%Z then parse_header3 v special o else Ok o.

(** v3/o.py:327-372 read_records on the lines [lines] of the file.  [special] is special_records, in
    order.  Before the first epoch line [None > 1] is a TypeError.  Log messages (_handle_power_failure)
    are not modelled. *)
Fixpoint read_records3 (v : ver) (chunks : nat) (lines : list str) (s : st3) (special : list str) (o : obj3)
  : trace3 :=
  match lines with
  | [] => ([], GStop, o)
  | line :: rest =>
    match line with
    | [] => ([], GRaise IndexError, o)
    | c0 :: _ =>
      if ceqb c0 ">"%char then
        match parse_epoch3 line with
        | Err e => ([], GRaise e, o)
        | Ok s' => read_records3 v chunks rest (Some s') special o
        end
      else
        match s with
        | None => ([], GRaise TypeError, o)
        | Some (ep, flag, n) =>
          if (1 <? flag)%Z then
            let '(special', n') := if (0 <? n)%Z then (special ++ [line], (n - 1)%Z) else (special, n) in
            if (n' =? 0)%Z then
              match handle_event v flag special' o with
              | Err e => ([], GRaise e, o)
              | Ok o' => read_records3 v chunks rest (Some (ep, flag, n')) special' o'
              end
            else read_records3 v chunks rest (Some (ep, flag, n')) special' o
          else
            let flag' := if (flag =? 1)%Z then 0%Z else flag in
            if (0 <? n)%Z then
              match parse_obs3 chunks (o3_tab o) line with
              | Err e => ([], GRaise e, o)
              | Ok (sat, types, vals) =>
                match make_record types vals [] with
                | Err e => ([], GRaise e, o)
                | Ok rec =>
                  let '(ys, e, o') := read_records3 v chunks rest (Some (ep, flag', (n - 1)%Z)) special o in
                  (((ep, sat, rec), o) :: ys, e, o')
                end
              end
            else read_records3 v chunks rest (Some (ep, flag', n)) special o
        end
    end
  end.

(** v3/o.py:144-162 _next_epoch; [epoch] is the variable's value so far (an event's epoch is returned
    when the file ends after it).  Result: the epoch and the lines left. *)
Fixpoint next_epoch (epoch : option datetime) (lines : list str) : res (option datetime * list str) :=
  match lines with
  | [] => Ok (epoch, [])
  | line :: rest =>
    do c0 <- char_at 0 line;
    if negb (ceqb c0 ">"%char) then next_epoch epoch rest
    else
      do (ep, flag, _) <- parse_epoch3 line;
      if (1 <? flag)%Z then next_epoch ep rest else Ok (ep, rest)
  end.

(** v3/o.py:110-111: the loop looking for a second epoch different from [e0]; it may go round forever. *)
Fixpoint next_different (fuel : nat) (e0 e1 : option datetime) (lines : list str) : res (option datetime) :=
  if odt_eqb e0 e1 then
    match fuel with
    | O => Err OutOfFuel
    | S fuel' => do (e1', r) <- next_epoch None lines; next_different fuel' e0 e1' r
    end
  else Ok e1.

(** v3/o.py:101-136 _det_interval: the new value of the interval. *)
Definition det_interval (fuel : nat) (v : ver) (body : list str) : res pynum :=
  do (e0, r0) <- next_epoch None body;
  do (e1, r1) <- next_epoch None r0;
  do e1' <- next_different fuel e0 e1 r1;
  match e0, e1' with
  | Some a, Some b =>
    let dt := total_seconds (dt_sub b a) in
    if fleb dt fzero then Err RinexError
    else set_interval v (fmt_wf 10 3 dt)
  | _, _ => Err RinexError
  end.

(** v3/o.py:85-86: max of an empty list is a ValueError *)
Definition max_types (tab : obs_table) : res nat :=
  match tab with
  | [] => Err ValueError
  | _ => Ok (list_max (map (fun e => List.length (snd e)) tab))
  end.

Record reader3 := mkReader3 { r3_chunks : nat; r3_obj : obj3; r3_rest : list str }.

(** v3/o.py:53-75 __init__; [fuel] bounds the loop of _det_interval. *)
Definition open3 (fuel : nat) (v : ver) (lines : list str) : res reader3 :=
  let '(header, body) := split_header is_end_label lines in
  do o <- parse_header3 v header (mkObj3 hdr0 []);
  do iv <- det_interval fuel v body;
  do m <- max_types (o3_tab o);
  let h := o3_hdr o in
  let o' := mkObj3 (mkHdr (h_ver h) (h_tofo h) (h_xyz h) (Some iv)) (o3_tab o) in
  Ok (mkReader3 m o' body).

(** All records of an opened file. *)
Definition records3 (v : ver) (r : reader3) : trace3 :=
  read_records3 v (r3_chunks r) (r3_rest r) None [] (r3_obj r).
