(** Model of tecs/rinex/v2/n.py, tecs/rinex/v3/n.py and tecs/rinex/nmsg.py: the readers of
    navigation files, and of nav_file in tecs/rinex/__init__.py. *)
From Verif Require Import Base PyStr PyFloat PyDate PyPath M_Common M_Header M_Names.
Open Scope nat_scope.

(** v2/n.py:52 and v3/n.py:51 [spaces] *)
Definition nav_spaces (v : ver) : nat := if ver_lt3 v then 3 else 1.
(** v2/n.py:48-50 and v3/n.py:48-49: range(orbit_start, orbit_end, rec_len) *)
Definition orbit_cols (v : ver) : list nat := if ver_lt3 v then [3; 22; 41; 60] else [4; 23; 42; 61].

(** nmsg.py:55-92 vals_per_orbit *)
Definition gps_orbits : list nat := [4; 4; 4; 4; 4; 4; 2].
Definition glo_orbits : list nat := [4; 4; 4].
(** msg_reader[system].vals_per_orbit with the systems of v2/n.py:54, 198 and v3/n.py:53-61 *)
Definition msg_reader (v : ver) (system : ascii) : option (list nat) :=
  match system with
  | "G"%char => Some gps_orbits
  | "R"%char => Some glo_orbits
  | "S"%char => if ver_is20 v then None else Some glo_orbits
  | "E"%char | "C"%char | "J"%char | "I"%char => if ver_lt3 v then None else Some gps_orbits
  | _ => None
  end.
(** v2/n.py:55-58, 199-203 file_types *)
Definition file_types (v : ver) (file_type : ascii) : option ascii :=
  match file_type with
  | "N"%char => Some "G"%char
  | "G"%char => Some "R"%char
  | "H"%char => if ver_is20 v then None else Some "S"%char
  | _ => None
  end.

(** s.lower().replace('d', 'e') *)
Definition d_to_e (s : str) : str := replace_c "d"%char "e"%char (lower s).

(** the three clock values of the epoch line: read, and only checked to be numbers *)
Definition sv_clock (cols : list nat) (rec : str) : res (list float) :=
  mapM (fun i => py_float (d_to_e (slice i (i + 19) rec))) cols.

(** v2/n.py:164-187 _parse_epoch_record; [ft] is ver_type.value[1], None when the header has no
    version line (subscripting None is a TypeError). *)
Definition parse_epoch_n2 (v : ver) (ft : option ascii) (rec : str) : res (ascii * Z * datetime) :=
  do t <- of_option TypeError ft;
  catch
    (do system <- of_option KeyError (file_types v t);
     do number <- py_int (slice 0 2 rec);
     do sec <- py_float (slice 17 22 rec);
     do (s, us) <- sec2sec_ms sec;
     do e <- mapM (fun i => py_int (slice i (i + 3) rec)) [2; 5; 8; 11; 14];
     do epoch <- match e with
                 | [y; mo; d; h; mi] => validate_epoch y mo d h mi s us
                 | _ => Err ValueError
                 end;
     do clk <- sv_clock [22; 41; 60] rec;
     Ok (system, number, epoch))
    [ValueError; KeyError] (Err RinexError).

(** v3/n.py:65-96 _parse_epoch_record; the epoch passed to validate_epoch has six elements.
    The record is never empty (it is not white). *)
Definition parse_epoch_n3 (rec : str) : res (ascii * Z * datetime) :=
  do system <- char_at 0 rec;
  catch
    (do number <- py_int (slice 1 3 rec);
     do y <- py_int (slice 4 9 rec);
     do e <- mapM (fun i => py_int (slice i (i + 3) rec)) [8; 11; 14; 17; 20];
     do epoch <- match e with
                 | [mo; d; h; mi; s] => validate_epoch6 y mo d h mi s
                 | _ => Err ValueError
                 end;
     do clk <- sv_clock [23; 42; 61] rec;
     Ok (system, number, epoch))
    [ValueError] (Err RinexError).
Definition parse_epoch_n (v : ver) (ft : option ascii) (rec : str) : res (ascii * Z * datetime) :=
  if ver_lt3 v then parse_epoch_n2 v ft rec else parse_epoch_n3 rec.

(** s and float(s) or 0. *)
Definition orbit_value (s : str) : res float :=
  match s with
  | [] => Ok fzero
  | _ => do f <- py_float s; Ok (if ftruth f then f else fzero)
  end.
(** v2/n.py:141-156: the values of one orbit line, [n] of them *)
Definition orbit_values (v : ver) (n : nat) (line0 : str) : res (list float) :=
  let line := rstrip line0 in
  mapM orbit_value (firstn n (map (fun i => d_to_e (rstrip (slice i (i + 19) line))) (orbit_cols v))).
(** v2/n.py:134-162 _read_orbits: vals_per_orbit[orbit_num] may be an IndexError *)
Fixpoint read_orbits (v : ver) (orbits : list str) (vals_per_orbit : list nat) : res (list float) :=
  match orbits with
  | [] => Ok []
  | line :: r =>
    match vals_per_orbit with
    | [] => Err RinexError
    | n :: ns =>
      do a <- catch (orbit_values v n line) [ValueError] (Err RinexError);
      do b <- read_orbits v r ns;
      Ok (a ++ b)
    end
  end.

(** message[system][number][time] *)
Definition sat_message := list (tod * list float).
Definition sys_message := list (Z * sat_message).
Definition message := list (ascii * sys_message).
Definition get0 {K V} (eqb : K -> K -> bool) (k : K) (d : list (K * list V)) : list V :=
  match dict_get eqb k d with Some x => x | None => [] end.
(** v2/n.py:123-128 *)
Definition message_set (system : ascii) (num : Z) (t : tod) (vals : list float) (m : message) : message :=
  let ms := get0 ceqb system m in
  dict_set ceqb system (dict_set Z.eqb num (dict_set tod_eqb t vals (get0 Z.eqb num ms)) ms) m.

(** The local variables of _read_message: the orbit lines, num_of_orbits, the reader with system,
    number, epoch and vals_per_orbit (None after a message has been completed), self.message. *)
Record nav_state := mkNav {
  n_orbits : list str; n_left : nat; n_reader : option (ascii * Z * datetime * list nat); n_msg : message }.

(** v2/n.py:86-132: one line; [date] is the date of the file name *)
Definition nav_line (v : ver) (ft : option ascii) (date : option date) (line : str) (st : nav_state) : res nav_state :=
  if negb (isspace (slice 0 (nav_spaces v) line)) then
    do (system, num, epoch) <- parse_epoch_n v ft line;
    do vpo <- of_option RinexError (msg_reader v system);
    Ok (mkNav (n_orbits st) (List.length vpo) (Some (system, num, epoch, vpo)) (n_msg st))
  else
    let '(orbits, k) := match n_left st with O => (n_orbits st, O) | S j => (n_orbits st ++ [line], j) end in
    match n_left st, k with
    | S _, S _ => Ok (mkNav orbits k (n_reader st) (n_msg st))
    | _, _ =>
      match n_reader st with
      | None => Err RinexError
      | Some (system, num, epoch, vpo) =>
        if match date with Some d => date_eqb d (dt_date epoch) | None => false end then
          do vals <- read_orbits v orbits vpo;
          Ok (mkNav [] k None (message_set system num (dt_time epoch) vals (n_msg st)))
        else Ok (mkNav [] k None (n_msg st))
      end
    end.
Fixpoint nav_loop (v : ver) (ft : option ascii) (date : option date) (lines : list str) (st : nav_state) : res nav_state :=
  match lines with
  | [] => Ok st
  | line :: r => do st' <- nav_line v ft date line st; nav_loop v ft date r st'
  end.

(** basic.py:149-158 NavigationMessage._parse_header: the first version line counts *)
Fixpoint nav_header (v : ver) (header : list str) : res (option ascii) :=
  match header with
  | [] => Ok None
  | line :: r => if seqb (line_label line) (hlabel_text HVer) then do (rv, ft, ss) <- set_ver v line; Ok (Some ft)
                 else nav_header v r
  end.
(** v2/n.py:60-76 __init__: the message of a file with the given name and lines *)
Definition nav_read (v : ver) (filename : str) (lines : list str) : res message :=
  let '(header, body) := split_header is_end_label lines in
  do ft <- nav_header v header;
  do st <- nav_loop v ft (get_rinex_date filename) body (mkNav [] 0 None []);
  Ok (n_msg st).
(** rinex/__init__.py:76-116 nav_file: nav_file(filename).message for a file of the given lines *)
Definition nav_file (filename : str) (lines : list str) : res message :=
  do v <- nav_class (hd [] lines);
  nav_read v filename lines.
