(** The run as a sequence of file operations, and what is on the disk meanwhile.
    M_Text and M_Main say which text each result file gets; here the same calls are modelled as the operations of the file objects,
    in the order in which they happen: open(name, 'wt') (the file is emptied at once), write (the text goes to the buffer of the file
    object and reaches the file later, piece by piece, at times the program does not control), close (the rest of the buffer is
    written). *)
From Verif Require Import Base PyStr PyFloat PyDate PyPath PyRegex M_Common M_Header M_Obs2 M_Obs3 M_Label M_Rec M_Text M_Cfg M_Names M_Xyz M_Nav M_NmUtils M_Num M_Tec M_Sat M_Main.
Open Scope nat_scope.

Inductive event := EOpen (p : str) | EWrite (p s : str) | EClose (p : str).

(** text.py:87-201 write_data: the operations, up to the exception if there is one.  text.py:117 open, 158 write(comment), 201
    write(rec). *)
Definition write_events (c : out_cfg) (w : writer) (sat : str) (t : datetime) (q : quantity -> option pyval) : list event * res writer :=
  let path := match w_path w with Some p => p | None => out_dir c (w_obs w) t end in
  let w := mkWriter (w_obs w) (w_interval w) (Some path) (w_sats w) (w_xyz w) (w_lbh w) in
  match dict_get seqb sat (w_sats w) with
  | None => ([], Err KeyError)
  | Some s =>
    let row := row_text (oc_format c) (oc_strftime c) (w_interval w) t q in
    match s_fout s with
    | Some out => match row with Ok r => ([EWrite out r], Ok w) | Err e => ([], Err e) end
    | None =>
      let out := path_join path (out_name (w_obs w) sat t) in
      let w := mkWriter (w_obs w) (w_interval w) (w_path w) (dict_set seqb sat (mkSat (s_def s) (s_nav s) (Some out)) (w_sats w)) (w_xyz w) (w_lbh w) in
      match header_text c w s with
      | Err e => ([EOpen out], Err e)
      | Ok h => match row with
                | Ok r => ([EOpen out; EWrite out h; EWrite out r], Ok w)
                | Err e => ([EOpen out; EWrite out h], Err e)
                end
      end
    end
  end.
(** __main__.py:269-270, 421-423 and 689-696 (see do_op) *)
Definition op_events (c : out_cfg) (w : writer) (o : wop) : list event * res writer :=
  match o with
  | WPos t p l => ([], Ok (update_lbh (update_xyz w t p) t l))
  | WRow sat sd nav t q =>
    write_events c (match dict_get seqb sat (w_sats w) with Some _ => w | None => update_satellite w sat sd nav end) sat t q
  end.
Fixpoint ops_events (c : out_cfg) (w : writer) (os : list wop) : list event * res writer :=
  match os with
  | [] => ([], Ok w)
  | o :: r =>
    match op_events c w o with
    | (ev, Err e) => (ev, Err e)
    | (ev, Ok w') => let '(ev', x) := ops_events c w' r in (ev ++ ev', x)
    end
  end.
(** text.py:203-223 end_up: every open file is closed *)
Definition end_events (w : writer) : list event :=
  flat_map (fun e => match s_fout (snd e) with Some p => [EClose p] | None => [] end) (w_sats w).

(** __main__.py:283-696, as record_loop *)
Fixpoint record_events (w : world) (c : cfg) (b : obs) (xyzs : list (datetime * xyz)) (si : option Z) (last : option datetime)
    (k : caches) (l : local) (wr : writer) (steps : list step) : list event * caches * writer * option exn :=
  match steps with
  | [] => ([], k, wr, match b_end b with GStop | GRaise RinexError => None | GRaise e => Some e end)
  | s :: r =>
    match record_ident s with
    | Err e => ([], k, wr, Some e)
    | Ok (epoch, system, number) =>
      match accept (b_date b) si last epoch system with
      | None => record_events w c b xyzs si last k l wr r
      | Some last' =>
        match record_body w c xyzs (latest (w_xyz wr)) k l s epoch system number with
        | Err e => ([], k, wr, Some e)
        | Ok (k', l', ops) =>
          match ops_events (out_of w c) wr ops with
          | (ev, Err e) => (ev, k', wr, Some e)
          | (ev, Ok wr') => let '(ev', k'', wr'', e) := record_events w c b xyzs si last' k' l' wr' r in (ev ++ ev', k'', wr'', e)
          end
        end
      end
    end
  end.
(** __main__.py:214-698, as file_step; end_up is reached only when no exception stops the program *)
Definition file_events (w : world) (c : cfg) (k : caches) (name : str) : list event * caches * option exn :=
  match open_obs w name with
  | Err RinexError | Err UncompressError => ([], k, None)
  | Err e => ([], k, Some e)
  | Ok b =>
    match file_start w c b with
    | Err e => ([], k, Some e)
    | Ok None => ([], k, None)
    | Ok (Some (xyzs, si, l, iv, pos)) =>
      match op_events (out_of w c) (new_writer name iv) pos with
      | (ev, Err e) => (ev, k, Some e)
      | (ev, Ok wr) =>
        let '(ev', k', wr', e) := record_events w c b xyzs si None k l wr (b_steps b) in
        (ev ++ ev' ++ match e with None => end_events wr' | Some _ => [] end, k', e)
      end
    end
  end.
(** the operations of each observation file *)
Fixpoint files_events (w : world) (c : cfg) (k : caches) (names : list str) : list (str * list event) * option exn :=
  match names with
  | [] => ([], None)
  | name :: r =>
    match file_events w c k name with
    | (ev, _, Some e) => ([(name, ev)], Some e)
    | (ev, k', None) => let '(l, e) := files_events w c k' r in ((name, ev) :: l, e)
    end
  end.
(** __main__.py:158-705, as main *)
Definition main_events (w : world) (c : cfg) : list (str * list event) * option exn :=
  match sort_str (find_files (w_ls w) (c_obsdir c) RE_OBS) with
  | [] => ([], Some SystemExit)
  | names => files_events w c no_caches names
  end.

(** ** the disk
    the files, and for each file object its path and the text still in its buffer.  A run never has two file objects of one path
    (the satellites of one writer have different paths, and end_up closes them), so they are known by their paths. *)
Record disk := mkDisk { d_files : fs; d_open : list (str * str) }.
Definition d_remove (p : str) (l : list (str * str)) : list (str * str) := filter (fun e => negb (seqb p (fst e))) l.
Definition perform (d : disk) (e : event) : disk :=
  match e with
  | EOpen p => mkDisk (fs_truncate p (d_files d)) (dict_set seqb p [] (d_open d))
  | EWrite p s => mkDisk (d_files d) (dict_set seqb p (match dict_get seqb p (d_open d) with Some b => b ++ s | None => s end) (d_open d))
  | EClose p => match dict_get seqb p (d_open d) with
                | Some b => mkDisk (fs_append p b (d_files d)) (d_remove p (d_open d))
                | None => d
                end
  end.
(** the operations, with text leaving the buffers at any time and in any pieces *)
Inductive moves : disk -> list event -> disk -> Prop :=
| moves_nil d : moves d [] d
| moves_flush d p a b ev d' : dict_get seqb p (d_open d) = Some (a ++ b) ->
    moves (mkDisk (fs_append p a (d_files d)) (dict_set seqb p b (d_open d))) ev d' -> moves d ev d'
| moves_event d e ev d' : moves (perform d e) ev d' -> moves d (e :: ev) d'.
