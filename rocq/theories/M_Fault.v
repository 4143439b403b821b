(** A disk that refuses operations, and --save-coordinates as file operations.
    Nothing in __main__.py or text.py catches the OSError of os.makedirs, open, write or close (text.py:108-117, 158, 201, 217;
    __main__.py:211-212, 255, 703-704), so the first one stops the program; the interpreter then closes the open file objects,
    ignoring further errors.  Not modelled: a device that loses data after it has accepted it. *)
From Verif Require Import Base PyStr PyFloat PyDate PyPath PyRegex M_Common M_Header M_Obs2 M_Obs3 M_Label M_Rec M_Text M_Cfg M_Names M_Xyz M_Nav M_NmUtils M_Num M_Tec M_Sat M_Main M_Run M_Disk.
Open Scope nat_scope.

(** the operation fails.  text.py:108-117: a directory that cannot be made or a file that cannot be opened for writing, nothing is
    changed.  text.py:158, 201: the text is in the buffer, and the beginning of the buffer may be written.  text.py:217: the file
    object is gone, with what could not be written. *)
Inductive refused : disk -> event -> disk -> Prop :=
| refused_open d p : refused d (EOpen p) d
| refused_write d p s a b : dict_get seqb p (d_open (perform d (EWrite p s))) = Some (a ++ b) ->
    refused d (EWrite p s) (mkDisk (fs_append p a (d_files d)) (dict_set seqb p b (d_open (perform d (EWrite p s)))))
| refused_close d p a b : dict_get seqb p (d_open d) = Some (a ++ b) ->
    refused d (EClose p) (mkDisk (fs_append p a (d_files d)) (d_remove p (d_open d))).
(** the operations, where one may fail: then the program stops with OSError, and any part of the buffers is written at the exit *)
Inductive attempts : disk -> list event -> disk -> option exn -> Prop :=
| attempts_nil d : attempts d [] d None
| attempts_flush d p a b ev d' x : dict_get seqb p (d_open d) = Some (a ++ b) ->
    attempts (mkDisk (fs_append p a (d_files d)) (dict_set seqb p b (d_open d))) ev d' x -> attempts d ev d' x
| attempts_event d e ev d' x : attempts (perform d e) ev d' x -> attempts d (e :: ev) d' x
| attempts_fail d e ev d1 d' : refused d e d1 -> moves d1 [] d' -> attempts d (e :: ev) d' (Some OSError).

(** __main__.py:214-258 with --save-coordinates, as save_loop *)
Fixpoint lines_events (w : world) (names : list str) : list event * option exn :=
  match names with
  | [] => ([], None)
  | name :: r =>
    match open_obs w name with
    | Err RinexError | Err UncompressError => lines_events w r
    | Err e => ([], Some e)
    | Ok b =>
      match crds_line w name b with
      | Err e => ([], Some e)
      | Ok None => lines_events w r
      | Ok (Some line) => let '(ev, e) := lines_events w r in (EWrite crds_file line :: ev, e)
      end
    end
  end.
(** __main__.py:158-706 with --save-coordinates, as save_main: open 211-212, close 703-704 *)
Definition save_events (w : world) (c : cfg) : list event * option exn :=
  match sort_str (find_files (w_ls w) (c_obsdir c) RE_OBS) with
  | [] => ([], Some SystemExit)
  | names => let '(ev, e) := lines_events w names in
             (EOpen crds_file :: ev ++ match e with None => [EClose crds_file] | Some _ => [] end, e)
  end.
