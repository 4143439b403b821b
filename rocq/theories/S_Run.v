(** Specification of the rest of the run: errors announced, coordinates saved, the start of the program. *)
From Verif Require Import Base PyStr PyFloat PyDate PyPath S_Time S_Open2 M_Common M_Header M_Obs2 M_Rec M_Text M_Cfg M_Label M_Names M_Xyz M_Nav M_NmUtils M_Num M_Tec M_Sat M_Main M_Run S_Main.
Open Scope nat_scope.

(** ** What goes wrong in a run *)
(** the observation files of the directories *)
Definition found (w : world) (c : cfg) (name : str) : Prop := In name (find_files (w_ls w) (c_obsdir c) RE_OBS).
(** a file of a supported system *)
Definition of_system (b : obs) : Prop :=
  exists version type system, h_ver (b_hdr b) = Some (version, type, system) /\ (In system systems \/ system = "M"%char).
(** [trouble w c use bad]: a file cannot be opened, is not in GPS time, or ends in an error; or, of a suitable file with
    coordinates [xyzs], a usable record which is in [use] is in [bad] *)
Inductive trouble (w : world) (c : cfg) (use : obs -> step -> Prop) (bad : list (datetime * xyz) -> step -> Prop) : Prop :=
| tr_open name : found w c name -> open_obs w name = Err RinexError \/ open_obs w name = Err UncompressError -> trouble w c use bad
| tr_time name b t0 ts : found w c name -> open_obs w name = Ok b -> of_system b -> h_tofo (b_hdr b) = Some (t0, ts) -> ts <> lit "GPS" ->
    trouble w c use bad
| tr_broken name b : found w c name -> open_obs w name = Ok b -> suitable b -> b_end b = GRaise RinexError -> trouble w c use bad
| tr_record name b xyzs s : found w c name -> open_obs w name = Ok b -> suitable b -> coordinates w c name xyzs ->
    In s (b_steps b) -> usable (b_date b) s -> use b s -> bad xyzs s -> trouble w c use bad.
(** from site [site] the satellite's place, or its elevation and azimuth, cannot be computed *)
Definition no_view (w : world) (c : cfg) (t : datetime) (sys : ascii) (n : Z) (site : xyz) : Prop :=
  incomputable w c t sys n \/
  exists pos e, located w c t sys n pos /\ compute_el_az (Fops (w_libm w)) (w_fuel w) site pos = Err e /\ arith e.
(** The site is known up to the sign of zeros (see site_of), the records used when the file has an interval (see used); hence two
    versions: something may go wrong, for some choice of these; and something must go wrong, for every choice. *)
Definition may_fail (w : world) (c : cfg) : Prop :=
  trouble w c (fun b s => forall kept, used c b kept -> In s kept)
    (fun xyzs s => exists t sys n site, identifies s t sys n /\ site_of xyzs s t site /\ no_view w c t sys n site).
Definition must_fail (w : world) (c : cfg) : Prop :=
  trouble w c (fun b s => exists kept, used c b kept /\ In s kept)
    (fun xyzs s => exists t sys n, identifies s t sys n /\ forall site, site_of xyzs s t site -> no_view w c t sys n site).

(** ** The file of coordinates *)
(** the longitude and latitude of a position as they are shown; zeros when they cannot be computed *)
Inductive shown_position (w : world) (p : xyz) : str -> str -> Prop :=
| sp_lbh l lat h r : geodetic w p (l, lat, h) ->
    (let '(x, y, z) := p in xyz2lbh (Fops (w_libm w)) (w_fuel w) x y z = Ok r) -> shown_position w p (show_val (VFloat l)) (show_val (VFloat lat))
| sp_none e : (let '(x, y, z) := p in xyz2lbh (Fops (w_libm w)) (w_fuel w) x y z = Err e) -> arith e ->
    shown_position w p (show_val (VInt 0)) (show_val (VInt 0)).
(** the line of a file: the site's name and the longitude and latitude of the position in the header *)
Definition coordinates_line (w : world) (name : str) (b : obs) (line : str) : Prop :=
  exists lon lat, shown_position w (h_xyz (b_hdr b)) lon lat /\
    line = firstn 4 (basename name) ++ lit "; " ++ lon ++ lit "; " ++ lat ++ [ascii_of_nat 10].
(** [lines] are the lines of the suitable files among [names], in order *)
Inductive coordinates_lines (w : world) : list str -> list str -> Prop :=
| cl_nil : coordinates_lines w [] []
| cl_skip name r lines : ~ (exists b, open_obs w name = Ok b /\ suitable b) -> coordinates_lines w r lines -> coordinates_lines w (name :: r) lines
| cl_line name r b line lines : open_obs w name = Ok b -> suitable b -> coordinates_line w name b line ->
    coordinates_lines w r lines -> coordinates_lines w (name :: r) (line :: lines).

(** ** Equal but for the order of the directories' entries *)
Definition with_ls (w : world) (ls : str -> list str) : world :=
  mkWorld (w_libm w) (w_fuel w) ls (w_content w) (w_nav w) (w_crd w) (w_there w) (w_strftime w) (w_now w).

(** ** The program *)
Definition dirs_exist (isdir : str -> bool) (c : cfg) : Prop := forall d, In d (c_obsdir c) \/ In d (c_navdir c) -> isdir d = true.
(** the path of the configuration file *)
Definition rcfile (a : args) : str := match a_rcfile a with Some p => p | None => lit "./tecs.cfg" end.
(** what the program finds when it works in directory [dir]: a path stands for the path joined to that directory *)
Definition found_in (dir : str) (w w' : world) : Prop :=
  (forall p, w_ls w' p = w_ls w (path_join dir p)) /\ (forall p, w_content w' p = w_content w (path_join dir p)) /\
  (forall p, w_nav w' p = w_nav w (path_join dir p)) /\ (forall p, w_crd w' p = w_crd w (path_join dir p)) /\
  (forall p, w_there w' p = w_there w (path_join dir p)) /\
  w_libm w' = w_libm w /\ w_fuel w' = w_fuel w /\ w_strftime w' = w_strftime w /\ w_now w' = w_now w.
(** the same system with another working directory *)
Definition at_dir (y : system) (cwd : str) : system := mkSystem cwd (y_read y) (y_dir y) (y_env y) (y_world y).
