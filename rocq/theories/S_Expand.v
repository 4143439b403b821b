(** Specification vocabulary: packed files, and runs over the same data stored differently. *)
From Verif Require Import Base PyStr PyFloat PyDate PyPath M_Common M_Header M_Obs2 M_Obs3 M_Rec M_Text M_Cfg M_Names M_Xyz M_Nav M_NmUtils M_Num M_Main M_Expand S_Text S_Time S_Names.
Open Scope nat_scope.

(** [raw] is what the external programs make of the bytes [b] of a file that is packed ([packed]) and compact ([hat]) *)
Definition unpacked (t : tools) (hat packed : bool) (b raw : str) : Prop :=
  exists x, (if packed then exists gz, t_gzip t = Some gz /\ gz b = x else x = b) /\ (if hat then exists crx, t_crx t = Some crx /\ crx x = raw else raw = x).
(** a program that this file needs is not installed *)
Definition tool_missing (t : tools) (hat packed : bool) : Prop := packed = true /\ t_gzip t = None \/ hat = true /\ t_crx t = None.
(** ASCII bytes only *)
Definition ascii_bytes (s : str) : Prop := forall c, In c s -> nat_of_ascii c < 128.
(** every locale in use decodes ASCII bytes as themselves *)
Definition sane_locale (t : tools) : Prop := forall s, ascii_bytes s -> t_locale t s = Some s.
(** a name that ends in .Z or .gz *)
Definition packed_name (path : str) : Prop := exists p ext, path = p ++ ext /\ (same_ci ext (lit ".z") \/ same_ci ext (lit ".gz")).

(** two files that read alike: date, header, records and end *)
Definition reads_alike (r r' : res obs) : Prop :=
  match r, r' with
  | Ok b, Ok b' => b_date b = b_date b' /\ b_hdr b = b_hdr b' /\ b_steps b = b_steps b' /\ b_end b = b_end b'
  | Err e, Err e' => e = e'
  | _, _ => False
  end.
(** the two observation files are the same one, stored differently: same site name, same records, same coordinates beside it *)
Definition same_file (w w' : world) (c : cfg) (name name' : str) : Prop :=
  reads_alike (open_obs w name) (open_obs w' name') /\ marker_of name = marker_of name' /\ xyz_data w c name = xyz_data w' c name'.
(** the navigation file chosen for a time and system may have another name, but says the same *)
Definition same_nav (w w' : world) (c : cfg) : Prop := forall t sys,
  match load_navigation_message (w_ls w) (w_nav w) (c_navdir c) t sys (priority_of c sys), load_navigation_message (w_ls w') (w_nav w') (c_navdir c) t sys (priority_of c sys) with
  | Ok (_, m), Ok (_, m') => m = m'
  | Err e, Err e' => e = e'
  | _, _ => False
  end.
Definition same_machine (w w' : world) : Prop :=
  w_libm w = w_libm w' /\ w_fuel w = w_fuel w' /\ w_strftime w = w_strftime w'.
(** the same call of the writer; only the name of the navigation file, which is a comment of the result, may differ *)
Inductive same_call : wop -> wop -> Prop :=
| sc_pos t p l : same_call (WPos t p l) (WPos t p l)
| sc_row sat sd nav nav' t q : (nav = None <-> nav' = None) -> same_call (WRow sat sd nav t q) (WRow sat sd nav' t q).

(** two names of one observation file: they differ at most in the mark of the compact form *)
Inductive same_stem : str -> bool -> str -> bool -> Prop :=
| ss_classic site ddd h yy t hat t' hat' :
    chars 4 site -> word site -> chars 3 ddd -> digits ddd -> session h -> chars 2 yy -> digits yy ->
    lower_c t = (if hat : bool then "d"%char else "o"%char) -> lower_c t' = (if hat' : bool then "d"%char else "o"%char) ->
    same_stem (site ++ ddd ++ h ++ lit "." ++ yy ++ [t]) hat (site ++ ddd ++ h ++ lit "." ++ yy ++ [t']) hat'
| ss_modern site src start period freq sys o ext hat ext' hat' :
    chars 9 site -> word site -> In (lower_c src) (lit "rsu") -> chars 11 start -> digits start ->
    chars 3 period -> word period -> chars 3 freq -> word freq -> is_word sys = true -> lower_c o = "o"%char ->
    same_ci ext (if hat : bool then lit "crx" else lit "rnx") -> same_ci ext' (if hat' : bool then lit "crx" else lit "rnx") ->
    same_stem (site ++ lit "_" ++ [src] ++ lit "_" ++ start ++ lit "_" ++ period ++ lit "_" ++ freq ++ lit "_" ++ [sys] ++ [o] ++ lit "." ++ ext) hat
              (site ++ lit "_" ++ [src] ++ lit "_" ++ start ++ lit "_" ++ period ++ lit "_" ++ freq ++ lit "_" ++ [sys] ++ [o] ++ lit "." ++ ext') hat'.
(** a file of that name is stored in [dir], with these bytes *)
Definition stored (t : tools) (dir base ext path : str) (hat packed : bool) (b : str) : Prop :=
  obs_base base hat /\ arch ext packed /\ path_of dir (base ++ ext) path /\ clean_dir dir /\ ~ In (ascii_of_nat 10) path /\ t_file t path = Some b.
(** two navigation files with the same text and the same date, that no priority tells apart *)
Definition nav_pair (t t' : tools) (priority : list str) (f f' : str) : Prop :=
  expand_nav t f = expand_nav t' f' /\ get_rinex_date f = get_rinex_date f' /\
  forall q, In q priority -> ((exists a b, lower f = a ++ lower q ++ b) <-> (exists a b, lower f' = a ++ lower q ++ b)).
(** two observation files that say the same, stored differently; [raw] is the text both hold, and the coordinates beside them agree *)
Definition obs_pair (t t' : tools) (w w' : world) (c : cfg) (path path' : str) : Prop :=
  exists dir dir' base base' ext ext' hat hat' packed packed' b b' raw,
    stored t dir base ext path hat packed b /\ stored t' dir' base' ext' path' hat' packed' b' /\ same_stem base hat base' hat' /\
    unpacked t hat packed b raw /\ unpacked t' hat' packed' b' raw /\
    xyz_data (tools_world t w) c path = xyz_data (tools_world t' w') c path'.
(** the navigation files found for each time and system correspond one by one, in the order of the directory *)
Definition nav_pairs (t t' : tools) (w w' : world) (c : cfg) : Prop := forall ep sys,
  Forall2 (nav_pair t t' (priority_of c sys)) (find_nav_files (w_ls w) (c_navdir c) ep sys) (find_nav_files (w_ls w') (c_navdir c) ep sys) /\
  Forall2 (nav_pair t t' (priority_of c sys)) (find_nav_files (w_ls w) (c_navdir c) ep "M"%char) (find_nav_files (w_ls w') (c_navdir c) ep "M"%char).
(** the listings of the navigation directories differ only in the packing of the files *)
Definition repacked_dirs (t t' : tools) (w w' : world) (c : cfg) : Prop := forall sys d, In d (c_navdir c) ->
  Forall2 (fun n n' => exists base ext ext' packed packed', n = base ++ ext /\ n' = base ++ ext' /\ arch ext packed /\ arch ext' packed' /\
    nav_pair t t' (priority_of c sys) (path_join d n) (path_join d n')) (w_ls w d) (w_ls w' d).
