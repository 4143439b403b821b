(** The start of the program; missing directories. *)
From Verif Require Import Base PyStr PyFloat PyDate PyPath PyRegex S_Text S_Time S_Open2 M_Common M_Header M_Obs2 M_Obs3 M_Rec M_Text M_Cfg M_Label M_Names M_Xyz M_Nav M_NmUtils M_Num M_Tec M_Sat M_Main M_Run S_Names S_Xyz S_Label S_Main S_Fresh S_Run S_Out S_Rec S_Cfg P_Str P_Date P_Label P_Out P_Cfg P_Cfg2 P_Xyz P_Main1 P_Main3 P_Main5 P_Main7 P_Main8 P_Run3.
Open Scope nat_scope.

(** *** The settings *)
Lemma read_named_ok path ls : Forall line_ok ls ->
  read_named path (file_text ls) = Ok (fold_left apply_line ls (dict_set seqb (lit "cfg_file") (CStr path) defaults)).
Proof.
  intros H. unfold read_named. change (ascii_of_nat 10) with newline. rewrite file_lines.
  - destruct ls as [|l r]; [reflexivity|]. now apply read_lines_ok.
  - eapply Forall_impl; [|exact H]. intros l [Hl _]. exact Hl.
Qed.
Lemma convert_same e st st' : (forall name, name <> lit "cfg_file" -> dict_get seqb name st' = dict_get seqb name st) -> convert e st' = convert e st.
Proof. intros H. unfold convert, setting. rewrite !H by discriminate. reflexivity. Qed.
Definition start_settings (e : cfg_env) (path text : str) : res (cfg * str * str) :=
  do st <- read_named path text; do c <- convert e st;
  do v <- setting st (lit "cfg_file"); do cf <- as_str v;
  do v <- setting st (lit "logFile"); do lf <- as_str v; Ok (c, cf, lf).
Lemma start_ok e path ls c : Forall line_ok ls -> assigned (lit "cfg_file") ls = None -> read_cfg e (file_text ls) = Ok c ->
  start_settings e path (file_text ls) = Ok (c, path, value_of ls (lit "logFile")).
Proof.
  intros Hls Hc Hr. unfold start_settings. rewrite read_named_ok by exact Hls. cbn [bind].
  destruct (read_settings_ok ls Hls) as [st [E HG]]. unfold read_cfg in Hr. rewrite E in Hr. cbn [bind] in Hr.
  set (st' := fold_left _ _ _). assert (HG' : forall name, dict_get seqb name st' = match dict_get seqb name (dict_set seqb (lit "cfg_file") (CStr path) defaults) with
    | None => None | Some d => Some (match assigned name ls with Some v => CStr v | None => d end) end) by (intros; apply fold_get).
  clearbody st'. rewrite (convert_same e st st'), Hr.
  2:{ intros name Hn. rewrite HG, HG', sget_other by exact Hn. reflexivity. }
  cbn [bind]. unfold setting. rewrite !HG'. rewrite sget_same, Hc. rewrite (sget_other (lit "logFile")) by discriminate.
  change (dict_get seqb (lit "logFile") defaults) with (Some (CStr (lit "tecs.log"))). cbn [of_option bind as_str].
  unfold value_of. change (dict_get seqb (lit "logFile") default_text) with (Some (lit "tecs.log")). destruct (assigned (lit "logFile") ls); reflexivity.
Qed.

(** *** Paths *)
Lemma drop_slashes_snoc d : drop_slashes (d ++ ["/"%char]) = drop_slashes d.
Proof. induction d as [|c d IH]; [reflexivity|]. cbn [app drop_slashes]. now rewrite IH. Qed.
Lemma drop_slashes_keep d x : x <> "/"%char -> drop_slashes (d ++ [x]) = d ++ [x].
Proof.
  intros Hx. assert (E : ceqb x slash = false) by (destruct (ceqb x slash) eqn:E; [apply ceqb_eq in E; contradiction|reflexivity]).
  induction d as [|c d IH]; cbn [app drop_slashes]; [now rewrite E|]. rewrite IH. destruct d; reflexivity.
Qed.
Lemma dirname_path d x base : x <> "/"%char -> absent "/"%char base -> dirname ((d ++ [x]) ++ "/"%char :: base) = d ++ [x].
Proof.
  intros Hx Hb. unfold dirname. rewrite head_acc_path by exact Hb. cbn [app]. rewrite drop_slashes_snoc, drop_slashes_keep by exact Hx. destruct d; reflexivity.
Qed.
Lemma dirname_bare p : absent "/"%char p -> dirname p = [].
Proof. intros H. unfold dirname. rewrite head_acc_none by exact H. reflexivity. Qed.
Lemma join_path cwd d x base : path_join cwd ((d ++ [x]) ++ "/"%char :: base) = path_join cwd (d ++ [x]) ++ "/"%char :: base.
Proof.
  destruct d as [|c d]; cbn [app path_join]; [destruct (ceqb x slash)|destruct (ceqb c slash)]; try reflexivity;
    (destruct cwd as [|a cwd]; [reflexivity|]; destruct (ends_slash (a :: cwd)); cbn [app]; rewrite <- ?app_assoc; cbn [app]; rewrite <- ?app_assoc; reflexivity).
Qed.
Lemma last_slash a b x y : absent "/"%char x -> absent "/"%char y -> a ++ "/"%char :: x = b ++ "/"%char :: y -> a = b /\ x = y.
Proof.
  intros Hx Hy. revert b. induction a as [|c a IH]; intros [|d b] H; cbn [app] in H.
  - injection H as H1. auto.
  - injection H as H1 H2. exfalso. apply Hx. rewrite H2. apply in_or_app. right. now left.
  - injection H as H1 H2. exfalso. apply Hy. rewrite <- H2. apply in_or_app. right. now left.
  - injection H as H1 H2. subst d. destruct (IH b H2) as [-> ->]. auto.
Qed.

(** *** The start *)
Section Start.
Variables (y : system) (a : args) (f : fs) (ls : list cline) (fields outdir dtf : str) (secs : Z).
Hypothesis Hver : a_version a = false.
Hypothesis Hread : y_read y (path_join (y_cwd y) (rcfile a)) = Some (file_text ls).
Hypothesis Hls : Forall line_ok ls.
Hypothesis Hign : assigned (lit "navIgnoreAbsence") ls <> None.
Hypothesis Hown : assigned (lit "cfg_file") ls = None.
Hypothesis Hgood : good_values ls fields outdir dtf secs.
Lemma started_bare : absent "/"%char (rcfile a) -> program y a f = (None, mkOutcome f [] 0 (Some OSError)).
Proof.
  intros Hb. destruct (read_cfg_ok (y_env y) ls fields outdir dtf secs Hls Hign Hgood) as [c [Hc _]].
  unfold program. rewrite Hver. fold (rcfile a). cbv zeta. rewrite Hread. fold (start_settings (y_env y) (rcfile a) (file_text ls)).
  rewrite (start_ok _ _ _ c Hls Hown Hc). unfold enter. rewrite dirname_bare by exact Hb. reflexivity.
Qed.
Lemma started d x base c : rcfile a = (d ++ [x]) ++ "/"%char :: base -> x <> "/"%char -> absent "/"%char base ->
  let dir := path_join (y_cwd y) (d ++ [x]) in
  y_dir y dir = true -> outdir <> [] -> absent "/"%char (value_of ls (lit "logFile")) -> read_cfg (y_env y) (file_text ls) = Ok c ->
  program y a f = (Some dir, full_main (a_save a) (fun p => y_dir y (path_join dir p)) (seen_from dir (y_world y c)) c f).
Proof.
  intros Hp Hx Hb dir Hd Ho Hl Hc. destruct (read_cfg_ok (y_env y) ls fields outdir dtf secs Hls Hign Hgood) as [c' [Hc' Hof]].
  rewrite Hc in Hc'. injection Hc' as <-.
  unfold program. rewrite Hver. fold (rcfile a). cbv zeta. rewrite Hread. fold (start_settings (y_env y) (rcfile a) (file_text ls)).
  rewrite (start_ok _ _ _ c Hls Hown Hc). unfold enter. rewrite Hp, dirname_path by assumption.
  destruct (d ++ [x]) as [|u v] eqn:E; [destruct d; discriminate|]. fold dir. rewrite Hd. cbn [negb].
  rewrite (co_out _ _ _ _ _ _ _ Hof). destruct outdir as [|o1 o2]; [contradiction|].
  replace (existsb (ceqb slash) (value_of ls (lit "logFile"))) with false; [reflexivity|].
  symmetry. apply Bool.not_true_iff_false. intros Hin. apply existsb_exists in Hin. destruct Hin as [z [Hz Hs]]. apply ceqb_eq in Hs. subst z. exact (Hl Hz).
Qed.
End Start.
Lemma program_none y a f : fst (program y a f) = None -> o_files (snd (program y a f)) = f /\ o_log (snd (program y a f)) = [] /\ o_exn (snd (program y a f)) <> None.
Proof.
  unfold program. destruct (a_version a); [cbn; repeat split; discriminate|]. cbv zeta.
  destruct (y_read y _); [|cbn; repeat split; discriminate].
  match goal with |- context [match ?r with Ok _ => _ | Err _ => _ end] => destruct r as [[[c cf] lf]|e] end; [|cbn; repeat split; discriminate].
  destruct (enter y cf c lf); [|cbn; repeat split; discriminate]. intros H. cbn in H. discriminate.
Qed.
Lemma program_invalid y a f : a_version a = true \/ y_read y (path_join (y_cwd y) (rcfile a)) = None \/
  (exists text e, y_read y (path_join (y_cwd y) (rcfile a)) = Some text /\ read_settings text = Err e) -> fst (program y a f) = None.
Proof.
  intros [H|[H|[text [e [H H2]]]]]; unfold program; fold (rcfile a).
  - rewrite H. reflexivity.
  - destruct (a_version a); [reflexivity|]. cbv zeta. rewrite H. reflexivity.
  - destruct (a_version a); [reflexivity|]. cbv zeta. rewrite H.
    assert (E : exists e', read_named (rcfile a) text = Err e').
    { unfold read_named, read_settings in *. generalize dependent (split_on (ascii_of_nat 10) text). intros l.
      assert (Hk : forall l st st', (forall name, dict_get seqb name st = None <-> dict_get seqb name st' = None) -> read_lines st l = Err e -> exists e', read_lines st' l = Err e').
      { clear. induction l as [|a r IH]; intros st st' Hs; cbn [read_lines]; [discriminate|]. unfold read_line.
        destruct (drop_comment (rstrip a)) as [|c0 r0]; [cbn [bind]; apply IH, Hs|].
        destruct (split_on "="%char (c0 :: r0)) as [|n [|v [|z zs]]]; cbn [bind]; try (intros _; eexists; reflexivity).
        destruct (strip v) as [|v0 vs]; cbn [bind]; [apply IH, Hs|]. specialize (Hs (drop_space n)) as Hn.
        destruct (dict_get seqb (drop_space n) st) eqn:E1; destruct (dict_get seqb (drop_space n) st') eqn:E2; cbn [bind]; try (destruct Hn as [Hn1 Hn2]; try discriminate (Hn1 eq_refl); discriminate (Hn2 eq_refl)).
        - apply IH. intros nm. destruct (seqb nm (drop_space n)) eqn:E.
          + apply seqb_eq in E. subst nm. rewrite !sget_same. split; discriminate.
          + rewrite !sget_other by (intros ->; rewrite seqb_refl in E; discriminate). apply Hs.
        - apply IH, Hs. }
      intros H3. apply (Hk l defaults). 2: exact H3. intros name. destruct (seqb name (lit "cfg_file")) eqn:E.
      - apply seqb_eq in E. subst name. rewrite sget_same. cbn. split; discriminate.
      - rewrite sget_other by (intros ->; rewrite seqb_refl in E; discriminate). reflexivity. }
    destruct E as [e' ->]. reflexivity.
Qed.

(** *** Missing directories *)
Lemma nonav_loop_none b si steps : nonav_loop b si steps = None ->
  forall s, In s steps -> ~ usable (b_date b) s.
Proof.
  induction steps as [|s r IH]; cbn [nonav_loop]; [intros _ s []|].
  destruct (record_ident s) as [[[t sys] n]|e] eqn:Ei; [|discriminate].
  destruct (accept (b_date b) si None t sys) eqn:Ea; [discriminate|]. intros H s' [<-|Hin]; [|exact (IH H s' Hin)].
  intros Hu. apply ident_iff in Ei. destruct (usable_ident _ _ _ _ _ Ei Hu) as [Hs Hd]. unfold accept in Ea.
  rewrite (proj2 (supports_iff sys) Hs), Hd, date_eqb_refl in Ea. cbn [negb] in Ea. unfold sample in Ea. destruct si; [|discriminate].
  cbv zeta in Ea. rewrite (proj2 (dt_eqb_eq t t) eq_refl) in Ea. discriminate.
Qed.
Lemma nonav_none w c names : nonav_files w c names = None -> forall name b s, In name names -> open_obs w name = Ok b -> suitable b -> In s (b_steps b) -> ~ usable (b_date b) s.
Proof.
  induction names as [|nm r IH]; cbn [nonav_files]; [intros _ name b s []|]. intros H name b s [<-|Hin] Ho Hsu Hs.
  - rewrite Ho in H. destruct (file_start w c b) as [[[[[[xyzs si] l] iv] pos]|]|e] eqn:Ef; [| |discriminate].
    + destruct (nonav_loop b si (b_steps b)) eqn:El; [discriminate|]. exact (nonav_loop_none b si _ El s Hs).
    + exfalso. apply (proj2 (proj1 (start_suitable w c b _ Ef)) Hsu). reflexivity.
  - assert (Hr : nonav_files w c r = None).
    { destruct (open_obs w nm) as [b0|e0]; [|destruct e0; try discriminate; exact H]. destruct (file_start w c b0) as [[[[[[xyzs si] l] iv] pos]|]|e]; [|exact H|discriminate].
      destruct (nonav_loop b0 si (b_steps b0)); [discriminate|exact H]. }
    exact (IH Hr name b s Hin Ho Hsu Hs).
Qed.
Lemma missing_dir (isdir : str -> bool) l : (exists d, In d l /\ isdir d = false) -> forallb isdir l = false.
Proof.
  intros [d [Hd E]]. destruct (forallb isdir l) eqn:F; [|reflexivity]. rewrite forallb_forall in F. rewrite (F d Hd) in E. discriminate.
Qed.
Lemma all_dirs (isdir : str -> bool) l : (forall d, In d l -> isdir d = true) -> forallb isdir l = true.
Proof. intros H. now apply forallb_forall. Qed.
Lemma missing_obs save isdir w c f : (exists d, In d (c_obsdir c) /\ isdir d = false) -> full_main save isdir w c f = mkOutcome f [] 0 (Some OSError).
Proof. intros H. unfold full_main. rewrite (missing_dir _ _ H). reflexivity. Qed.
Lemma missing_nav isdir w c f : (exists d, In d (c_navdir c) /\ isdir d = false) ->
  let o := full_main false isdir w c f in
  o_files o = f /\ o_log o = [] /\
  forall name b s, found w c name -> open_obs w name = Ok b -> suitable b -> In s (b_steps b) -> usable (b_date b) s -> o_exn o <> None.
Proof.
  intros H. cbv zeta. unfold full_main. rewrite (missing_dir _ _ H). destruct (forallb isdir (c_obsdir c)); cbn [negb].
  2:{ repeat split; discriminate. }
  pose proof (found_iff w c) as Hf. destruct (sort_str (find_files (w_ls w) (c_obsdir c) RE_OBS)) as [|nm r].
  - cbn. repeat split; discriminate.
  - cbn [o_files o_log o_exn]. split; [reflexivity|]. split; [reflexivity|]. intros name b s H1 H2 H3 H4 H5 H6.
    exact (nonav_none w c (nm :: r) H6 name b s (proj2 (Hf name) H1) H2 H3 H4 H5).
Qed.
