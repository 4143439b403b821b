(** Runs over packed files: examples, and witnesses of the claims the code violates. *)
From Verif Require Import Base PyStr PyFloat PyDate PyPath PyRegex M_Common M_Header M_Obs2 M_Obs3 M_Label M_Rec M_Text M_Cfg M_Names M_Xyz M_Nav M_NmUtils M_Num M_Tec M_Sat M_Main M_Run M_Expand.
From Verif Require Import S_Text S_Time S_Obs2 S_Open2 S_Names S_Out W_Obs2 E_Obs2 S_Main S_Expand E_Main E_Run P_Str P_Names6 P_Main1 P_Expand2 P_Expand4.
Open Scope nat_scope.

(** bytes of a file with these lines *)
Definition nl_c : ascii := ascii_of_nat 10.
Definition closed_line (l : str) : str := if ceqb (last l " "%char) nl_c then l else l ++ [nl_c].
Definition bytes (ls : list str) : str := concat (map closed_line ls).
(** programs: gzip drops the mark "z", crx2rnx the mark "c"; gzip stops where the file is damaged (byte 255); what has no mark
    gives nothing *)
Definition hurt_c : ascii := ascii_of_nat 255.
Fixpoint until_hurt (s : str) : str := match s with [] => [] | c :: r => if ceqb c hurt_c then [] else c :: until_hurt r end.
Definition e_gz (b : str) : str := match b with c :: r => if ceqb c "z"%char then until_hurt r else [] | [] => [] end.
Definition e_crx (b : str) : str := match b with c :: r => if ceqb c "c"%char then r else [] | [] => [] end.
Definition e_locale (s : str) : option str := if forallb is_ascii s then Some s else None.
Definition e_tools (gz : bool) (files : list (string * str)) : tools :=
  mkTools (of_files None (map (fun x => (fst x, Some (snd x))) files)) (if gz then Some e_gz else None) (Some e_crx) e_locale.
Lemma e_sane gz files : sane_locale (e_tools gz files).
Proof.
  intros s H. cbn. unfold e_locale. replace (forallb is_ascii s) with true; [reflexivity|]. symmetry. apply forallb_forall. intros c Hc.
  rewrite is_ascii_spec. apply Nat.ltb_lt. auto.
Qed.
(** directories with these names *)
Definition x_world (obs nav : list string) : world := e_world (map (fun x => (x, [])) obs) (map (fun x => (x, [])) nav).

Definition zipped (s : str) : str := "z"%char :: s.
Definition hat (s : str) : str := "c"%char :: s.
Definition raw_obs : str := bytes obs2.
Definition nav2_n : str := bytes (gps_nav (gps_msg " 1" " 5.153000000000D+03" ++ gps_msg " 2" " 5.150000000000D+03")).
Definition nav2_g : str := bytes (glo_nav (glo_msg " 1" " 1.000000000000D+04" " 2.000000000000D+04" " 1.100000000000D+04" " 5.000000000000D+00")).
Definition t_plain : tools := e_tools true [("/obs/site0010.12o", raw_obs); ("/nav/brdc0010.12n", nav2_n); ("/nav/brdc0010.12g", nav2_g)]%string.
Definition t_packed : tools := e_tools true [("/obs/site0010.12d.Z", zipped (hat raw_obs)); ("/nav/brdc0010.12n.Z", zipped nav2_n); ("/nav/brdc0010.12g.gz", zipped nav2_g)]%string.
Definition w_plain : world := x_world ["site0010.12o"]%string ["brdc0010.12n"; "brdc0010.12g"]%string.
Definition w_packed : world := x_world ["site0010.12d.Z"]%string ["brdc0010.12n.Z"; "brdc0010.12g.gz"]%string.
Lemma until_id s : (forall c, In c s -> nat_of_ascii c < 128) -> until_hurt s = s.
Proof.
  induction s as [|c s IH]; intros H; [reflexivity|]. cbn [until_hurt]. destruct (ceqb c hurt_c) eqn:E.
  - apply ceqb_eq in E. subst c. specialize (H hurt_c (or_introl eq_refl)). exfalso. revert H. vm_compute. lia.
  - f_equal. apply IH. intros d Hd. apply H. now right.
Qed.
Definition ascii_b (s : str) : bool := forallb is_ascii s.
Lemma ascii_b_ok s : ascii_b s = true -> ascii_bytes s.
Proof. unfold ascii_b, ascii_bytes. rewrite forallb_forall. intros H c Hc. specialize (H c Hc). rewrite is_ascii_spec in H. now apply Nat.ltb_lt. Qed.
Lemma packed_runs : run (tools_world t_plain w_plain) (e_cfg true None) = run w_ok (e_cfg true None) /\
  map (fun x => snd (fst x)) (fst (run (tools_world t_packed w_packed) (e_cfg true None))) = map (fun x => snd (fst x)) (fst (run w_ok (e_cfg true None))).
Proof. vm_compute. auto. Qed.
Definition x_plain : str := lit "/obs/site0010.12o".
Definition x_packed : str := lit "/obs/site0010.12d.Z".
Lemma x_names : sort_str (find_files (w_ls w_plain) (c_obsdir (e_cfg true None)) RE_OBS) = [x_plain] /\ sort_str (find_files (w_ls w_packed) (c_obsdir (e_cfg true None)) RE_OBS) = [x_packed].
Proof. vm_compute. auto. Qed.
Ltac wd := repeat constructor.
Lemma site_stem t (h : bool) t' (h' : bool) : lower_c t = (if h then "d"%char else "o"%char) -> lower_c t' = (if h' then "d"%char else "o"%char) ->
  same_stem (lit "site0010.12" ++ [t]) h (lit "site0010.12" ++ [t']) h'.
Proof.
  intros H H'. apply (ss_classic (lit "site") (lit "001") (lit "0") (lit "12") t h t' h'); try assumption; try reflexivity; try (repeat constructor; fail).
Qed.
Lemma no_nl (s : str) : forallb (fun c => negb (ceqb c nl_c)) s = true -> ~ In nl_c s.
Proof. rewrite forallb_forall. intros H Hin. specialize (H _ Hin). rewrite (proj2 (ceqb_eq nl_c nl_c) eq_refl) in H. discriminate. Qed.
Lemma site_stored t x (h p : bool) ext b : lower_c x = (if h then "d"%char else "o"%char) -> arch ext p -> forallb (fun c => negb (ceqb c nl_c)) ((lit "site0010.12" ++ [x]) ++ ext) = true ->
  t_file t (lit "/obs/" ++ (lit "site0010.12" ++ [x]) ++ ext) = Some b ->
  stored t (lit "/obs") (lit "site0010.12" ++ [x]) ext (lit "/obs/" ++ (lit "site0010.12" ++ [x]) ++ ext) h p b.
Proof.
  intros Hx Ha Hn Hf. split; [exact (proj1 (stem_bases _ _ _ _ (site_stem x h x h Hx Hx)))|]. split; [exact Ha|]. split; [right; reflexivity|].
  split; [intros u y v E; exfalso; assert (X : In "."%char (lit "/obs")) by (rewrite E; apply in_or_app; right; now left); cbn in X; intuition discriminate|]. split; [|exact Hf]. apply (no_nl (lit "/obs/" ++ (lit "site0010.12" ++ [x]) ++ ext)). rewrite forallb_app, Hn. reflexivity.
Qed.
Lemma x_same : same_machine w_plain w_packed.
Proof. repeat split. Qed.
Lemma x_text : ascii_b raw_obs = true /\ ascii_b nav2_n = true /\ ascii_b nav2_g = true.
Proof. vm_compute. auto. Qed.
Lemma x_unzip s : ascii_b s = true -> e_gz (zipped s) = s.
Proof. intros H. cbn. apply until_id. apply ascii_b_ok. exact H. Qed.
Lemma x_obs : Forall2 (obs_pair t_plain t_packed w_plain w_packed (e_cfg true None))
  (sort_str (find_files (w_ls w_plain) (c_obsdir (e_cfg true None)) RE_OBS)) (sort_str (find_files (w_ls w_packed) (c_obsdir (e_cfg true None)) RE_OBS)).
Proof.
  destruct x_names as [-> ->]. constructor; [|constructor].
  exists (lit "/obs"), (lit "/obs"), (lit "site0010.12o"), (lit "site0010.12d"), [], (lit ".Z"), false, true, false, true, raw_obs, (zipped (hat raw_obs)), raw_obs.
  split; [|split; [|split; [|split; [|split]]]].
  - apply (site_stored t_plain "o"%char false false []); try reflexivity.
  - apply (site_stored t_packed "d"%char true true (lit ".Z")); try reflexivity. left. reflexivity.
  - exact (site_stem "o"%char false "d"%char true eq_refl eq_refl).
  - exists raw_obs. split; reflexivity.
  - exists (hat raw_obs). split; [exists e_gz; split; [reflexivity|]|exists e_crx; split; reflexivity]. apply x_unzip. exact (proj1 x_text).
  - vm_compute. reflexivity.
Qed.
Lemma no_prio sys : priority_of (e_cfg true None) sys = [].
Proof. unfold priority_of. destruct sys as [[] [] [] [] [] [] [] []]; reflexivity. Qed.
Lemma z_nav_pair t t' prio path ext raw : prio = [] -> ~ In nl_c path -> ~ packed_name path -> arch ext true -> ~ In nl_c (path ++ ext) -> sane_locale t -> ascii_b raw = true ->
  t_gzip t' = Some e_gz -> t_file t path = Some raw -> t_file t' (path ++ ext) = Some (zipped raw) -> get_rinex_date path = get_rinex_date (path ++ ext) -> nav_pair t t' prio path (path ++ ext).
Proof.
  intros -> H1 H2 H3 H4 H5 H6 H7 H8 H9 H10. split; [|split; [exact H10|intros q []]]. symmetry.
  apply (nav_alike t' t (path ++ ext) path (zipped raw) e_gz raw); try assumption; [exists path, ext; split; [reflexivity|exact H3]|apply x_unzip; exact H6|apply ascii_b_ok; exact H6].
Qed.
Lemma plain_name path : ~ In nl_c path -> re_test RE_Z path = false -> ~ packed_name path.
Proof. intros Hn H X. apply (packed_z path Hn) in X. congruence. Qed.
Lemma x_nav : repacked_dirs t_plain t_packed w_plain w_packed (e_cfg true None).
Proof.
  intros sys d [<-|[]]. change (w_ls w_plain (lit "/nav")) with [lit "brdc0010.12n"; lit "brdc0010.12g"]. change (w_ls w_packed (lit "/nav")) with [lit "brdc0010.12n" ++ lit ".Z"; lit "brdc0010.12g" ++ lit ".gz"].
  destruct x_text as [_ [T1 T2]].
  constructor; [|constructor; [|constructor]].
  - exists (lit "brdc0010.12n"), [], (lit ".Z"), false, true. split; [reflexivity|]. split; [reflexivity|]. split; [reflexivity|]. split; [left; reflexivity|].
    apply (z_nav_pair t_plain t_packed _ (lit "/nav/brdc0010.12n") (lit ".Z") nav2_n); try reflexivity; try (apply no_nl; reflexivity); try apply no_prio; try exact T1.
    + apply plain_name; [apply no_nl|]; reflexivity.
    + left. reflexivity.
    + apply e_sane.
  - exists (lit "brdc0010.12g"), [], (lit ".gz"), false, true. split; [reflexivity|]. split; [reflexivity|]. split; [reflexivity|]. split; [right; reflexivity|].
    apply (z_nav_pair t_plain t_packed _ (lit "/nav/brdc0010.12g") (lit ".gz") nav2_g); try reflexivity; try (apply no_nl; reflexivity); try apply no_prio; try exact T2.
    + apply plain_name; [apply no_nl|]; reflexivity.
    + right. reflexivity.
    + apply e_sane.
Qed.
Lemma x_files : exists ops, stopped_by (tools_world t_plain w_plain) (e_cfg true None) [] = None /\
  snd (fst (main (tools_world t_plain w_plain) (e_cfg true None) [])) = [] ++ (x_plain, ops) :: [] /\ length (rows_of (lit "G01") ops) = 4.
Proof.
  assert (H : map (fun x => (fst x, length (rows_of (lit "G01") (snd x)))) (snd (fst (main (tools_world t_plain w_plain) (e_cfg true None) []))) = [(x_plain, 4)]) by (vm_compute; reflexivity).
  assert (Hs : stopped_by (tools_world t_plain w_plain) (e_cfg true None) [] = None) by (vm_compute; reflexivity).
  destruct (snd (fst (main (tools_world t_plain w_plain) (e_cfg true None) []))) as [|[nm ops] [|x r]]; [clear -H; discriminate| |clear -H; discriminate].
  cbn [map fst snd] in H. injection H as -> H. exists ops. split; [exact Hs|]. split; [reflexivity|]. exact H.
Qed.

(** ** a byte that is not ASCII in a comment of a navigation file *)
Definition note : str := lit "Z" ++ [ascii_of_nat 252] ++ lit "rich                                                      COMMENT".
Definition nav_note : str :=
  bytes (lit "     2.10           NAVIGATION DATA                         RINEX VERSION / TYPE" :: note :: e_end :: gps_msg " 1" " 5.153000000000D+03" ++ gps_msg " 2" " 5.150000000000D+03").
Definition t_note : tools := e_tools true [("/obs/site0010.12o", raw_obs); ("/nav/brdc0010.12n", nav_note)]%string.
Definition t_note_z : tools := e_tools true [("/obs/site0010.12o", raw_obs); ("/nav/brdc0010.12n.Z", zipped nav_note)]%string.
Definition w_note : world := x_world ["site0010.12o"]%string ["brdc0010.12n"]%string.
Definition w_note_z : world := x_world ["site0010.12o"]%string ["brdc0010.12n.Z"]%string.
Definition row_count (w : world) (c : cfg) : nat := length (flat_map (fun x => rows_only (snd x)) (snd (fst (main w c [])))).
Lemma note_runs : e_gz (zipped nav_note) = nav_note /\ stopped_by (tools_world t_note w_note) (e_cfg true None) [] = Some ValueError /\ row_count (tools_world t_note w_note) (e_cfg true None) = 0 /\
  stopped_by (tools_world t_note_z w_note_z) (e_cfg true None) [] = None /\ row_count (tools_world t_note_z w_note_z) (e_cfg true None) = 9.
Proof. vm_compute. auto 6. Qed.
Lemma note_stops : exists t t' w w' c nav raw b, same_machine w w' /\ c_navdir c = [lit "/nav"] /\ (forall d, d <> lit "/nav" -> w_ls w d = w_ls w' d) /\
  w_ls w (lit "/nav") = [nav] /\ w_ls w' (lit "/nav") = [nav ++ lit ".Z"] /\ t_file t (lit "/nav/" ++ nav) = Some raw /\ t_file t' (lit "/nav/" ++ nav ++ lit ".Z") = Some b /\
  unpacked t' false true b raw /\ (forall p, In p (find_files (w_ls w) (c_obsdir c) RE_OBS) -> t_file t p = t_file t' p) /\
  stopped_by (tools_world t w) c [] = Some ValueError /\ row_count (tools_world t w) c = 0 /\
  stopped_by (tools_world t' w') c [] = None /\ row_count (tools_world t' w') c = 9.
Proof.
  exists t_note, t_note_z, w_note, w_note_z, (e_cfg true None), (lit "brdc0010.12n"), nav_note, (zipped nav_note). destruct note_runs as [N1 N2].
  split; [repeat split|]. split; [reflexivity|]. split.
  { intros d Hd. unfold w_note, w_note_z, x_world, e_world. cbn [w_ls map fst snd]. unfold of_files. cbn [map dict_get fst snd]. destruct (seqb d (lit "/obs")); [reflexivity|].
    destruct (seqb d (lit "/nav")) eqn:E; [apply seqb_eq in E; contradiction|reflexivity]. }
  split; [reflexivity|]. split; [reflexivity|]. split; [reflexivity|]. split; [reflexivity|].
  split; [exists nav_note; split; [exists e_gz; split; [reflexivity|exact N1]|reflexivity]|].
  split; [|exact N2]. intros p Hp. change (find_files (w_ls w_note) (c_obsdir (e_cfg true None)) RE_OBS) with [x_plain] in Hp. destruct Hp as [<-|[]]. reflexivity.
Qed.

