(** --save-coordinates, and the start of the program. *)
From Coq Require Import Sorting.Sorted Sorting.Permutation.
From Verif Require Import Base PyStr PyFloat PyDate PyPath PyRegex S_Text S_Time S_Open2 M_Common M_Header M_Obs2 M_Obs3 M_Rec M_Text M_Cfg M_Label M_Names M_Xyz M_Nav M_NmUtils M_Num M_Tec M_Sat M_Main M_Run S_Names S_Xyz S_Label S_Main S_Fresh S_Run S_Out S_Cfg P_Str P_Date P_Label P_Out P_Cfg P_Cfg2 P_Main1 P_Main3 P_Main12 P_Run4.
Open Scope nat_scope.

Lemma crds_line_spec w name b r : crds_line w name b = Ok r ->
  match r with Some line => suitable b /\ coordinates_line w name b line | None => ~ suitable b end.
Proof.
  unfold crds_line, suitable, coordinates_line.
  destruct (h_ver (b_hdr b)) as [[[rv ft] ss]|]; cbn [of_option bind]; [|discriminate].
  assert (Hss : supports ss || ceqb ss "M" = true <-> In ss systems \/ ss = "M"%char).
  { rewrite orb_true_iff, P_Main3.supports_iff, ceqb_eq. reflexivity. }
  destruct (supports ss || ceqb ss "M") eqn:E1; cbn [negb].
  2:{ intros H. injection H as <-. intros [[a [b0 [d [E Hd]]]] _]. injection E as _ _ <-. apply Hss in Hd. discriminate. }
  pose proof (proj1 Hss eq_refl) as Hin. destruct (h_tofo (b_hdr b)) as [[t0 ts]|]; cbn [of_option bind]; [|discriminate].
  destruct (seqb ts (lit "GPS")) eqn:E2; cbn [negb].
  2:{ intros H. injection H as <-. intros [_ [t1 E]]. injection E as _ ->. rewrite seqb_refl in E2. discriminate. }
  apply seqb_eq in E2. subst ts. cbv zeta.
  destruct (h_xyz (b_hdr b)) as [[x y] z] eqn:Ex. unfold lbh_of, show_lbh.
  destruct (xyz2lbh_deg (Fops (w_libm w)) (w_fuel w) x y z) as [[[l lat] h]|e] eqn:El; cbn [bind]; [|discriminate].
  intros H. injection H as <-. split; [split; [exists rv, ft, ss; auto|now exists t0]|].
  pose proof El as El'. unfold xyz2lbh_deg in El'.
  destruct (xyz2lbh (Fops (w_libm w)) (w_fuel w) x y z) as [r|e] eqn:Er; cbn [is_arithmetic].
  - exists (show_val (VFloat l)), (show_val (VFloat lat)). split; [|reflexivity]. apply (sp_lbh w (x, y, z) l lat h r); [exact El|exact Er].
  - destruct (existsb (exn_eqb e) arithmetic) eqn:Ea; [|discriminate]. exists (show_val (VInt 0)), (show_val (VInt 0)). split; [|reflexivity].
    apply (sp_none w (x, y, z) e Er). now apply P_Main1.arith_eqb.
Qed.
Lemma save_loop_spec w names : forall f f' e content, fs_get crds_file f = Some content -> save_loop w f names = (f', e) ->
  (forall p, p <> crds_file -> fs_get p f' = fs_get p f) /\
  exists did rest lines, names = did ++ rest /\ coordinates_lines w did lines /\ fs_get crds_file f' = Some (content ++ concat lines) /\ (e = None <-> rest = []).
Proof.
  assert (Hrefl : forall (A : Type) (l : list A), l = [] ++ l) by reflexivity.
  induction names as [|nm r IH]; intros f f' e content Hc; cbn [save_loop].
  { intros H. injection H as <- <-. split; [auto|]. exists [], [], []. repeat split; [constructor|]. cbn [concat]. now rewrite app_nil_r. }
  assert (Hskip : ~ (exists b, open_obs w nm = Ok b /\ suitable b) -> save_loop w f r = (f', e) ->
    (forall p, p <> crds_file -> fs_get p f' = fs_get p f) /\
    exists did rest lines, nm :: r = did ++ rest /\ coordinates_lines w did lines /\ fs_get crds_file f' = Some (content ++ concat lines) /\ (e = None <-> rest = [])).
  { intros Hn H. destruct (IH _ _ _ _ Hc H) as [H1 [did [rest [lines [-> [H3 H4]]]]]]. split; [exact H1|]. exists (nm :: did), rest, lines.
    split; [reflexivity|]. split; [now apply cl_skip|exact H4]. }
  assert (Hstop : forall e0, (f, Some e0) = (f', e) ->
    (forall p, p <> crds_file -> fs_get p f' = fs_get p f) /\
    exists did rest lines, nm :: r = did ++ rest /\ coordinates_lines w did lines /\ fs_get crds_file f' = Some (content ++ concat lines) /\ (e = None <-> rest = [])).
  { intros e0 H. injection H as <- <-. split; [auto|]. exists [], (nm :: r), []. split; [reflexivity|]. split; [constructor|].
    cbn [concat]. rewrite app_nil_r. split; [exact Hc|]. split; discriminate. }
  destruct (open_obs w nm) as [b|e0] eqn:Eo.
  2:{ assert (Hn : ~ (exists b : obs, Err (A := obs) e0 = Ok b /\ suitable b)) by (intros [b [X _]]; discriminate).
      destruct e0; first [exact (Hskip Hn)|exact (Hstop _)]. }
  destruct (crds_line w nm b) as [[line|]|e0] eqn:El.
  - destruct (crds_line_spec _ _ _ _ El) as [Hs Hl]. intros H.
    destruct (IH _ _ _ (content ++ line) (fs_append_same _ _ _ _ Hc) H) as [H1 [did [rest [lines [-> [H3 [H4 H5]]]]]]].
    split; [intros p Hp; rewrite (H1 p Hp); now apply fs_append_other|]. exists (nm :: did), rest, (line :: lines). split; [reflexivity|].
    split; [exact (cl_line w nm did b line lines Eo Hs Hl H3)|]. cbn [concat]. rewrite app_assoc. auto.
  - apply Hskip. intros [b' [X Y]]. injection X as <-. exact (crds_line_spec _ _ _ _ El Y).
  - apply Hstop.
Qed.
Lemma saved w c f f' e : save_main w c f = (f', e) -> find_files (w_ls w) (c_obsdir c) RE_OBS <> [] ->
  (forall p, p <> lit "coordinates.txt" -> fs_get p f' = fs_get p f) /\
  exists did rest lines, Permutation (find_files (w_ls w) (c_obsdir c) RE_OBS) (did ++ rest) /\ StronglySorted str_le (did ++ rest) /\
    coordinates_lines w did lines /\ fs_get (lit "coordinates.txt") f' = Some (concat lines) /\ (e = None <-> rest = []).
Proof.
  unfold save_main. pose proof (sort_perm (find_files (w_ls w) (c_obsdir c) RE_OBS)) as Hp. pose proof (sort_strongly (find_files (w_ls w) (c_obsdir c) RE_OBS)) as Hs.
  destruct (sort_str (find_files (w_ls w) (c_obsdir c) RE_OBS)) as [|nm r].
  - intros _ H. apply Permutation_sym, Permutation_nil in Hp. contradiction.
  - intros H _. destruct (save_loop_spec w (nm :: r) _ _ _ [] (truncate_same _ _) H) as [H1 [did [rest [lines [H2 H3]]]]].
    split; [intros p Hq; rewrite (H1 p Hq); now apply truncate_other|]. exists did, rest, lines. rewrite <- H2. auto.
Qed.
Lemma saved_none w c f : find_files (w_ls w) (c_obsdir c) RE_OBS = [] -> save_main w c f = (f, Some SystemExit).
Proof. intros H. unfold save_main. rewrite H. reflexivity. Qed.
