(** The run: the coordinates file; which files are processed. *)
From Coq Require Import ZifyBool ZifyNat Permutation.
From Verif Require Import Base PyStr PyFloat PyDate PyPath PyRegex S_Text S_Time S_Open2 M_Common M_Header M_Obs2 M_Obs3 M_Rec M_Text M_Cfg M_Label M_Names M_Xyz M_Nav M_NmUtils M_Num M_Tec M_Sat M_Main S_Names S_Xyz S_Main S_Fresh S_Out P_Str P_Date P_Nav P_Regex P_Names P_Xyz P_Names6 P_Out P_Main1 P_Main2 P_Main3 P_Main4 P_Main5 P_Main6 P_Main7 P_Main8 P_Main9 P_Main10.
Open Scope nat_scope.

(** ** the coordinates file *)
Lemma re_xyz_base base hat : obs_base base hat -> re_test RE_XYZ (base ++ lit ".xyz") = true.
Proof.
  intros H. apply re_test_lang. exists (base ++ lit ".xyz"), []. split; [now rewrite app_nil_r|]. unfold RE_XYZ.
  assert (HA : lang (RCat (RChr any) (text (lit "xyz"))) (0 + List.length base) (lit ".xyz") []).
  { cbn [lang]. exists ["."%char], (lit "xyz"). split; [reflexivity|]. split; [exists "."%char; split; reflexivity|]. now apply lang_text. }
  assert (HR : forall r, lang r 0 base (lit ".xyz" ++ []) -> lang (RCat r (RCat (RChr any) (text (lit "xyz")))) 0 (base ++ lit ".xyz") []).
  { intros r Hr. exists base, (lit ".xyz"). split; [reflexivity|]. split; [exact Hr|exact HA]. }
  cbv zeta. destruct (proj1 (base_lang base) (ex_intro _ hat H) (lit ".xyz" ++ [])) as [L|[L|L]]; [left|right; left|right; right]; apply HR; exact L.
Qed.
Section Coordinates.
Variable (w : world) (c : cfg).
Lemma file_site f d x base ext hat packed ls ps ops : obs_base base hat -> arch ext packed -> x <> "/"%char ->
  let dir := d ++ [x] in
  let xyz := dir ++ lit "/" ++ base ++ lit ".xyz" in
  w_there w xyz = true -> (exists p, In p (c_obsdir c) /\ In (base ++ lit ".xyz") (w_ls w p)) -> w_crd w xyz = Ok ls -> xyz_lines ls ps ->
  written w c f (dir ++ lit "/" ++ base ++ ext) ops -> forall sat sd nav t q, In (WRow sat sd nav t q) ops ->
  exists site lbh, shows_site q site lbh /\ geodetic w site lbh /\
    (forall p, last_position t ps p -> near_point site p) /\
    ((forall p, ~ In (t, p) ps) -> exists b s, open_obs w (dir ++ lit "/" ++ base ++ ext) = Ok b /\ In s (b_steps b) /\ s_sat s = sat /\ s_epoch s = Some t /\
       same_place site (s_xyz s)).
Proof.
  intros Hb Ha Hx. cbv zeta. intros Ht [p [Hp1 Hp2]] Hr Hl Hw sat sd nav t q Hin.
  destruct (row_site w c f _ ops Hw _ _ _ _ _ Hin) as [b [s [xyzs [site [lbh [Ho [Hs [Hsat [Hep [Hc [Hso [Hg [Hsh _]]]]]]]]]]]]].
  exists site, lbh. split; [exact Hsh|]. split; [exact Hg|].
  destruct (load_xyz_file_ok _ _ Hl) as [dct [Hd [H1 H2]]].
  pose proof (find_xyz_dir (w_there w) d x base ext hat packed Hb Ha Hx) as Hf. cbv zeta in Hf. rewrite Ht in Hf.
  assert (Hne : find_files (w_ls w) (c_obsdir c) RE_XYZ <> []).
  { intros E. assert (Hi : In (path_join p (base ++ lit ".xyz")) (find_files (w_ls w) (c_obsdir c) RE_XYZ)).
    { unfold find_files. apply in_flat_map. exists p. split; [exact Hp1|]. apply in_map, filter_In. split; [exact Hp2|]. exact (re_xyz_base base hat Hb). }
    rewrite E in Hi. exact Hi. }
  assert (Hxy : xyzs = dct).
  { inversion Hc as [E X1|E X1|file d' E1 E2 E3 X1]; [contradiction|rewrite Hf in E; discriminate|].
    cut (@Ok (list (datetime * xyz)) xyzs = Ok dct); [intros X; now injection X|]. transitivity ((do ls <- w_crd w file; load_xyz_file ls)); [symmetry; exact E3|].
    rewrite Hf in E2. apply some_inj in E2. transitivity (do ls <- w_crd w ((d ++ [x]) ++ lit "/" ++ base ++ lit ".xyz"); load_xyz_file ls); [rewrite <- E2; reflexivity|]. rewrite Hr. exact Hd. }
  subst xyzs. split.
  - intros pt Hpt. destruct (H1 t pt Hpt) as [v [Hv Hn]]. destruct Hso as [He|[He _]]; [|exfalso; exact (He v Hv)].
    unfold entry in He. assert (X : site = v) by (cut (Some site = Some v); [intros X; now injection X|]; rewrite <- He; exact Hv). subst v. exact Hn.
  - intros Hno. exists b, s. repeat (split; [assumption|]). destruct Hso as [He|[_ He]]; [|exact He]. exfalso. unfold entry in He. pose proof (H2 t Hno) as H3.
    assert (X : Some site = None) by (rewrite <- He; exact H3). discriminate.
Qed.
End Coordinates.
