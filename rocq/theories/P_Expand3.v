(** Runs over packed files. *)
From Verif Require Import Base PyStr PyFloat PyDate PyPath PyRegex M_Common M_Header M_Obs2 M_Obs3 M_Label M_Rec M_Text M_Cfg M_Names M_Xyz M_Nav M_NmUtils M_Num M_Tec M_Sat M_Main M_Expand.
From Verif Require Import S_Text S_Names S_Out S_NmUtils S_Main S_Expand P_Str P_Regex P_Names P_Names2 P_Names3 P_Names4 P_Names5 P_Xyz P_Names6 P_NmUtils2 P_Main1 P_Main7 P_Main8 P_Main11 P_Main12 P_Expand1 P_Expand2.
Open Scope nat_scope.

Lemma pair_file t t' w w' c path path' : w_fuel w = w_fuel w' -> obs_pair t t' w w' c path path' -> same_file (tools_world t w) (tools_world t' w') c path path'.
Proof.
  intros HF [dir [dir' [base [base' [ext [ext' [hat [hat' [packed [packed' [b [b' [raw [S1 [S2 [H1 [U1 [U2 HX]]]]]]]]]]]]]]]]]].
  destruct (obs_alike t t' w w' dir dir' base base' ext ext' path path' hat hat' packed packed' b b' raw HF S1 S2 H1 U1 U2) as [A B].
  split; [exact A|]. split; [exact B|exact HX].
Qed.
Lemma packed_run t t' w w' c f f' : same_machine w w' -> nav_pairs t t' w w' c ->
  Forall2 (obs_pair t t' w w' c) (sort_str (find_files (w_ls w) (c_obsdir c) RE_OBS)) (sort_str (find_files (w_ls w') (c_obsdir c) RE_OBS)) ->
  Forall2 (fun x x' => same_file (tools_world t w) (tools_world t' w') c (fst x) (fst x') /\ Forall2 same_call (snd x) (snd x'))
    (snd (fst (main (tools_world t w) c f))) (snd (fst (main (tools_world t' w') c f'))) /\
  stopped_by (tools_world t w) c f = stopped_by (tools_world t' w') c f'.
Proof.
  intros HM HN HO. apply main_sim; [exact HM|apply nav_same; exact HN|].
  assert (HF : w_fuel w = w_fuel w') by apply HM. cbn [tools_world w_ls]. revert HO. generalize (sort_str (find_files (w_ls w) (c_obsdir c) RE_OBS)) (sort_str (find_files (w_ls w') (c_obsdir c) RE_OBS)).
  induction 1; constructor; [now apply pair_file|assumption].
Qed.
Lemma same_rows sat ops ops' : Forall2 same_call ops ops' -> rows_of sat ops = rows_of sat ops'.
Proof. induction 1 as [|o o' os os' H _ IH]; [reflexivity|]. destruct H; cbn [rows_of]; rewrite IH; reflexivity. Qed.
Lemma split_log {A B} (R : A -> B -> Prop) l1 x l2 l' : Forall2 R (l1 ++ x :: l2) l' -> exists l1' x' l2', l' = l1' ++ x' :: l2' /\ Forall2 R l1 l1' /\ R x x' /\ Forall2 R l2 l2'.
Proof.
  intros H. apply Forall2_app_inv_l in H. destruct H as [l1' [r [H1 [H2 ->]]]]. inversion H2; subst. eauto 8.
Qed.
Lemma row_texts oc oc' iv rows : oc_format oc = oc_format oc' -> oc_strftime oc = oc_strftime oc' -> forall rs rs',
  Forall2 (fun tq r => row_text (oc_format oc) (oc_strftime oc) iv (fst tq) (snd tq) = Ok r) rows rs ->
  Forall2 (fun tq r => row_text (oc_format oc') (oc_strftime oc') iv (fst tq) (snd tq) = Ok r) rows rs' -> rs = rs'.
Proof.
  intros E1 E2. rewrite <- E1, <- E2. clear E1 E2. induction rows as [|x rows IH]; intros rs rs' H H'; inversion H; inversion H'; subst; [reflexivity|]. f_equal; [congruence|eauto].
Qed.
Lemma alike_open w w' c name name' b : same_file w w' c name name' -> open_obs w name = Ok b ->
  exists b', open_obs w' name' = Ok b' /\ get_rinex_date name = get_rinex_date name' /\ h_interval (b_hdr b) = h_interval (b_hdr b').
Proof.
  intros [H _] O. rewrite O in H. destruct (open_obs w' name') as [b'|] eqn:O'; [|destruct H]. exists b'. split; [reflexivity|]. cbn [reads_alike] in H. destruct H as [H1 [H2 _]].
  rewrite (open_date w name b O), (open_date w' name' b' O') in H1. split; [exact H1|now rewrite H2].
Qed.
(** the result files of the two runs: same names, same rows *)
Lemma packed_files t t' w w' c f f' pre name ops post sat : same_machine w w' -> nav_pairs t t' w w' c ->
  Forall2 (obs_pair t t' w w' c) (sort_str (find_files (w_ls w) (c_obsdir c) RE_OBS)) (sort_str (find_files (w_ls w') (c_obsdir c) RE_OBS)) ->
  stopped_by (tools_world t w) c f = None -> snd (fst (main (tools_world t w) c f)) = pre ++ (name, ops) :: post -> rows_of sat ops <> [] ->
  (forall name' ops', In (name', ops') post -> rows_of sat ops' <> [] -> marker_of name' <> marker_of name \/ get_rinex_date name' <> get_rinex_date name) ->
  exists day h h' rows, get_rinex_date name = Some day /\ comments h /\ comments h' /\ length rows = length (rows_of sat ops) /\
    fs_get (result_file (c_outdir c) (marker_of name) sat day) (fst (fst (main (tools_world t w) c f))) = Some (h ++ concat rows) /\
    fs_get (result_file (c_outdir c) (marker_of name) sat day) (fst (fst (main (tools_world t' w') c f'))) = Some (h' ++ concat rows).
Proof.
  intros HM HN HO Hs Hlog Hr Ha. destruct (packed_run t t' w w' c f f' HM HN HO) as [R1 R2].
  destruct (run_files (tools_world t w) c f pre name ops post sat Hs Hlog Hr Ha) as [b [iv [d [x [O1 [O2 [O3 [O4 O5]]]]]]]].
  rewrite Hlog in R1. apply split_log in R1. destruct R1 as [pre' [[name' ops'] [post' [L' [_ [[Hf Hc] Hpost]]]]]]. cbn [fst snd] in Hf, Hc.
  destruct (alike_open _ _ _ _ _ _ Hf O1) as [b' [P1 [P2 P3]]]. pose proof (same_rows sat _ _ Hc) as E.
  assert (Hm : marker_of name = marker_of name') by apply Hf.
  destruct (run_files (tools_world t' w') c f' pre' name' ops' post' sat) as [b2 [iv' [d' [x' [Q1 [Q2 [Q3 [Q4 Q5]]]]]]]]; [congruence|exact L'|congruence| |].
  { intros nm os Hin Hrow.
    assert (X : exists nm0 os0, In (nm0, os0) post /\ same_file (tools_world t w) (tools_world t' w') c nm0 nm /\ Forall2 same_call os0 os).
    { clear - Hin Hpost. induction Hpost as [|[n0 o0] [n1 o1] l l' H _ IH]; [destruct Hin|]. destruct Hin as [X|Hin]; [injection X as <- <-; exists n0, o0; split; [now left|exact H]|].
      destruct (IH Hin) as [a [b [I1 I2]]]. exists a, b. split; [now right|exact I2]. }
    destruct X as [nm0 [os0 [I1 [I2 I3]]]]. assert (Hr0 : rows_of sat os0 <> []) by (rewrite (same_rows sat _ _ I3); exact Hrow).
    destruct (Ha nm0 os0 I1 Hr0) as [X|X]; [left; rewrite <- (proj1 (proj2 I2)), <- Hm; exact X|right].
    assert (Hw : written (tools_world t w) c f nm0 os0) by (unfold written; rewrite Hlog; apply in_or_app; right; now right).
    assert (Ho0 : exists b0, open_obs (tools_world t w) nm0 = Ok b0).
    { destruct os0 as [|o os0]; [destruct (Hr0 eq_refl)|]. destruct (file_announce _ _ _ _ _ Hw ltac:(discriminate)) as [b0 [_ [_ [_ [_ [_ [H0 _]]]]]]]. eauto. }
    destruct Ho0 as [b0 Ho0]. destruct (alike_open _ _ _ _ _ _ I2 Ho0) as [_ [_ [D _]]]. rewrite <- D, <- P2. exact X. }
  exists d. destruct O5 as [h [rs [-> [C1 F1]]]], Q5 as [h' [rs' [-> [C2 F2]]]].
  assert (Hiv : iv' = iv) by congruence. subst iv'. rewrite <- E in F2.
  assert (Hrs : rs = rs'). { eapply row_texts; [| |exact F1|exact F2]; [reflexivity|]. cbn [out_of oc_strftime tools_world w_strftime]. destruct HM as [_ [_ HM]]. rewrite HM. reflexivity. }
  subst rs'. exists h, h', rs. split; [exact O3|]. split; [exact C1|]. split; [exact C2|]. split; [clear - F1; induction F1; cbn [length]; congruence|]. split; [exact O4|].
  assert (d' = d) by congruence. subst d'. rewrite Hm. exact Q4.
Qed.

(** ** coordinates *)
Lemma packed_xyz t t' w w' c d x base ext ext' hat packed packed' : obs_base base hat -> arch ext packed -> arch ext' packed' -> x <> "/"%char ->
  let dir := d ++ [x] in let xyz := dir ++ lit "/" ++ base ++ lit ".xyz" in
  w_there w xyz = w_there w' xyz -> t_file t xyz = t_file t' xyz -> (forall s, t_locale t s = t_locale t' s) ->
  (find_files (w_ls w) (c_obsdir c) RE_XYZ = [] <-> find_files (w_ls w') (c_obsdir c) RE_XYZ = []) ->
  xyz_data (tools_world t w) c (dir ++ lit "/" ++ base ++ ext) = xyz_data (tools_world t' w') c (dir ++ lit "/" ++ base ++ ext').
Proof.
  intros Hb Ha Ha' Hx dir xyz Ht Hf Hl Hls. unfold xyz_data. cbn [tools_world w_ls w_there w_crd]. unfold dir in *.
  rewrite (find_xyz_dir (w_there w) d x base ext hat packed Hb Ha Hx), (find_xyz_dir (w_there w') d x base ext' hat packed' Hb Ha' Hx).
  fold xyz. rewrite <- Ht. destruct (find_files (w_ls w) (c_obsdir c) RE_XYZ) eqn:E, (find_files (w_ls w') (c_obsdir c) RE_XYZ) eqn:E'; [reflexivity|destruct Hls as [H _]; discriminate (H eq_refl)|destruct Hls as [_ H]; discriminate (H eq_refl)|].
  destruct (w_there w xyz); [|reflexivity]. unfold read_text. rewrite Hf. destruct (t_file t' xyz); cbn [of_option bind]; [rewrite Hl|]; reflexivity.
Qed.
