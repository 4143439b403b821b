(** Disks that refuse operations, over concrete files. *)
From Verif Require Import Base PyStr PyFloat PyDate PyPath PyRegex M_Common M_Header M_Obs2 M_Obs3 M_Label M_Rec M_Text M_Cfg M_Names M_Xyz M_Nav M_NmUtils M_Num M_Tec M_Sat M_Main M_Run M_Disk M_Fault.
From Verif Require Import S_Text S_Time S_Obs2 S_Open2 S_Out W_Obs2 E_Obs2 S_Main S_Run S_Disk S_Fault E_Main P_Str P_Main1 E_Run E_Disk P_Fault.
Open Scope nat_scope.

Lemma attempts_all ev : forall d, attempts d ev (fold_left perform ev d) None.
Proof. induction ev as [|e ev IH]; intros d; [constructor|]. apply attempts_event. apply IH. Qed.
Lemma attempts_app a : forall d b d' x, attempts (fold_left perform a d) b d' x -> attempts d (a ++ b) d' x.
Proof. induction a as [|e a IH]; intros d b d' x H; [exact H|]. cbn [app]. apply attempts_event. apply IH. exact H. Qed.
(** the next operation is refused after [k] characters of the buffer were written *)
Definition refuse (d : disk) (e : event) (k : nat) : disk :=
  match e with
  | EOpen p => d
  | EWrite p s => match dict_get seqb p (d_open (perform d e)) with
                  | Some b => mkDisk (fs_append p (firstn k b) (d_files d)) (dict_set seqb p (skipn k b) (d_open (perform d e)))
                  | None => d
                  end
  | EClose p => match dict_get seqb p (d_open d) with Some b => mkDisk (fs_append p (firstn k b) (d_files d)) (d_remove p (d_open d)) | None => d end
  end.
Definition refusable (d : disk) (e : event) : bool :=
  match e with EOpen p => true | EWrite p s => match dict_get seqb p (d_open (perform d e)) with Some _ => true | None => false end
  | EClose p => match dict_get seqb p (d_open d) with Some _ => true | None => false end end.
Lemma refuse_ok d e k : refusable d e = true -> refused d e (refuse d e k).
Proof.
  destruct e as [p|p s|p]; cbn [refusable refuse]; [constructor| |].
  - destruct (dict_get seqb p (d_open (perform d (EWrite p s)))) as [b|] eqn:E; [|discriminate]. intros _. apply refused_write. now rewrite firstn_skipn.
  - destruct (dict_get seqb p (d_open d)) as [b|] eqn:E; [|discriminate]. intros _. apply (refused_close d p _ (skipn k b)). now rewrite firstn_skipn.
Qed.
Definition fail_disk (ev : list event) (f : fs) (n k : nat) : option disk :=
  let d := fold_left perform (firstn n ev) (mkDisk f []) in
  match nth_error ev n with Some e => if refusable d e then Some (refuse d e k) else None | None => None end.
Lemma fail_attempts ev f n k d : fail_disk ev f n k = Some d -> attempts (mkDisk f []) ev d (Some OSError).
Proof.
  unfold fail_disk. destruct (nth_error ev n) as [e|] eqn:E; [|discriminate]. destruct (nth_error_split ev n E) as [a [b [-> Hn]]].
  assert (F : firstn n (a ++ e :: b) = a) by (rewrite <- Hn, firstn_app, Nat.sub_diag, firstn_all; cbn [firstn]; apply app_nil_r). rewrite F.
  destruct (refusable (fold_left perform a (mkDisk f [])) e) eqn:R; [|discriminate]. intros H. injection H as <-.
  apply attempts_app. eapply attempts_fail; [now apply refuse_ok|constructor].
Qed.
Definition fail_files (ev : list event) (f : fs) (n k : nat) : option fs := match fail_disk ev f n k with Some d => Some (d_files d) | None => None end.
Lemma fail_faulty w c f n k f' : fail_files (operations w c) f n k = Some f' -> faulty w c f f' (Some OSError).
Proof.
  unfold fail_files. destruct (fail_disk (operations w c) f n k) as [d|] eqn:E; [|discriminate]. intros H. injection H as <-.
  exists d, (Some OSError). split; [exact (fail_attempts _ _ _ _ _ E)|]. auto.
Qed.
Lemma fail_save w c f n k f' : fail_files (fst (save_events w c)) f n k = Some f' -> save_faulty w c f f' (Some OSError).
Proof.
  unfold fail_files. destruct (fail_disk (fst (save_events w c)) f n k) as [d|] eqn:E; [|discriminate]. intros H. injection H as <-.
  exists d, (Some OSError). split; [exact (fail_attempts _ _ _ _ _ E)|]. auto.
Qed.

(** the disk is full while the second row is written; the file gets 500 of its 538 characters, and there was an old one *)
Lemma disk_full : exists f', faulty w_clean (e_cfg true None) [(g1_out, lit "old")] f' (Some OSError) /\ stopped_by w_clean (e_cfg true None) [(g1_out, lit "old")] = None /\
  lengths f' = [(g1_out, 500)].
Proof.
  destruct (fail_files (operations w_clean (e_cfg true None)) [(g1_out, lit "old")] 3 500) as [f'|] eqn:E.
  - exists f'. split; [exact (fail_faulty _ _ _ _ _ _ E)|]. split; [vm_compute; reflexivity|].
    assert (X : match fail_files (operations w_clean (e_cfg true None)) [(g1_out, lit "old")] 3 500 with Some f' => lengths f' | None => [] end = [(g1_out, 500)]) by (vm_compute; reflexivity).
    rewrite E in X. exact X.
  - exfalso. assert (X : match fail_files (operations w_clean (e_cfg true None)) [(g1_out, lit "old")] 3 500 with Some _ => true | None => false end = true) by (vm_compute; reflexivity).
    rewrite E in X. discriminate.
Qed.
Lemma disk_good w c f : exists f', faulty w c f f' (stopped_by w c f).
Proof. eexists. exists (fold_left perform (operations w c) (mkDisk f [])), None. split; [apply attempts_all|]. split; [reflexivity|]. symmetry. apply events_exn. Qed.
(** the result file of the second observation file cannot be opened *)
Lemma second_refused : exists f' ops l2, faulty_after 1 w_obs2 (e_cfg true None) [] f' /\ snd (fst (main w_obs2 (e_cfg true None) [])) = [] ++ (a_name, ops) :: l2 /\
  rows_of (lit "G01") ops <> [] /\ l2 <> [] /\ apart (stopped_by w_obs2 (e_cfg true None) []) a_name (lit "G01") l2.
Proof.
  destruct between_files as [f1 [ops [l2 [_ [H2 [H3 [H4 [H5 _]]]]]]]].
  assert (X : match fst (main_events w_obs2 (e_cfg true None)) with [_; (_, EOpen _ :: _)] => true | _ => false end = true) by (vm_compute; reflexivity).
  destruct (fst (main_events w_obs2 (e_cfg true None))) as [|[nm1 ev1] l] eqn:E; [discriminate|]. destruct l as [|[nm2 ev2] l]; [discriminate|]. destruct ev2 as [|e ev2]; [discriminate|].
  destruct e as [p|p s|p]; [|discriminate|discriminate]. destruct l; [|discriminate].
  exists (d_files (fold_left perform ev1 (mkDisk [] []))), ops, l2. split; [|auto].
  exists [(nm1, ev1)], nm2, (EOpen p :: ev2), [], (fold_left perform ev1 (mkDisk [] [])), (fold_left perform ev1 (mkDisk [] [])).
  split; [exact E|]. split; [reflexivity|]. split; [cbn [map concat snd]; rewrite app_nil_r; apply attempts_all|]. split; [|reflexivity].
  eapply attempts_fail; [apply refused_open|constructor].
Qed.

(** --save-coordinates over two observation files *)
Definition w_crd2 : world := e_world [("site0010.12o", obs2); ("aaaa0010.12o", obs2)]%string nav2.
Definition old_crds : fs := [(lit "a.txt", lit "text"); (lit "coordinates.txt", lit "old")].
Lemma crd2_run : snd (save_main w_crd2 (e_cfg true None) old_crds) = None /\ lengths (fst (save_main w_crd2 (e_cfg true None) old_crds)) = [(lit "a.txt", 4); (lit "coordinates.txt", 86)].
Proof. split; vm_compute; reflexivity. Qed.
Definition crd2_killed (n k : nat) : fs :=
  let d := fold_left perform (firstn n (fst (save_events w_crd2 (e_cfg true None)))) (mkDisk old_crds []) in
  match dict_get seqb crds_file (d_open d) with Some b => fs_append crds_file (firstn k b) (d_files d) | None => d_files d end.
Lemma crd2_stop n k : save_killed w_crd2 (e_cfg true None) old_crds (crd2_killed n k).
Proof.
  unfold crd2_killed. set (evs := fst (save_events w_crd2 (e_cfg true None))). set (d := fold_left perform (firstn n evs) (mkDisk old_crds [])).
  assert (Hm : moves (mkDisk old_crds []) (firstn n evs) d) by apply moves_all.
  destruct (dict_get seqb crds_file (d_open d)) as [b|] eqn:E.
  - eexists (firstn n evs), (skipn n evs), _. split; [symmetry; apply firstn_skipn|]. split; [|shelve].
    apply (moves_then _ _ _ Hm crds_file (firstn k b) (skipn k b)). now rewrite firstn_skipn.
    Unshelve. reflexivity.
  - exists (firstn n evs), (skipn n evs), d. split; [symmetry; apply firstn_skipn|]. auto.
Qed.
Lemma crd2_example : (exists f', save_killed w_crd2 (e_cfg true None) old_crds f' /\ lengths f' = [(lit "a.txt", 4); (lit "coordinates.txt", 50)]) /\
  snd (save_main w_crd2 (e_cfg true None) old_crds) = None /\ lengths (fst (save_main w_crd2 (e_cfg true None) old_crds)) = [(lit "a.txt", 4); (lit "coordinates.txt", 86)].
Proof. split; [|exact crd2_run]. exists (crd2_killed 3 50). split; [apply crd2_stop|vm_compute; reflexivity]. Qed.
Lemma crd2_refused : exists f', save_faulty w_crd2 (e_cfg true None) old_crds f' (Some OSError) /\ lengths f' = [(lit "a.txt", 4); (lit "coordinates.txt", 20)].
Proof.
  destruct (fail_files (fst (save_events w_crd2 (e_cfg true None))) old_crds 3 20) as [f'|] eqn:E.
  - exists f'. split; [exact (fail_save _ _ _ _ _ _ E)|].
    assert (X : match fail_files (fst (save_events w_crd2 (e_cfg true None))) old_crds 3 20 with Some f' => lengths f' | None => [] end = [(lit "a.txt", 4); (lit "coordinates.txt", 20)]) by (vm_compute; reflexivity).
    rewrite E in X. exact X.
  - exfalso. assert (X : match fail_files (fst (save_events w_crd2 (e_cfg true None))) old_crds 3 20 with Some _ => true | None => false end = true) by (vm_compute; reflexivity).
    rewrite E in X. discriminate.
Qed.
Lemma crd_good w c f : exists f', save_exits w c f f' (snd (save_main w c f)).
Proof.
  destruct (flush_keys (map fst (d_open (fold_left perform (fst (save_events w c)) (mkDisk f [])))) (fold_left perform (fst (save_events w c)) (mkDisk f []))) as [d' [H1 [H2 H3]]].
  exists (d_files d'), d'. split; [exact (moves_end _ _ _ _ (moves_all _ _) H1)|]. split; [|split; [reflexivity|]].
  - intros p b Hp. destruct (H3 p) as [X|X]; [|congruence]. apply (H2 p b); [|exact Hp]. rewrite Hp in X. symmetry in X. clear - X. revert X.
    induction (d_open (fold_left perform (fst (save_events w c)) (mkDisk f []))) as [|[k x] l IH]; [discriminate|].
    cbn [dict_get map fst]. destruct (seqb p k) eqn:E; [left; symmetry; now apply seqb_eq|]. intros X. right. auto.
  - destruct (save_shape w c f) as [lines [-> _]]. reflexivity.
Qed.
