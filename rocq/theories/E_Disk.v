(** Runs that are stopped, over concrete files. *)
From Verif Require Import Base PyStr PyFloat PyDate PyPath PyRegex M_Common M_Header M_Obs2 M_Obs3 M_Label M_Rec M_Text M_Cfg M_Names M_Xyz M_Nav M_NmUtils M_Num M_Tec M_Sat M_Main M_Run M_Disk.
From Verif Require Import S_Text S_Time S_Obs2 S_Open2 S_Out W_Obs2 E_Obs2 S_Main S_Run S_Disk E_Main P_Str P_Main1 E_Run.
Open Scope nat_scope.

Lemma moves_all ev : forall d, moves d ev (fold_left perform ev d).
Proof. induction ev as [|e ev IH]; intros d; [constructor|]. apply moves_event. apply IH. Qed.
Lemma moves_then d ev d' : moves d ev d' -> forall p a b, dict_get seqb p (d_open d') = Some (a ++ b) ->
  moves d ev (mkDisk (fs_append p a (d_files d')) (dict_set seqb p b (d_open d'))).
Proof. induction 1; intros q x y E; [apply (moves_flush d q x y); [exact E|constructor]|eapply moves_flush; eauto|apply moves_event; auto]. Qed.
(** [n] operations are done; then [k] characters leave the buffer of [p] *)
Definition stop_at (w : world) (c : cfg) (f : fs) (n : nat) (p : str) (k : nat) : fs :=
  let d := fold_left perform (firstn n (operations w c)) (mkDisk f []) in
  match dict_get seqb p (d_open d) with Some b => fs_append p (firstn k b) (d_files d) | None => d_files d end.
Lemma stop_killed w c f n p k : killed w c f (stop_at w c f n p k).
Proof.
  unfold stop_at. set (d := fold_left perform (firstn n (operations w c)) (mkDisk f [])).
  assert (Hm : moves (mkDisk f []) (firstn n (operations w c)) d) by apply moves_all.
  destruct (dict_get seqb p (d_open d)) as [b|] eqn:E.
  - eexists (firstn n (operations w c)), (skipn n (operations w c)), _. split; [symmetry; apply firstn_skipn|]. split; [|shelve].
    apply (moves_then _ _ _ Hm p (firstn k b) (skipn k b)). now rewrite firstn_skipn.
    Unshelve. reflexivity.
  - exists (firstn n (operations w c)), (skipn n (operations w c)), d. split; [symmetry; apply firstn_skipn|]. auto.
Qed.

(** the operations of the run over one file with two rows *)
Definition kind (e : event) : string * str := match e with EOpen p => ("open", p) | EWrite p _ => ("write", p) | EClose p => ("close", p) end%string.
Lemma clean_operations : map kind (operations w_clean (e_cfg true None)) =
  [("open", g1_out); ("write", g1_out); ("write", g1_out); ("write", g1_out); ("close", g1_out)]%string.
Proof. vm_compute. reflexivity. Qed.

(** an observation file with one epoch more *)
Definition w_long : world :=
  e_world [("aaaa0010.12o", ex_file (put_body [BData (t_at 0 0 0 0) 0 (ex_sats 1); BData (t_at 0 0 30 0) 0 (ex_sats 1); BData (t_at 0 1 0 0) 0 (ex_sats 1)]))]%string
    [("brdc0010.12n", g1_nav)]%string.
Definition e_files (w : world) : fs := fst (fst (main w (e_cfg true None) [])).
Definition lengths (f : fs) : list (str * nat) := map (fun e => (fst e, length (snd e))) f.
Lemma long_run : stopped_by w_long (e_cfg true None) [] = None /\ stopped_by w_clean (e_cfg true None) [] = None /\
  stop_at w_long (e_cfg true None) [] 4 g1_out 999 = e_files w_clean /\ lengths (e_files w_clean) = [(g1_out, 538)] /\ lengths (e_files w_long) = [(g1_out, 611)].
Proof. vm_compute. auto 6. Qed.
Lemma looks_complete : exists w w' c f', killed w c [] f' /\ stopped_by w c [] = None /\ stopped_by w' c [] = None /\
  fst (fst (main w' c [])) = f' /\ f' <> [] /\ fst (fst (main w c [])) <> f'.
Proof.
  exists w_long, w_clean, (e_cfg true None), (e_files w_clean). destruct long_run as [H1 [H2 [H3 [H4 H5]]]].
  split; [rewrite <- H3; apply stop_killed|]. split; [exact H1|]. split; [exact H2|]. split; [reflexivity|].
  split; intros E.
  - rewrite E in H4. clear - H4. discriminate.
  - change (e_files w_long = e_files w_clean) in E. rewrite E, H4 in H5. clear - H5. discriminate.
Qed.
(** the file is cut in the middle of a row *)
Lemma cut_row : exists w c f' p x, killed w c [] f' /\ stopped_by w c [] = None /\ fs_get p f' = Some x /\ x <> [] /\ forall y, x <> y ++ [ascii_of_nat 10].
Proof.
  exists w_clean, (e_cfg true None), (stop_at w_clean (e_cfg true None) [] 4 g1_out 527), g1_out.
  destruct (fs_get g1_out (stop_at w_clean (e_cfg true None) [] 4 g1_out 527)) as [x|] eqn:E.
  2: { assert (H : fs_get g1_out (stop_at w_clean (e_cfg true None) [] 4 g1_out 527) <> None) by (vm_compute; discriminate). contradiction. }
  assert (H : match fs_get g1_out (stop_at w_clean (e_cfg true None) [] 4 g1_out 527) with Some x => last x "x"%char | None => ascii_of_nat 10 end <> ascii_of_nat 10) by (vm_compute; discriminate).
  rewrite E in H. exists x. split; [apply stop_killed|]. split; [exact (proj1 (proj2 long_run))|]. split; [reflexivity|]. split.
  - intros ->. vm_compute in E. discriminate.
  - intros y ->. apply H. now rewrite last_last.
Qed.
(** the result of an earlier run is gone before the new one is there *)
Lemma old_lost : exists w c f f' p old, fs_get p f = Some old /\ old <> [] /\ f = fst (fst (main w c [])) /\ stopped_by w c f = None /\ killed w c f f' /\ fs_get p f' = Some [].
Proof.
  exists w_clean, (e_cfg true None), (e_files w_clean), (stop_at w_clean (e_cfg true None) (e_files w_clean) 1 g1_out 0), g1_out.
  assert (H : match fs_get g1_out (e_files w_clean) with Some x => length x | None => 0 end = 538) by (vm_compute; reflexivity).
  destruct (fs_get g1_out (e_files w_clean)) as [old|]; [|discriminate]. exists old. split; [reflexivity|]. split; [intros ->; discriminate|].
  split; [reflexivity|]. split; [vm_compute; reflexivity|]. split; [apply stop_killed|]. vm_compute. reflexivity.
Qed.
(** a run over two observation files, stopped during the second: the first result is there, the second is empty *)
Definition b_out : str := lit "/out/2012/001/bbbb/bbbb_G01_001_12.dat".
Lemma between_files : exists f' ops l2, killed_after 1 w_obs2 (e_cfg true None) [] f' /\ snd (fst (main w_obs2 (e_cfg true None) [])) = [] ++ (a_name, ops) :: l2 /\
  rows_of (lit "G01") ops <> [] /\ l2 <> [] /\ apart (stopped_by w_obs2 (e_cfg true None) []) a_name (lit "G01") l2 /\ lengths f' = [(g1_out, 538); (b_out, 0)].
Proof.
  destruct (main_events w_obs2 (e_cfg true None)) as [l e] eqn:E.
  assert (H : match fst (main_events w_obs2 (e_cfg true None)) with [(_, ev1); (_, EOpen p :: r)] => lengths (d_files (fold_left perform (concat [ev1] ++ [EOpen p]) (mkDisk [] []))) | _ => [] end = [(g1_out, 538); (b_out, 0)])
    by (vm_compute; reflexivity).
  rewrite E in H. cbn [fst] in H. destruct l as [|[na ev1] l]; [clear - H; discriminate|]. destruct l as [|[nb ev2] l]; [clear - H; discriminate|].
  destruct ev2 as [|ev2 r]; [clear - H; discriminate|]. destruct l as [|]; [|destruct ev2; clear - H; discriminate]. destruct ev2 as [p| |]; [|clear - H; discriminate|clear - H; discriminate].
  assert (Hl : match snd (fst (main w_obs2 (e_cfg true None) [])) with [(a, ops); (b, _)] => (a, length (rows_of (lit "G01") ops), marker_of b) | _ => ([], 0, []) end = (a_name, 2, lit "bbbb")) by (vm_compute; reflexivity).
  assert (Ha : marker_of a_name = lit "aaaa") by (vm_compute; reflexivity).
  destruct (snd (fst (main w_obs2 (e_cfg true None) []))) as [|[a ops] l]; [clear - Hl; discriminate|]. destruct l as [|[b ops2] l]; [clear - Hl; discriminate|]. destruct l; [|clear - Hl; discriminate].
  assert (H1 : a = a_name) by (clear - Hl; congruence). assert (H2 : length (rows_of (lit "G01") ops) = 2) by (clear - Hl; congruence). assert (H3 : marker_of b = lit "bbbb") by (clear - Hl; congruence).
  subst a. eexists _, ops, [(b, ops2)].
  split; [exists [(na, ev1)], nb, [EOpen p], r, []; eexists; rewrite E; split; [reflexivity|]; split; [reflexivity|]; split; [apply moves_all|reflexivity]|].
  split; [reflexivity|]. split; [intros X; rewrite X in H2; clear - H2; discriminate|]. split; [discriminate|]. split; [|exact H].
  intros nm os [X|[]] _. injection X as <- <-. left. rewrite H3, Ha. discriminate.
Qed.
(** the buffers can always be written out *)
Lemma moves_end d ev d' d2 : moves d ev d' -> moves d' [] d2 -> moves d ev d2.
Proof. induction 1; intros H2; [exact H2|eapply moves_flush; eauto|apply moves_event; auto]. Qed.
Lemma flush_keys ks : forall d, exists d', moves d [] d' /\ (forall p b, In p ks -> dict_get seqb p (d_open d') = Some b -> b = []) /\
  forall p, dict_get seqb p (d_open d') = dict_get seqb p (d_open d) \/ dict_get seqb p (d_open d') = Some [].
Proof.
  induction ks as [|k ks IH]; intros d; [exists d; split; [constructor|]; split; [intros ? ? []|auto]|].
  destruct (dict_get seqb k (d_open d)) as [b|] eqn:E.
  - destruct (IH (mkDisk (fs_append k b (d_files d)) (dict_set seqb k [] (d_open d)))) as [d' [H1 [H2 H3]]]. exists d'. split; [apply (moves_flush d k b []); [now rewrite app_nil_r|exact H1]|].
    cbn [d_open] in H3. split.
    + intros p x [->|Hin] Hp; [|exact (H2 p x Hin Hp)]. destruct (H3 p) as [X|X]; rewrite X in Hp; [rewrite (dict_get_set seqb seqb_eq p p) in Hp|]; [|congruence].
      destruct (seqb p p) eqn:Es; [congruence|]. assert (seqb p p = true) by now apply seqb_eq. congruence.
    + intros p. destruct (H3 p) as [X|X]; [|now right]. rewrite X, (dict_get_set seqb seqb_eq). destruct (seqb p k) eqn:Es; [right|left]; reflexivity.
  - destruct (IH d) as [d' [H1 [H2 H3]]]. exists d'. split; [exact H1|]. split; [|exact H3]. intros p x [->|Hin] Hp; [|exact (H2 p x Hin Hp)].
    destruct (H3 p) as [X|X]; congruence.
Qed.
Lemma exits_exists w c f : exists f', exits w c f f'.
Proof.
  set (d := fold_left perform (operations w c) (mkDisk f [])). destruct (flush_keys (map fst (d_open d)) d) as [d' [H1 [H2 H3]]].
  exists (d_files d'), d'. split; [exact (moves_end _ _ _ _ (moves_all _ _) H1)|]. split; [|reflexivity]. intros p b Hp.
  destruct (H3 p) as [X|X]; [|congruence]. apply (H2 p b); [|exact Hp]. rewrite Hp in X. symmetry in X. clear - X. revert X. induction (d_open d) as [|[k x] l IH]; [discriminate|].
  cbn [dict_get map fst]. destruct (seqb p k) eqn:E; [left; symmetry; now apply seqb_eq|]. intros X. right. auto.
Qed.
(** a run that an exception stops after a row *)
Lemma exit_exception : exists f' ops, exits w_junk (e_cfg true None) [] f' /\ stopped_by w_junk (e_cfg true None) [] = Some AttributeError /\
  snd (fst (main w_junk (e_cfg true None) [])) = [] ++ (lit "/obs/aaaa0010.15o", ops) :: [] /\ rows_of (lit "G01") ops <> [].
Proof.
  destruct (exits_exists w_junk (e_cfg true None) []) as [f' H]. exists f'.
  assert (Hl : match snd (fst (main w_junk (e_cfg true None) [])) with [(a, ops)] => (a, length (rows_of (lit "G01") ops)) | _ => ([], 0) end = (lit "/obs/aaaa0010.15o", 1)) by (vm_compute; reflexivity).
  destruct (snd (fst (main w_junk (e_cfg true None) []))) as [|[a ops] l]; [clear - Hl; discriminate|]. destruct l; [|clear - Hl; discriminate].
  exists ops. split; [exact H|]. split; [vm_compute; reflexivity|]. assert (H1 : a = lit "/obs/aaaa0010.15o") by (clear - Hl; congruence). assert (H2 : length (rows_of (lit "G01") ops) = 1) by (clear - Hl; congruence).
  rewrite H1. split; [reflexivity|]. intros X. rewrite X in H2. clear - H2. discriminate.
Qed.
Lemma cut_old : exists f f', killed w_clean (e_cfg true None) f f' /\ stopped_by w_clean (e_cfg true None) f = None /\ f <> [] /\ fs_get g1_out f' = Some [].
Proof.
  exists [(g1_out, lit "old")], (stop_at w_clean (e_cfg true None) [(g1_out, lit "old")] 1 g1_out 0).
  split; [apply stop_killed|]. split; [vm_compute; reflexivity|]. split; [intros X; discriminate X|vm_compute; reflexivity].
Qed.
