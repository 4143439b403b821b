(** Disks that refuse operations: proofs. *)
From Coq Require Import Relations.Relation_Operators.
From Verif Require Import Base PyStr PyFloat PyDate PyPath PyRegex M_Common M_Header M_Obs2 M_Obs3 M_Label M_Rec M_Text M_Cfg M_Names M_Xyz M_Nav M_NmUtils M_Num M_Tec M_Sat M_Main M_Run M_Disk M_Fault S_Out S_Main S_Disk S_Fault.
From Verif Require Import P_Str P_Out P_Run4 P_Disk1 P_Disk3 P_Disk5 E_Disk.
Open Scope nat_scope.

Lemma moves_app d a d1 : moves d a d1 -> forall b d2, moves d1 b d2 -> moves d (a ++ b) d2.
Proof. induction 1; intros z d2 H2; cbn [app]; [exact H2|eapply moves_flush; eauto|apply moves_event; auto]. Qed.
(** what leaves the buffers of some file objects can leave them when there are more *)
Lemma moves_more d ev d' : moves d ev d' -> ev = [] -> forall m, d_files m = d_files d ->
  (forall q x, dict_get seqb q (d_open d) = Some x -> dict_get seqb q (d_open m) = Some x) -> exists m', moves m [] m' /\ d_files m' = d_files d'.
Proof.
  induction 1 as [d|d p a b ev d' E H IH|d e ev d' H IH]; intros He m Hf Ho; [|subst ev|discriminate].
  - exists m. split; [constructor|exact Hf].
  - destruct (IH eq_refl (mkDisk (fs_append p a (d_files m)) (dict_set seqb p b (d_open m)))) as [m' [H1 H2]].
    + cbn [d_files]. now rewrite Hf.
    + intros q x. cbn [d_open]. destruct (path_dec q p) as [->|Hn]; [rewrite !sget_same; auto|]. rewrite !sget_other by exact Hn. apply Ho.
    + exists m'. split; [|exact H2]. apply (moves_flush m p a b); [exact (Ho _ _ E)|exact H1].
Qed.
Lemma refused_moves d e d1 d' : refused d e d1 -> moves d1 [] d' -> exists did rest d2, [e] = did ++ rest /\ moves d did d2 /\ d_files d2 = d_files d'.
Proof.
  intros H Hm. destruct H as [d p|d p s a b E|d p a b E].
  - exists [], [EOpen p], d'. auto.
  - exists [EWrite p s], [], d'. split; [reflexivity|]. split; [|reflexivity]. apply moves_event. exact (moves_flush _ _ _ _ _ _ E Hm).
  - destruct (moves_more _ _ _ Hm eq_refl (mkDisk (fs_append p a (d_files d)) (dict_set seqb p b (d_open d)))) as [m' [H1 H2]]; [reflexivity| |].
    + intros q x. cbn [d_open]. destruct (path_dec q p) as [->|Hn]; [rewrite remove_same; discriminate|]. rewrite remove_other, sget_other by exact Hn. auto.
    + exists [], [EClose p], m'. split; [reflexivity|]. split; [|exact H2]. exact (moves_flush _ _ _ _ _ _ E H1).
Qed.
Lemma attempts_moves d ev d' x : attempts d ev d' x ->
  match x with
  | None => moves d ev d'
  | Some e => e = OSError /\ exists did rest d2, ev = did ++ rest /\ moves d did d2 /\ d_files d2 = d_files d'
  end.
Proof.
  induction 1 as [d|d p a b ev d' x E H IH|d e ev d' x H IH|d e ev d1 d' H Hm].
  - constructor.
  - destruct x as [e|]; [|exact (moves_flush _ _ _ _ _ _ E IH)]. destruct IH as [He [did [rest [d2 [H1 [H2 H3]]]]]]. split; [exact He|].
    exists did, rest, d2. split; [exact H1|]. split; [exact (moves_flush _ _ _ _ _ _ E H2)|exact H3].
  - destruct x as [e'|]; [|exact (moves_event _ _ _ _ IH)]. destruct IH as [He [did [rest [d2 [-> [H2 H3]]]]]]. split; [exact He|].
    exists (e :: did), rest, d2. split; [reflexivity|]. split; [exact (moves_event _ _ _ _ H2)|exact H3].
  - split; [reflexivity|]. destruct (refused_moves _ _ _ _ H Hm) as [did [rest [d2 [H1 [H2 H3]]]]]. exists did, (rest ++ ev), d2.
    split; [rewrite app_assoc, <- H1; reflexivity|]. auto.
Qed.
Lemma attempts_split a : forall b d d' x, attempts d (a ++ b) d' x ->
  (x <> None /\ attempts d a d' x) \/ exists d1, attempts d a d1 None /\ attempts d1 b d' x.
Proof.
  intros b d d' x H. remember (a ++ b) as ev eqn:Ev. revert a b Ev. induction H as [d|d p u v ev d' x E H IH|d e ev d' x H IH|d e ev d1 d' H Hm]; intros a b Ev.
  - destruct a; [|discriminate]. cbn [app] in Ev. subst b. right. exists d. split; constructor.
  - destruct (IH a b Ev) as [[X1 X2]|[d1 [X1 X2]]]; [left; split; [exact X1|exact (attempts_flush _ _ _ _ _ _ _ E X2)]|].
    right. exists d1. split; [exact (attempts_flush _ _ _ _ _ _ _ E X1)|exact X2].
  - destruct a as [|e' a]; [cbn [app] in Ev; subst b; right; exists d; split; [constructor|now apply attempts_event]|].
    cbn [app] in Ev. injection Ev as <- Ev. destruct (IH a b Ev) as [[X1 X2]|[d1 [X1 X2]]]; [left; split; [exact X1|now apply attempts_event]|].
    right. exists d1. split; [now apply attempts_event|exact X2].
  - destruct a as [|e' a]; [cbn [app] in Ev; subst b; right; exists d; split; [constructor|exact (attempts_fail _ _ _ _ _ H Hm)]|].
    cbn [app] in Ev. injection Ev as <- Ev. left. split; [discriminate|exact (attempts_fail _ _ _ _ _ H Hm)].
Qed.

Section Run.
Context (w : world) (c : cfg).

Lemma events_exn f : snd (main_events w c) = stopped_by w c f.
Proof. destruct (main_shape w c f) as [l [-> _]]. reflexivity. Qed.
Lemma faulty_killed f f' e : faulty w c f f' e -> killed w c f f'.
Proof.
  intros [d [x [H [Hf _]]]]. apply attempts_moves in H. destruct x as [e'|].
  - destruct H as [_ [did [rest [d2 [H1 [H2 H3]]]]]]. exists did, rest, d2. split; [exact H1|]. split; [exact H2|congruence].
  - exists (operations w c), [], d. split; [now rewrite app_nil_r|]. auto.
Qed.
Lemma faulty_exn f f' e : faulty w c f f' e -> e = Some OSError \/ e = stopped_by w c f.
Proof.
  intros [d [x [H [_ ->]]]]. apply attempts_moves in H. destruct x as [e'|]; [destruct H as [-> _]; now left|]. right. apply events_exn.
Qed.
Lemma faulty_noticed f f' : faulty w c f f' None -> stopped_by w c f = None /\ forall p, fs_get p f' = fs_get p (fst (fst (main w c f))).
Proof.
  intros [d [x [H [<- He]]]]. destruct x as [e'|]; [discriminate|]. rewrite (events_exn f) in He. symmetry in He. split; [exact He|].
  apply ends_with; [exact He|]. exact (attempts_moves _ _ _ _ H).
Qed.
Lemma faulty_beginning f f' e : faulty w c f f' e -> forall p, fs_get p f' = fs_get p f \/
  exists name ops sat day iv x full, written w c f name ops /\ get_rinex_date name = Some day /\ p = result_file (c_outdir c) (marker_of name) sat day /\
    (rows_of sat ops <> [] -> exists b, open_obs w name = Ok b /\ h_interval (b_hdr b) = Some iv) /\ (stopped_by w c f = None -> rows_of sat ops <> []) /\
    fs_get p f' = Some x /\ begins x full /\ file_of_rows (out_of w c) iv (rows_of sat ops) full.
Proof. intros H. exact (killed_beginning w c f f' (faulty_killed f f' e H)). Qed.
Lemma faulty_again f f' e : faulty w c f f' e -> stopped_by w c f = None ->
  stopped_by w c f' = None /\ forall p, fs_get p (fst (fst (main w c f'))) = fs_get p (fst (fst (main w c f))).
Proof. intros H. exact (killed_again w c f f' (faulty_killed f f' e H)). Qed.
Lemma faulty_killed_after n f f' : faulty_after n w c f f' -> killed_after n w c f f'.
Proof.
  intros [pre [name [ev [post [d [d' [H1 [H2 [H3 [H4 H5]]]]]]]]]]. apply attempts_moves in H3. apply attempts_moves in H4.
  destruct H4 as [_ [did [rest [d2 [-> [H6 H7]]]]]]. exists pre, name, did, rest, post, d2. split; [exact H1|]. split; [exact H2|].
  split; [exact (moves_app _ _ _ H3 _ _ H6)|congruence].
Qed.
Lemma faulty_done n f f' l1 name ops l2 sat : faulty_after n w c f f' -> snd (fst (main w c f)) = l1 ++ (name, ops) :: l2 -> length l1 < n -> rows_of sat ops <> [] ->
  apart (stopped_by w c f) name sat (firstn (n - length l1) l2) ->
  exists b iv d content, open_obs w name = Ok b /\ h_interval (b_hdr b) = Some iv /\ get_rinex_date name = Some d /\
    fs_get (result_file (c_outdir c) (marker_of name) sat d) f' = Some content /\ file_of_rows (out_of w c) iv (rows_of sat ops) content.
Proof. intros H. apply killed_done. now apply faulty_killed_after. Qed.
(** a refusal happens during one of the observation files *)
Lemma faulty_where f f' e : faulty w c f f' e -> e <> stopped_by w c f -> exists n, faulty_after n w c f f'.
Proof.
  intros [d [x [H [Hf ->]]]] Hn. destruct x as [e'|]; [|exfalso; apply Hn; apply events_exn].
  assert (e' = OSError) by exact (proj1 (attempts_moves _ _ _ _ H)). subst e'. clear Hn.
  unfold operations in H. unfold faulty_after.
  assert (G : forall (l : list (str * list event)) d0, attempts d0 (concat (map snd l)) d (Some OSError) -> exists pre name ev post d1, l = pre ++ (name, ev) :: post /\
    attempts d0 (concat (map snd pre)) d1 None /\ attempts d1 ev d (Some OSError)).
  { clear H Hf. induction l as [|[nm ev] l IH]; intros d0 H.
    - exfalso. cbn [map concat] in H. remember (@nil event) as ev eqn:Ev. remember (Some OSError) as x eqn:Ex. induction H; try discriminate. auto.
    - cbn [map concat snd] in H. apply attempts_split in H. destruct H as [[_ H]|[d1 [X1 X2]]].
      + exists [], nm, ev, l, d0. split; [reflexivity|]. split; [constructor|exact H].
      + destruct (IH d1 X2) as [pre [name [ev' [post [d2 [-> [Y1 Y2]]]]]]]. exists ((nm, ev) :: pre), name, ev', post, d2. split; [reflexivity|].
        split; [|exact Y2]. cbn [map concat snd]. clear - X1 Y1. remember (@None exn) as o eqn:Eo. induction X1; try discriminate; cbn [app]; [exact Y1|eapply attempts_flush; eauto|apply attempts_event; auto]. }
  destruct (G _ _ H) as [pre [name [ev [post [d1 [H1 [H2 H3]]]]]]]. exists (length pre), pre, name, ev, post, d1, d. auto 6.
Qed.

(** ** --save-coordinates *)
Lemma lines_shape names : forall f ev e, lines_events w names = (ev, e) -> save_loop w f names = (sem f ev, e) /\ Forall (fun x => exists s, x = EWrite crds_file s) ev.
Proof.
  induction names as [|nm r IH]; intros f ev e; cbn [lines_events save_loop]; [intros H; injection H as <- <-; split; [reflexivity|constructor]|].
  assert (Stop : forall x, ([], Some x) = (ev, e) -> (f, Some x) = (sem f ev, e) /\ Forall (fun x => exists s, x = EWrite crds_file s) ev)
    by (intros x X; injection X as <- <-; split; [reflexivity|constructor]).
  destruct (open_obs w nm) as [b|x]; [|destruct x; try exact (Stop _); exact (IH f ev e)].
  destruct (crds_line w nm b) as [[line|]|x]; [|exact (IH f ev e)|exact (Stop x)].
  destruct (lines_events w r) as [ev1 e1] eqn:El. intros H. injection H as <- <-. destruct (IH (fs_append crds_file line f) ev1 e1 eq_refl) as [H1 H2].
  split; [exact H1|]. constructor; [now exists line|exact H2].
Qed.
Lemma save_shape f : exists lines, save_events w c = (lines, snd (save_main w c f)) /\ sem f lines = fst (save_main w c f) /\
  (lines = [] \/ exists ev z, lines = EOpen crds_file :: ev ++ z /\ Forall (fun x => exists s, x = EWrite crds_file s) ev /\
     (snd (save_main w c f) = None /\ z = [EClose crds_file] \/ snd (save_main w c f) <> None /\ z = [])).
Proof.
  unfold save_events, save_main. destruct (sort_str _) as [|nm r]; [exists []; auto|]. destruct (lines_events w (nm :: r)) as [ev e] eqn:E.
  destruct (lines_shape _ (fs_truncate crds_file f) ev e E) as [-> H]. cbn [fst snd]. eexists. split; [reflexivity|]. split.
  - cbn [sem fold_left sem1]. fold (sem (fs_truncate crds_file f) (ev ++ match e with None => [EClose crds_file] | Some _ => [] end)).
    rewrite sem_app. destruct e; reflexivity.
  - right. eexists ev, _. split; [reflexivity|]. split; [exact H|]. destruct e; [right|left]; split; congruence.
Qed.
Lemma save_touch (f : fs) p : p <> crds_file -> forall e, In e (fst (save_events w c)) -> touches p e = false.
Proof.
  intros Hp e He. destruct (save_shape f) as [lines [E [_ [->|[ev [z [-> [Hev Hz]]]]]]]]; rewrite E in He; [destruct He|]. apply seqb_neq in Hp.
  cbn [fst] in He. destruct He as [<-|He]; [exact Hp|]. apply in_app_or in He. destruct He as [He|He].
  - rewrite Forall_forall in Hev. destruct (Hev e He) as [s ->]. exact Hp.
  - destruct Hz as [[_ ->]|[_ ->]]; [destruct He as [<-|[]]; reflexivity|destruct He].
Qed.
Lemma save_opens (f : fs) e r : fst (save_events w c) = e :: r -> e = EOpen crds_file /\ forall x, In x r -> opens crds_file x = false.
Proof.
  destruct (save_shape f) as [lines [E [_ [->|[ev [z [-> [Hev Hz]]]]]]]]; rewrite E; cbn [fst]; [discriminate|]. intros H. injection H as <- <-.
  split; [reflexivity|]. intros x Hx. apply in_app_or in Hx. destruct Hx as [Hx|Hx].
  - rewrite Forall_forall in Hev. destruct (Hev x Hx) as [s ->]. reflexivity.
  - destruct Hz as [[_ ->]|[_ ->]]; [destruct Hx as [<-|[]]; reflexivity|destruct Hx].
Qed.
Lemma save_beginning f f' : save_killed w c f f' -> (forall p, p <> crds_file -> fs_get p f' = fs_get p f) /\
  (fs_get crds_file f' = fs_get crds_file f \/
   exists x full, fs_get crds_file f' = Some x /\ fs_get crds_file (fst (save_main w c f)) = Some full /\ begins x full).
Proof.
  intros [did [rest [d [H1 [H2 <-]]]]]. split.
  - intros p Hp. assert (Ht : forall e, In e did -> touches p e = false) by (intros e He; apply (save_touch f p Hp); rewrite H1; apply in_or_app; now left).
    destruct (moves_file f did d p H2) as [->|[Hin _]]; [now apply sem_untouched|]. exfalso.
    destruct (opened_touched p did [] Hin) as [[]|[e [He Hx]]]. rewrite (Ht e He) in Hx. discriminate.
  - destruct did as [|e0 did]; [left; destruct (moves_file f [] d crds_file H2) as [->|[[] _]]; reflexivity|]. right.
    destruct (save_opens f e0 (did ++ rest) H1) as [-> Hno]. destruct (save_shape f) as [lines [E [Hs _]]]. rewrite E in H1. cbn [fst] in H1. rewrite H1 in Hs.
    rewrite <- Hs. cbn [app sem fold_left sem1]. fold (sem (fs_truncate crds_file f) (did ++ rest)). rewrite sem_app.
    destruct (sem_appends crds_file rest (sem (fs_truncate crds_file f) did) (fun e He => Hno e (in_or_app _ _ _ (or_intror He)))) as [B1 B2].
    destruct (sem_appends crds_file did (fs_truncate crds_file f) (fun e He => Hno e (in_or_app _ _ _ (or_introl He)))) as [_ B3].
    assert (N : fs_get crds_file (sem (fs_truncate crds_file f) did) <> None) by (apply B3; rewrite truncate_same; discriminate). specialize (B2 N).
    pose proof (moves_there _ _ _ crds_file H2 (or_introl eq_refl)) as Ht.
    assert (B0 : begins (known (fs_get crds_file (d_files d))) (known (fs_get crds_file (sem (fs_truncate crds_file f) did)))).
    { change (sem (fs_truncate crds_file f) did) with (sem f (EOpen crds_file :: did)). destruct (moves_file f _ d crds_file H2) as [->|[_ [x [-> Hx]]]]; [apply begins_refl|exact Hx]. }
    destruct (fs_get crds_file (d_files d)) as [x|]; [|congruence]. destruct (fs_get crds_file (sem (sem (fs_truncate crds_file f) did) rest)) as [full|]; [|congruence].
    exists x, full. split; [reflexivity|]. split; [reflexivity|]. exact (begins_trans _ _ _ B0 B1).
Qed.
Lemma save_indep f f' : (forall p, p <> crds_file -> fs_get p f' = fs_get p f) -> (fst (save_events w c) = [] -> fs_get crds_file f' = fs_get crds_file f) ->
  snd (save_main w c f') = snd (save_main w c f) /\ forall p, fs_get p (fst (save_main w c f')) = fs_get p (fst (save_main w c f)).
Proof.
  intros Hp Hc. destruct (save_shape f) as [l [E [Hs _]]]. destruct (save_shape f') as [l' [E' [Hs' _]]].
  assert (l' = l) by congruence. subst l'. split; [congruence|]. intros p. rewrite <- Hs, <- Hs'. destruct (path_dec p crds_file) as [->|Hn].
  - rewrite E in Hc. cbn [fst] in Hc. destruct l as [|e l]; [now apply Hc|]. assert (e = EOpen crds_file) by (eapply (save_opens f e l); rewrite E; reflexivity). subst e.
    cbn [sem fold_left sem1]. apply sem_indep. now rewrite !truncate_same.
  - apply sem_indep. now apply Hp.
Qed.
Lemma save_again f f' : save_killed w c f f' ->
  snd (save_main w c f') = snd (save_main w c f) /\ forall p, fs_get p (fst (save_main w c f')) = fs_get p (fst (save_main w c f)).
Proof.
  intros H. apply save_indep; [exact (proj1 (save_beginning f f' H))|]. intros X. destruct H as [did [rest [d [H1 [H2 <-]]]]]. rewrite X in H1. destruct did; [|discriminate].
  destruct (moves_file f [] d crds_file H2) as [->|[[] _]]; reflexivity.
Qed.
Lemma save_done f d : moves (mkDisk f []) (fst (save_events w c)) d -> (forall b, dict_get seqb crds_file (d_open d) = Some b -> b = []) ->
  forall p, fs_get p (d_files d) = fs_get p (fst (save_main w c f)).
Proof.
  intros H2 Hb p. destruct (save_shape f) as [lines [E [<- _]]]. destruct (path_dec p crds_file) as [->|Hn].
  - destruct lines as [|e l]; [rewrite E in H2; cbn [fst] in H2; destruct (moves_file f [] d crds_file H2) as [->|[[] _]]; reflexivity|].
    assert (e = EOpen crds_file) by (eapply (save_opens f e l); rewrite E; reflexivity). subst e. rewrite E in H2. cbn [fst] in H2.
    assert (N : fs_get crds_file (sem f (EOpen crds_file :: l)) <> None).
    { cbn [sem fold_left sem1]. apply (sem_appends crds_file l (fs_truncate crds_file f)); [apply (save_opens f (EOpen crds_file) l); rewrite E; reflexivity|]. rewrite truncate_same. discriminate. }
    apply flushed; [exact H2|exact Hb|exact N|now left].
  - pose proof (moves_backed _ _ _ H2 f (start_backed f) p) as Hk. rewrite E in Hk. cbn [fst] in Hk. destruct (dict_get seqb p (d_open d)) as [b|] eqn:Eo; [|exact Hk]. exfalso.
    pose proof (moves_opened _ _ _ H2 [] (fun p X => False_ind _ (X eq_refl)) p ltac:(congruence)) as Ho.
    destruct (opened_touched p _ [] Ho) as [[]|[e [He Hx]]]. rewrite (save_touch f p Hn e He) in Hx. discriminate.
Qed.
Lemma save_exit f f' e : save_exits w c f f' e -> e = snd (save_main w c f) /\ forall p, fs_get p f' = fs_get p (fst (save_main w c f)).
Proof.
  intros [d [H1 [H2 [<- ->]]]]. destruct (save_shape f) as [lines [E _]]. split; [now rewrite E|]. apply save_done; [exact H1|]. intros b. apply H2.
Qed.
Lemma save_closed f d : snd (save_main w c f) = None -> moves (mkDisk f []) (fst (save_events w c)) d -> forall b, dict_get seqb crds_file (d_open d) = Some b -> b = [].
Proof.
  intros Hn H b Hb. exfalso. pose proof (moves_opened _ _ _ H [] (fun p X => False_ind _ (X eq_refl)) crds_file ltac:(congruence)) as Ho.
  destruct (save_shape f) as [lines [E [_ [->|[ev [z [-> [_ [[_ ->]|[X _]]]]]]]]]]; [rewrite E in Ho; destruct Ho| |contradiction].
  rewrite E in Ho. cbn [fst] in Ho. change (EOpen crds_file :: ev ++ [EClose crds_file]) with ((EOpen crds_file :: ev) ++ [EClose crds_file]) in Ho.
  rewrite opened_app in Ho. cbn [opened] in Ho. apply filter_In in Ho. destruct Ho as [_ Ho].
  assert (X : seqb crds_file crds_file = true) by now apply seqb_eq. rewrite X in Ho. discriminate.
Qed.
Lemma save_noticed f f' : save_faulty w c f f' None -> snd (save_main w c f) = None /\ forall p, fs_get p f' = fs_get p (fst (save_main w c f)).
Proof.
  intros [d [x [H [<- He]]]]. destruct x as [e'|]; [discriminate|]. apply attempts_moves in H. destruct (save_shape f) as [lines [E _]].
  assert (Hs : snd (save_main w c f) = None) by (rewrite E in He; symmetry; exact He). split; [exact Hs|]. apply save_done; [exact H|]. exact (save_closed f d Hs H).
Qed.
Lemma save_faulty_killed f f' e : save_faulty w c f f' e -> save_killed w c f f'.
Proof.
  intros [d [x [H [Hf _]]]]. apply attempts_moves in H. destruct x as [e'|].
  - destruct H as [_ [did [rest [d2 [H1 [H2 H3]]]]]]. exists did, rest, d2. split; [exact H1|]. split; [exact H2|congruence].
  - exists (fst (save_events w c)), [], d. split; [now rewrite app_nil_r|]. auto.
Qed.
End Run.
