(** Disk contents: runs that are stopped. *)
From Coq Require Import Relations.Relation_Operators.
From Verif Require Import Base PyStr PyFloat PyDate PyPath PyRegex M_Common M_Header M_Obs2 M_Obs3 M_Rec M_Text M_Cfg M_Label M_Names M_Xyz M_Nav M_NmUtils M_Num M_Tec M_Sat M_Main M_Disk.
From Verif Require Import S_Time S_Main S_Out S_Disk P_Str P_Out P_Main1 P_Main3 P_Main4 P_Main6 P_Main7 P_Main8 P_Run4 P_Disk1 P_Disk2 P_Disk3 P_Disk4.
Open Scope nat_scope.

Section Run.
Variables (w : world) (c : cfg).
Let oc := out_of w c.
Let target name sat d := result_file (c_outdir c) (marker_of name) sat d.

Lemma touch_dec p (evs : list event) : (forall e, In e evs -> touches p e = false) \/ exists e, In e evs /\ touches p e = true.
Proof.
  induction evs as [|e evs IH]; [left; intros e []|]. destruct (touches p e) eqn:E; [right; exists e; split; [now left|exact E]|].
  destruct IH as [H|[e' [H1 H2]]]; [left; intros e' [<-|X]; auto|right; exists e'; split; [now right|exact H2]].
Qed.
(** a path touched in part of the operations of a file *)
Lemma file_touched name os part rest e p : rows_good name os -> shape w c name os (part ++ rest) e ->
  (forall ev, In ev part -> touches p ev = false) \/ In (EOpen p) part /\ exists x, (forall f, fs_get p (sem f part) = Some x) /\ part_of w c name os e p x.
Proof.
  intros Hg Hs. destruct (one_shape w c name os _ e Hg Hs) as [T [H _]]. destruct (tidy_split p part [] rest T (fun X => X)) as [X|[Ho [x [y [Hb X]]]]]; [now left|].
  right. split; [exact Ho|]. exists x. split; [intros f; exact (proj1 (X f))|]. destruct (H [] p) as [E|[y' [Ey Hp]]].
  - destruct (X []) as [_ E2]. rewrite E2 in E. discriminate.
  - destruct (X []) as [_ E2]. rewrite E2 in Ey. injection Ey as <-. destruct Hp as [sat [d [iv [full [P0 [P1 [P2 [P3 P4]]]]]]]]. exists sat, d, iv, full.
    split; [exact P0|]. split; [exact P1|]. split; [exact P2|]. split; [exact (begins_trans _ _ _ Hb P3)|exact P4].
Qed.
Lemma shapes_touched log l e : shapes w c log l e -> (forall name os, In (name, os) log -> rows_good name os) -> forall p did rest, concat (map snd l) = did ++ rest ->
  (forall ev, In ev did -> touches p ev = false) \/
  In (EOpen p) did /\ exists name os x, In (name, os) log /\ (forall f, fs_get p (sem f did) = Some x) /\ part_of w c name os e p x.
Proof.
  assert (Hweak : forall name os p x e', part_of w c name os None p x -> part_of w c name os e' p x).
  { intros name os p x e' [sat [d [iv [full [P0 [P1 [P2 [P3 [P4 [[P5|P5] P6]]]]]]]]]]; [|congruence]. exists sat, d, iv, full. repeat (split; [assumption|]). split; [now left|exact P6]. }
  induction 1 as [|name os ev e Hs|name os ev log l e Hs Hl IH]; intros Hg p did rest; cbn [map concat snd].
  - intros E. symmetry in E. apply app_eq_nil in E. destruct E as [-> _]. left. intros ev [].
  - rewrite app_nil_r. intros ->. destruct (file_touched name os did rest (Some e) p (Hg _ _ (or_introl eq_refl)) Hs) as [X|[Ho [x [X1 X2]]]]; [now left|].
    right. split; [exact Ho|]. exists name, os, x. split; [now left|]. auto.
  - intros E. assert (Hg1 : rows_good name os) by (apply Hg; now left). assert (Hg2 : forall name os, In (name, os) log -> rows_good name os) by (intros ? ? X; apply Hg; now right).
    assert (Hsplit : (exists r1, ev = did ++ r1) \/ exists did2, did = ev ++ did2 /\ concat (map snd l) = did2 ++ rest).
    { revert E. clear. revert did. induction ev as [|a ev IHe]; intros did E; [right; exists did; auto|]. destruct did as [|b did]; [left; exists (a :: ev); reflexivity|].
      cbn [app] in E. injection E as <- E. destruct (IHe did E) as [[r1 ->]|[d2 [-> H2]]]; [left; exists r1; reflexivity|right; exists d2; auto]. }
    destruct Hsplit as [[r1 ->]|[did2 [-> E2]]].
    + destruct (file_touched name os did r1 None p Hg1 Hs) as [X|[Ho [x [X1 X2]]]]; [now left|]. right. split; [exact Ho|]. exists name, os, x. split; [now left|]. auto.
    + destruct (IH Hg2 p did2 rest E2) as [X|[Ho [nm [os' [x [X1 [X2 X3]]]]]]].
      * assert (Hs' : shape w c name os (ev ++ []) None) by (rewrite app_nil_r; exact Hs).
        destruct (file_touched name os ev [] None p Hg1 Hs') as [Y|[Ho [x [Y1 Y2]]]].
        -- left. intros e' He'. apply in_app_or in He'. destruct He'; auto.
        -- right. split; [apply in_or_app; now left|]. exists name, os, x. split; [now left|]. split; [|auto]. intros f. rewrite sem_app, sem_untouched by exact X. apply Y1.
      * right. split; [apply in_or_app; now right|]. exists nm, os', x. split; [now right|]. split; [|exact X3]. intros f. rewrite sem_app. apply X2.
Qed.
Lemma log_good f name os : In (name, os) (snd (fst (main w c f))) -> rows_good name os.
Proof. intros H. exact (written_good w c f name os H). Qed.
Lemma main_touched f p did rest : operations w c = did ++ rest ->
  (forall ev, In ev did -> touches p ev = false) \/
  In (EOpen p) did /\ exists name os x, written w c f name os /\ (forall f, fs_get p (sem f did) = Some x) /\ part_of w c name os (stopped_by w c f) p x.
Proof.
  unfold operations. destruct (main_shape w c f) as [l [-> [[_ ->]|Hs]]]; cbn [fst].
  - intros E. symmetry in E. apply app_eq_nil in E. destruct E as [-> _]. left. intros ev [].
  - exact (shapes_touched _ _ _ Hs (log_good f) p did rest).
Qed.

(** every file is as before or the beginning of a result *)
Lemma killed_file f f' p : killed w c f f' -> fs_get p f' = fs_get p f \/
  exists name os x, written w c f name os /\ fs_get p f' = Some x /\ part_of w c name os (stopped_by w c f) p x.
Proof.
  intros [did [rest [d [E [Hm <-]]]]]. destruct (main_touched f p did rest E) as [Hu|[Ho [name [os [x [Hw [Hx Hp]]]]]]].
  - left. destruct (moves_file f did d p Hm) as [->|[Hin _]]; [now apply sem_untouched|]. destruct (opened_touched p did [] Hin) as [[]|[e [H1 H2]]]. rewrite (Hu e H1) in H2. discriminate.
  - right. destruct (moves_file f did d p Hm) as [->|[_ [y [Hy Hb]]]]; [exists name, os, x; auto|]. rewrite Hx in Hy. injection Hy as <-.
    pose proof (moves_there _ _ _ _ Hm Ho) as Hn. destruct (fs_get p (d_files d)) as [y|]; [|congruence]. cbn [known] in Hb. exists name, os, y. split; [exact Hw|]. split; [reflexivity|].
    destruct Hp as [sat [day [iv [full [P0 [P1 [P2 [P3 P4]]]]]]]]. exists sat, day, iv, full. repeat (split; [assumption|]). split; [exact (begins_trans _ _ _ Hb P3)|exact P4].
Qed.
Lemma killed_beginning f f' : killed w c f f' -> forall p, fs_get p f' = fs_get p f \/
  exists name ops sat day iv x full, written w c f name ops /\ get_rinex_date name = Some day /\ p = result_file (c_outdir c) (marker_of name) sat day /\
    (rows_of sat ops <> [] -> exists b, open_obs w name = Ok b /\ h_interval (b_hdr b) = Some iv) /\ (stopped_by w c f = None -> rows_of sat ops <> []) /\
    fs_get p f' = Some x /\ begins x full /\ file_of_rows (out_of w c) iv (rows_of sat ops) full.
Proof.
  intros H p. destruct (killed_file f f' p H) as [E|[name [os [x [H1 [H2 [sat [d [iv [full [P0 [P1 [P2 [P3 [P4 [P5 P6]]]]]]]]]]]]]]]]; [now left|]. right.
  exists name, os, sat, d, iv, x, full. split; [exact H1|]. split; [exact P1|]. split; [exact P2|]. split; [|split; [intros E; destruct P5; [assumption|contradiction]|auto]].
  intros Hr. destruct P6 as [->|P6]; [destruct (Hr eq_refl)|exact P6].
Qed.

(** ** the run again *)
Lemma killed_again f f' : killed w c f f' -> stopped_by w c f = None ->
  stopped_by w c f' = None /\ forall p, fs_get p (fst (fst (main w c f'))) = fs_get p (fst (fst (main w c f))).
Proof.
  intros Hk Hs. destruct (main_same w c f f') as [Hlog Hst]. assert (Hs' : stopped_by w c f' = None) by congruence. split; [exact Hs'|]. intros p.
  destruct (rerun_files w c f f' Hs) as [R1 R2]. destruct (rerun_files w c f' f Hs') as [R3 R4].
  assert (Hcase : (exists name ops sat d, written w c f name ops /\ rows_of sat ops <> [] /\ get_rinex_date name = Some d /\ p = result_file (c_outdir c) (marker_of name) sat d) \/
    (forall name ops sat d, written w c f name ops -> rows_of sat ops <> [] -> get_rinex_date name = Some d -> p <> result_file (c_outdir c) (marker_of name) sat d)).
  { unfold written. generalize (snd (fst (main w c f))). intros log. induction log as [|[nm os] log IH]; [right; intros ? ? ? ? []|].
    destruct IH as [[name [ops [sat [d [H1 H2]]]]]|IH]; [left; exists name, ops, sat, d; split; [now right|exact H2]|].
    destruct (row_dec c os p nm) as [[sat [d [H1 [H2 H3]]]]|Hn]; [left; exists nm, os, sat, d; split; [now left|auto]|].
    right. intros name ops sat d [E|Hin]; [injection E as <- <-; apply Hn|exact (IH name ops sat d Hin)]. }
  destruct Hcase as [[name [ops [sat [d [H1 [H2 [H3 ->]]]]]]]|Hno].
  - symmetry. exact (proj2 (R1 name ops sat d H1 H2 H3)).
  - rewrite (R2 p Hno). rewrite (R4 p).
    + destruct (killed_beginning f f' Hk p) as [E|[name [ops [sat [d [iv [x [full [K1 [K2 [K3 [_ [K4 _]]]]]]]]]]]]]; [exact E|]. exfalso. exact (Hno name ops sat d K1 (K4 Hs) K2 K3).
    + intros name ops sat d H1. apply Hno. unfold written in *. now rewrite Hlog.
Qed.

(** ** the end of a run *)
Lemma shapes_jobs log l e : shapes w c log l e -> e = None -> (forall name os, In (name, os) log -> rows_good name os) ->
  opened (concat (map snd l)) [] = [] /\
  exists js, map (fun j => (fst (fst j), snd j)) js = log /\ Forall (fun j => job_of w (fst (fst j)) (snd j) (snd (fst j))) js /\
    forall f, write_files oc f js = Ok (sem f (concat (map snd l))).
Proof.
  induction 1 as [|name os ev e Hs|name os ev log l e Hs Hl IH]; intros He Hg; [|discriminate|].
  - split; [reflexivity|]. exists []. split; [reflexivity|]. split; [constructor|reflexivity].
  - destruct (IH He (fun n o X => Hg n o (or_intror X))) as [I1 [js [J1 [J2 J3]]]].
    destruct (one_shape w c name os ev None (Hg _ _ (or_introl eq_refl)) Hs) as [_ [_ [_ H]]]. destruct (H eq_refl) as [O1 [iv [O2 O3]]].
    cbn [map concat snd]. split; [now rewrite opened_app, O1|]. exists ((name, iv, os) :: js). cbn [map fst snd]. split; [now rewrite J1|]. split; [constructor; assumption|].
    intros f. cbn [write_files]. fold oc in O3. rewrite O3. cbn [bind]. rewrite sem_app. apply J3.
Qed.
Lemma main_operations f : stopped_by w c f = None -> opened (operations w c) [] = [] /\ sem f (operations w c) = fst (fst (main w c f)).
Proof.
  intros Hs. unfold operations. destruct (main_shape w c f) as [l [-> Hl]]. cbn [fst]. destruct Hl as [[Hlog ->]|Hl].
  - exfalso. revert Hs Hlog. unfold stopped_by, main. destruct (sort_str _) as [|nm r]; [discriminate|]. cbn [files_loop]. destruct (file_step w c no_caches f nm) as [[[k1 f1] os] [e|]]; [discriminate|].
    destruct (files_loop w c k1 f1 r) as [[f2 log] e]. discriminate.
  - destruct (shapes_jobs _ _ _ Hl Hs (log_good f)) as [O [js [J1 [J2 J3]]]]. split; [exact O|]. destruct (main_jobs w c f Hs) as [js' [K1 [K2 K3]]].
    rewrite (jobs_same w c js' js f) in K3; [|congruence|exact K2|exact J2]. specialize (J3 f). unfold oc in J3. rewrite K3 in J3. injection J3 as <-. reflexivity.
Qed.
Lemma ends_with f d : stopped_by w c f = None -> moves (mkDisk f []) (operations w c) d -> forall p, fs_get p (d_files d) = fs_get p (fst (fst (main w c f))).
Proof.
  intros Hs Hm p. destruct (main_operations f Hs) as [Ho <-]. destruct (moves_file f _ d p Hm) as [->|[Hin _]]; [reflexivity|]. rewrite Ho in Hin. destruct Hin.
Qed.
Lemma flushed f evs d p : moves (mkDisk f []) evs d -> (forall b, dict_get seqb p (d_open d) = Some b -> b = []) -> fs_get p (sem f evs) <> None -> In (EOpen p) evs ->
  fs_get p (d_files d) = fs_get p (sem f evs).
Proof.
  intros Hm Hf Hn Ho. pose proof (moves_backed _ _ _ Hm f (start_backed f) p) as Hb. destruct (dict_get seqb p (d_open d)) as [b|]; [|exact Hb].
  rewrite (Hf b eq_refl), app_nil_r in Hb. pose proof (moves_there _ _ _ _ Hm Ho) as Ht. destruct (fs_get p (d_files d)) as [x|]; [|congruence]. symmetry. exact Hb.
Qed.
(** the operations and the calls of the observation files go together *)
Lemma shapes_split log l e : shapes w c log l e -> forall l1 name os l2, log = l1 ++ (name, os) :: l2 -> exists m1 ev m2 e', l = m1 ++ (name, ev) :: m2 /\ length m1 = length l1 /\
  shape w c name os ev e' /\ (l2 <> [] -> e' = None) /\ (l2 = [] -> m2 = [] /\ e' = e) /\ (e' = None -> shapes w c l2 m2 e).
Proof.
  induction 1 as [|name os ev e Hs|name os ev log l e Hs Hl IH]; intros l1 nm os' l2 E.
  - destruct l1; discriminate.
  - destruct l1 as [|x l1]; [|destruct l1; discriminate]. cbn [app] in E. injection E as <- <- <-. exists [], ev, [], (Some e). split; [reflexivity|]. split; [reflexivity|].
    split; [exact Hs|]. split; [congruence|]. split; [auto|discriminate].
  - destruct l1 as [|x l1]; cbn [app] in E.
    + injection E as <- <- <-. exists [], ev, l, None. split; [reflexivity|]. split; [reflexivity|]. split; [exact Hs|]. split; [auto|]. split; [|auto]. intros ->.
      inversion Hl; subst; auto.
    + injection E as <- E. destruct (IH l1 nm os' l2 E) as [m1 [ev' [m2 [e' [-> [H1 H2]]]]]]. exists ((name, ev) :: m1), ev', m2, e'. split; [reflexivity|]. split; [cbn; now rewrite H1|exact H2].
Qed.

Lemma shapes_nth log l e : shapes w c log l e -> forall i nm ev, nth_error l i = Some (nm, ev) ->
  exists os e', nth_error log i = Some (nm, os) /\ shape w c nm os ev e' /\ (e' = None \/ e' = e).
Proof.
  induction 1 as [|name os ev e Hs|name os ev log l e Hs Hl IH]; intros i nm ev' E.
  - destruct i; discriminate.
  - destruct i as [|i]; [|destruct i; discriminate]. cbn in E. injection E as <- <-. exists os, (Some e). auto.
  - destruct i as [|i]; cbn [nth_error] in E; [injection E as <- <-; exists os, None; auto|]. exact (IH i nm ev' E).
Qed.
Lemma shapes_closed log l e : shapes w c log l e -> (forall name os, In (name, os) log -> rows_good name os) -> forall pre x post, l = pre ++ x :: post ->
  opened (concat (map snd pre)) [] = [].
Proof.
  induction 1 as [|name os ev e Hs|name os ev log l e Hs Hl IH]; intros Hg pre x post E; destruct pre as [|y pre]; try reflexivity.
  - discriminate.
  - destruct pre; discriminate.
  - cbn [app] in E. injection E as <- E. destruct (one_shape w c name os ev None (Hg _ _ (or_introl eq_refl)) Hs) as [_ [_ [_ H]]]. destruct (H eq_refl) as [O1 _].
    cbn [map concat snd]. rewrite opened_app, O1. exact (IH (fun n o X => Hg n o (or_intror X)) pre x post E).
Qed.
Lemma apart_untouched log l e name sat d : shapes w c log l e -> (forall name os, In (name, os) log -> rows_good name os) -> date_ok d -> get_rinex_date name = Some d ->
  forall i nm os ev, nth_error l i = Some (nm, ev) -> nth_error log i = Some (nm, os) -> apart e name sat [(nm, os)] ->
  forall x, In x ev -> touches (target name sat d) x = false.
Proof.
  intros Hs Hg Hd Hn i nm os ev E1 E2 Ha. destruct (shapes_nth log l e Hs i nm ev E1) as [os' [e' [E3 [Hsh He]]]]. rewrite E2 in E3. injection E3 as <-.
  assert (Hsh' : shape w c nm os (ev ++ []) e') by (rewrite app_nil_r; exact Hsh).
  destruct (file_touched nm os ev [] e' (target name sat d) (Hg _ _ (nth_error_In _ _ E2)) Hsh') as [X|[_ [x [_ Hp]]]]; [exact X|]. exfalso.
  destruct Hp as [sat' [d' [iv [full [P0 [P1 [P2 [_ [_ [P5 _]]]]]]]]]]. apply result_file_inj in P2; try assumption; try apply marker_no_slash. destruct P2 as [Em [<- <-]].
  destruct (Ha nm os (or_introl eq_refl)) as [X|X]; [|congruence|congruence]. destruct P5 as [P5|P5]; [now left|]. destruct He as [He|He]; [congruence|]. right. congruence.
Qed.
Lemma part_untouched p (l : list (str * list event)) : (forall i nm ev, nth_error l i = Some (nm, ev) -> forall x, In x ev -> touches p x = false) ->
  forall x, In x (concat (map snd l)) -> touches p x = false.
Proof.
  induction l as [|[nm ev] l IH]; intros H x Hx; [destruct Hx|]. cbn [map concat snd] in Hx. apply in_app_or in Hx. destruct Hx as [Hx|Hx]; [exact (H 0 nm ev eq_refl x Hx)|].
  apply IH; [|exact Hx]. intros i nm' ev' E. exact (H (S i) nm' ev' E).
Qed.
Lemma file_full name os ev e sat : rows_good name os -> shape w c name os ev e -> rows_of sat os <> [] ->
  exists b d iv x, open_obs w name = Ok b /\ h_interval (b_hdr b) = Some iv /\ date_ok d /\ get_rinex_date name = Some d /\ file_of_rows oc iv (rows_of sat os) x /\
    In (EOpen (target name sat d)) ev /\ forall f, fs_get (target name sat d) (sem f ev) = Some x.
Proof.
  intros Hg Hs Hr. destruct (one_shape w c name os ev e Hg Hs) as [T [_ [H _]]]. destruct (H sat Hr) as [d [iv [x [X1 [X2 [X3 [X4 X5]]]]]]].
  destruct X3 as [->|[b [Ho Hi]]]; [destruct (Hr eq_refl)|]. exists b, d, iv, x. repeat (split; [assumption|]). split; [|exact X5].
  assert (T' : tidy [] (ev ++ [])) by (rewrite app_nil_r; exact T). destruct (tidy_split (target name sat d) ev [] [] T' (fun X => X)) as [X|[X _]]; [|exact X].
  specialize (X5 []). unfold target in X. rewrite (sem_untouched _ _ [] X) in X5. discriminate.
Qed.
Lemma killed_done n f f' l1 name ops l2 sat : killed_after n w c f f' -> snd (fst (main w c f)) = l1 ++ (name, ops) :: l2 -> length l1 < n -> rows_of sat ops <> [] ->
  apart (stopped_by w c f) name sat (firstn (n - length l1) l2) ->
  exists b iv d content, open_obs w name = Ok b /\ h_interval (b_hdr b) = Some iv /\ get_rinex_date name = Some d /\
    fs_get (result_file (c_outdir c) (marker_of name) sat d) f' = Some content /\ file_of_rows (out_of w c) iv (rows_of sat ops) content.
Proof.
  intros [pre [cur [did [rest [post [dk [E [Hn [Hm <-]]]]]]]]] Hlog Hlt Hr Ha.
  destruct (main_shape w c f) as [l [El Hl]]. rewrite El in E. cbn [fst] in E. subst l. destruct Hl as [[_ X]|Hl]; [destruct pre; discriminate|].
  pose proof (log_good f) as Hg. destruct (shapes_split _ _ _ Hl l1 name ops l2 Hlog) as [m1 [ev [m2 [e' [Em [Lm [Hsh _]]]]]]].
  assert (Hpre : exists m2a, pre = m1 ++ (name, ev) :: m2a /\ m2 = m2a ++ (cur, did ++ rest) :: post).
  { revert Em. assert (Hlen : length m1 < length pre) by lia. revert Hlen. clear. revert m1. induction pre as [|y pre IH]; intros m1 Hlen Em; [cbn in Hlen; lia|].
    destruct m1 as [|z m1]; cbn [app] in Em; injection Em as -> Em.
    - exists pre. auto.
    - destruct (IH m1 ltac:(cbn in Hlen; lia) Em) as [m2a [-> H2]]. exists m2a. auto. }
  destruct Hpre as [m2a [-> ->]].
  destruct (file_full name ops ev e' sat) as [b [d [iv [x [F1 [F2 [F3 [F4 [F5 [F6 F7]]]]]]]]]]; [apply Hg; rewrite Hlog; apply in_or_app; right; now left|exact Hsh|exact Hr|].
  exists b, iv, d, x. repeat (split; [assumption|]). split; [|exact F5].
  (* later operations *)
  assert (Hun : forall i nm ev', nth_error (m2a ++ [(cur, did ++ rest)]) i = Some (nm, ev') -> forall x, In x ev' -> touches (target name sat d) x = false).
  { intros i nm ev' Ei. assert (Hi : i < length (m2a ++ [(cur, did ++ rest)])) by (apply nth_error_Some; congruence). rewrite app_length in Hi. cbn [length] in Hi.
    rewrite app_length in Hn. cbn [length] in Hn.
    assert (Ei' : nth_error ((m1 ++ (name, ev) :: m2a) ++ (cur, did ++ rest) :: post) (length m1 + S i) = Some (nm, ev')).
    { rewrite <- app_assoc. rewrite nth_error_app2 by lia. replace (length m1 + S i - length m1) with (S i) by lia. cbn [app nth_error].
      change ((cur, did ++ rest) :: post) with ([(cur, did ++ rest)] ++ post). rewrite app_assoc. rewrite nth_error_app1 by (rewrite app_length; cbn [length]; lia). exact Ei. }
    destruct (shapes_nth _ _ _ Hl _ _ _ Ei') as [os' [e2 [E3 _]]].
    apply (apart_untouched _ _ _ name sat d Hl Hg F3 F4 _ nm os' ev' Ei' E3). intros nm0 os0 [X|[]]. injection X as <- <-. apply Ha.
    rewrite Hlog, Lm in E3. rewrite nth_error_app2 in E3 by lia. replace (length l1 + S i - length l1) with (S i) in E3 by lia. cbn [nth_error] in E3.
    apply (nth_error_In _ i). rewrite <- (firstn_skipn (n - length l1) l2) in E3. rewrite nth_error_app1 in E3; [exact E3|].
    rewrite firstn_length. assert (i < length l2) by (apply nth_error_Some; rewrite <- (firstn_skipn (n - length l1) l2); congruence). lia. }
  assert (Hun1 : forall y, In y (concat (map snd m2a)) -> touches (target name sat d) y = false).
  { apply part_untouched. intros i nm ev' Ei. apply (Hun i nm ev'). rewrite nth_error_app1; [exact Ei|]. apply nth_error_Some. congruence. }
  assert (Hun2 : forall y, In y did -> touches (target name sat d) y = false).
  { intros y Hy. apply (Hun (length m2a) cur (did ++ rest)); [rewrite nth_error_app2 by lia; now rewrite Nat.sub_diag|]. apply in_or_app. now left. }
  destruct (moves_file f _ dk (target name sat d) Hm) as [E|[Hin _]].
  - unfold target in E. rewrite E. rewrite map_app, concat_app. cbn [map concat snd]. rewrite !sem_app.
    rewrite (sem_untouched _ did) by exact Hun2. rewrite (sem_untouched _ (concat (map snd m2a))) by exact Hun1. apply F7.
  - exfalso. rewrite opened_app in Hin. rewrite (shapes_closed _ _ _ Hl Hg _ _ _ eq_refl) in Hin. destruct (opened_touched _ _ _ Hin) as [[]|[y [Y1 Y2]]]. rewrite (Hun2 y Y1) in Y2. discriminate.
Qed.
Lemma exit_files f f' l1 name ops l2 sat : exits w c f f' -> snd (fst (main w c f)) = l1 ++ (name, ops) :: l2 -> rows_of sat ops <> [] ->
  apart (stopped_by w c f) name sat l2 ->
  exists b iv d content, open_obs w name = Ok b /\ h_interval (b_hdr b) = Some iv /\ get_rinex_date name = Some d /\
    fs_get (result_file (c_outdir c) (marker_of name) sat d) f' = Some content /\ file_of_rows (out_of w c) iv (rows_of sat ops) content.
Proof.
  intros [dk [Hm [Hf <-]]] Hlog Hr Ha. unfold operations in Hm.
  destruct (main_shape w c f) as [l [El Hl]]. rewrite El in Hm. cbn [fst] in Hm. destruct Hl as [[X _]|Hl]; [rewrite X in Hlog; destruct l1; discriminate|].
  pose proof (log_good f) as Hg. destruct (shapes_split _ _ _ Hl l1 name ops l2 Hlog) as [m1 [ev [m2 [e' [-> [Lm [Hsh _]]]]]]].
  destruct (file_full name ops ev e' sat) as [b [d [iv [x [F1 [F2 [F3 [F4 [F5 [F6 F7]]]]]]]]]]; [apply Hg; rewrite Hlog; apply in_or_app; right; now left|exact Hsh|exact Hr|].
  exists b, iv, d, x. repeat (split; [assumption|]). split; [|exact F5].
  assert (Hun : forall y, In y (concat (map snd m2)) -> touches (target name sat d) y = false).
  { apply part_untouched. intros i nm ev' Ei.
    assert (Ei' : nth_error (m1 ++ (name, ev) :: m2) (length m1 + S i) = Some (nm, ev')).
    { rewrite nth_error_app2 by lia. replace (length m1 + S i - length m1) with (S i) by lia. exact Ei. }
    destruct (shapes_nth _ _ _ Hl _ _ _ Ei') as [os' [e2 [E3 _]]].
    apply (apart_untouched _ _ _ name sat d Hl Hg F3 F4 _ nm os' ev' Ei' E3). intros nm0 os0 [X|[]]. injection X as <- <-. apply Ha.
    rewrite Hlog, Lm in E3. rewrite nth_error_app2 in E3 by lia. replace (length l1 + S i - length l1) with (S i) in E3 by lia. exact (nth_error_In l2 i E3). }
  assert (Es : fs_get (target name sat d) (sem f (concat (map snd (m1 ++ (name, ev) :: m2)))) = Some x).
  { rewrite map_app, concat_app. cbn [map concat snd]. rewrite !sem_app. rewrite (sem_untouched _ (concat (map snd m2))) by exact Hun. apply F7. }
  unfold target in Es |- *. rewrite <- Es. apply flushed; [exact Hm|intros b0; apply Hf|rewrite Es; discriminate|].
  rewrite map_app, concat_app. cbn [map concat snd]. apply in_or_app. right. apply in_or_app. left. exact F6.
Qed.
End Run.

(** any number of stopped runs *)
Lemma killed_often w c f f' : clos_refl_trans_1n fs (killed w c) f f' -> stopped_by w c f = None ->
  stopped_by w c f' = None /\ forall p, fs_get p (fst (fst (main w c f'))) = fs_get p (fst (fst (main w c f))).
Proof.
  induction 1 as [f|f g f' Hk _ IH]; intros Hs; [auto|]. destruct (killed_again w c f g Hk Hs) as [H1 H2]. destruct (IH H1) as [H3 H4].
  split; [exact H3|]. intros p. rewrite H4. apply H2.
Qed.
