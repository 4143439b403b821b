(** The log of a run: every record that is left out is accounted for. *)
From Verif Require Import Base PyStr PyFloat PyDate PyPath S_Time M_Common M_Header M_Obs2 M_Rec M_Text M_Cfg M_Label M_Names M_Xyz M_Nav M_NmUtils M_Num M_Tec M_Sat M_Main M_Run M_Log S_Main S_Fresh S_Run S_Log.
From Verif Require Import P_Str P_Date P_Nav P_Out P_Main1 P_Main3 P_Main4 P_Main5 P_Main6 P_Main7 P_Main8 P_Main6 P_Run3 P_Log1 P_Tell.
Open Scope nat_scope.

Section Reports.
Context (w : world) (c : cfg).
Definition reported (before : list part) (name : str) (p : part) : Prop := forall s t sys n, p_step p = Some s -> identifies s t sys n ->
  has_row s t (p_ops p) \/ (exists m, In m (p_says p) /\ noticeable m /\ about m name s t sys n) \/
  ((c_ignore c = false \/ sys = "R"%char) /\ (far w c t sys n \/ exists s', processed before s' /\ identifies s' t sys n)).
Definition reports (before : list part) (name : str) (ps : list part) : Prop := forall x p y, ps = x ++ p :: y -> reported (before ++ x) name p.
Lemma reports_nil before name : reports before name [].
Proof. intros x p y H. destruct x; discriminate. Qed.
Lemma reports_cons before name p ps : reported before name p -> reports (before ++ [p]) name ps -> reports before name (p :: ps).
Proof.
  intros H1 H2 x q y H. destruct x as [|z x]; cbn in H.
  - injection H as <- <-. now rewrite app_nil_r.
  - injection H as <- ->. replace (before ++ p :: x) with ((before ++ [p]) ++ x) by (rewrite <- app_assoc; reflexivity). now apply H2 with y.
Qed.
Lemma reported_none before name says ops : reported before name (mkPart None says ops).
Proof. intros s t sys n H. discriminate. Qed.
Definition keys_ok (before : list part) (k : caches) : Prop := forall sys n t, dict_mem sat_key_eqb (sys, n, dt_date t, dt_time t) (k_xyz k) = true ->
  exists s, processed before s /\ identifies s t sys n.
Lemma keys_more before x k : keys_ok before k -> keys_ok (before ++ x) k.
Proof. intros H sys n t Hm. destruct (H _ _ _ Hm) as [s [[p [Hp Hs]] Hi]]. exists s. split; [|exact Hi]. exists p. split; [apply in_or_app; now left|exact Hs]. Qed.

Lemma loop_reports b xyzs si : forall steps last before k l st k' st' os e,
  good w c k -> (forall day, b_date b = Some day -> loc_good w c day k l) -> geodetic w (l_xyz l) (l_lbh l) -> keys_ok before k ->
  record_loop w c b xyzs si last k l st steps = (k', st', os, e) ->
  reports before (b_name b) (loop_parts w c b xyzs si last k l st steps) /\ os = concat (map p_ops (loop_parts w c b xyzs si last k l st steps)) /\
  (e = None -> keys_ok (before ++ loop_parts w c b xyzs si last k l st steps) k').
Proof.
  induction steps as [|s r IH]; intros last before k l st k' st' os e G Gl Hg Hk; cbn [record_loop loop_parts].
  { intros H. apply pair4 in H. destruct H as [<- [_ [<- _]]].
    assert (Hb : reports before (b_name b) (match b_end b with GRaise RinexError => [mkPart None [LBroken (b_name b)] []] | _ => [] end)).
    { destruct (b_end b) as [|[]]; try apply reports_nil. apply reports_cons; [apply reported_none|apply reports_nil]. }
    split; [exact Hb|]. split; [destruct (b_end b) as [|[]]; reflexivity|]. intros _. now apply keys_more. }
  assert (Hstop : forall kx stx ex, (kx, stx, @nil wop, Some ex) = (k', st', os, e) ->
    reports before (b_name b) [] /\ os = concat (map p_ops []) /\ (e = None -> keys_ok (before ++ []) k')).
  { intros kx stx ex H. apply pair4 in H. destruct H as [_ [_ [<- <-]]]. split; [apply reports_nil|]. split; [reflexivity|discriminate]. }
  destruct (record_ident s) as [[[t sys] n]|e0] eqn:Ei; [|apply Hstop]. apply ident_iff in Ei.
  destruct (accept (b_date b) si last t sys) as [last'|] eqn:Ea.
  2:{ intros H. set (q := mkPart None (accept_says b t sys) []).
      destruct (IH last (before ++ [q]) k l st k' st' os e G Gl Hg (keys_more _ _ _ Hk) H) as [H1 [H2 H3]].
      split; [apply reports_cons; [apply reported_none|exact H1]|]. split; [exact H2|]. intros He. specialize (H3 He). rewrite <- app_assoc in H3. exact H3. }
  apply accept_some in Ea. destruct Ea as [_ [Hday _]].
  destruct (record_body w c xyzs (latest (w_xyz (snd st))) k l s t sys n) as [[[k1 l1] ops]|e0] eqn:Eb; [|apply Hstop].
  destruct (body_spec w c xyzs _ k l s t sys n k1 l1 ops (dt_date t) G eq_refl (Gl _ Hday) Hg Ei Eb) as [G1 [Gl1 [Hg1 _]]].
  destruct (do_ops (out_of w c) st ops) as [st1|e0]; [|apply Hstop].
  destruct (record_loop w c b xyzs si last' k1 l1 st1 r) as [[[k2 st2] os2] e2] eqn:El. intros H. apply pair4 in H. destruct H as [<- [_ [<- <-]]].
  set (q := mkPart (Some s) (body_says w c (b_name b) xyzs k l s t sys n) ops).
  assert (Gl1' : forall day, b_date b = Some day -> loc_good w c day k1 l1). { intros day Hd. rewrite Hday in Hd. apply some_inj in Hd. subst day. exact Gl1. }
  assert (Hk1 : keys_ok (before ++ [q]) k1).
  { intros sys' n' t' Hm. destruct (body_keys w c _ _ _ _ _ _ _ _ _ _ _ _ Eb Hm) as [Hm'|E].
    - exact (keys_more before [q] k Hk _ _ _ Hm').
    - apply pair4 in E. destruct E as [-> [-> [E1 E2]]]. rewrite (dt_of_parts t' t E1 E2). exists s. split; [|exact Ei]. exists q. split; [apply in_or_app; right; now left|reflexivity]. }
  destruct (IH last' (before ++ [q]) k1 l1 st1 k2 st2 os2 e2 G1 Gl1' Hg1 Hk1 El) as [H1 [H2 H3]].
  split; [|split].
  - apply reports_cons; [|exact H1]. intros s' t' sys' n' Hs Hi. cbn in Hs. apply some_inj in Hs. subst s'. apply ident_iff in Hi. pose proof Ei as Ei'. apply ident_iff in Ei'. rewrite Ei' in Hi.
    apply ok_triple in Hi. destruct Hi as [<- [<- <-]].
    destruct (body_told w c (b_name b) xyzs _ k l s t sys n k1 l1 ops G (Gl _ Hday) Eb) as [Hr|[Hr|[Hr1 [Hr2|Hr2]]]]; [now left|now right; left|right; right; auto|].
    right. right. split; [exact Hr1|]. right. exact (Hk _ _ _ Hr2).
  - cbn [map concat p_ops]. fold q. cbn [p_ops q]. now rewrite H2.
  - intros He. specialize (H3 He). rewrite <- app_assoc in H3. exact H3.
Qed.
Lemma file_reports before k f name k' f' os e : good w c k -> keys_ok before k -> file_step w c k f name = (k', f', os, e) ->
  reports before name (file_parts_of w c k f name) /\ os = concat (map p_ops (file_parts_of w c k f name)) /\
  (e = None -> good w c k' /\ keys_ok (before ++ file_parts_of w c k f name) k').
Proof.
  intros G Hk Hf. pose proof (proj1 (file_step_spec w c k f name k' f' os e G Hf)) as Gk. revert Hf Gk. unfold file_step, file_parts_of.
  assert (Hone : forall says, reports before name [mkPart None says []]) by (intros says; apply reports_cons; [apply reported_none|apply reports_nil]).
  destruct (open_obs w name) as [b|e0] eqn:Eo.
  2:{ destruct e0; intros H Gk; apply pair4 in H; destruct H as [E1 [_ [<- <-]]]; (split; [first [apply Hone|apply reports_nil]|]; split; [reflexivity|]; intros He; first [discriminate He|subst k'; split; [exact G|now apply keys_more]]). }
  destruct (file_start w c b) as [[[[[[xyzs si] l] iv] pos]|]|e0] eqn:Es.
  - destruct (file_start_spec w c b xyzs si l iv pos Es) as [Hl [Hg _]].
    destruct (do_op (out_of w c) (f, new_writer name iv) pos) as [st|e0].
    + destruct (record_loop w c b xyzs si None k l st (b_steps b)) as [[[k2 st2] os2] e2] eqn:Er. intros H Gk. apply pair4 in H. destruct H as [<- [_ [<- <-]]].
      set (q := mkPart None (lbh_says w (h_xyz (b_hdr b))) [pos]).
      destruct (loop_reports b xyzs si (b_steps b) None (before ++ [q]) k l st k2 st2 os2 e2 G (fun day _ => loc_nil w c day k l Hl) Hg (keys_more _ _ _ Hk) Er) as [H1 [H2 H3]].
      rewrite (open_name w name b Eo) in H1. split; [apply reports_cons; [apply reported_none|exact H1]|]. split; [cbn [map concat]; now rewrite H2|].
      intros He. split; [now apply Gk|]. specialize (H3 He). rewrite <- app_assoc in H3. exact H3.
    + intros H Gk. apply pair4 in H. destruct H as [<- [_ [<- <-]]]. split; [apply reports_nil|]. split; [reflexivity|discriminate].
  - intros H Gk. apply pair4 in H. destruct H as [<- [_ [<- <-]]]. split; [apply Hone|]. split; [reflexivity|]. intros _. split; [exact G|now apply keys_more].
  - intros H Gk. apply pair4 in H. destruct H as [<- [_ [<- <-]]]. split; [apply reports_nil|]. split; [reflexivity|discriminate].
Qed.
Lemma files_reports names : forall before k f, good w c k -> keys_ok before k ->
  (forall pre name ps post, files_parts w c k f names = pre ++ (name, ps) :: post -> reports (before ++ parts_of pre) name ps) /\
  Forall2 (fun a b => fst a = fst b /\ snd a = concat (map p_ops (snd b))) (snd (fst (files_loop w c k f names))) (files_parts w c k f names).
Proof.
  induction names as [|nm r IH]; intros before k f G Hk; cbn [files_parts files_loop]; [split; [intros [|]; discriminate|constructor]|].
  destruct (file_step w c k f nm) as [[[k1 f1] os] e] eqn:Ef. destruct (file_reports before k f nm k1 f1 os e G Hk Ef) as [H1 [H2 H3]].
  assert (Hhd : forall tl, (forall pre name ps post, tl = pre ++ (name, ps) :: post -> reports ((before ++ file_parts_of w c k f nm) ++ parts_of pre) name ps) ->
    forall pre name ps post, (nm, file_parts_of w c k f nm) :: tl = pre ++ (name, ps) :: post -> reports (before ++ parts_of pre) name ps).
  { intros tl Htl pre name ps post H. destruct pre as [|z pre]; cbn in H.
    - injection H as <- <- <-. unfold parts_of. cbn. now rewrite app_nil_r.
    - injection H as <- H. specialize (Htl pre name ps post H). unfold parts_of in *. cbn [map concat snd]. rewrite app_assoc. exact Htl. }
  destruct e as [e|].
  - cbn [fst snd]. split; [apply Hhd; intros [|]; discriminate|]. constructor; [split; [reflexivity|exact H2]|constructor].
  - destruct (H3 eq_refl) as [G1 Hk1]. destruct (IH (before ++ file_parts_of w c k f nm) k1 f1 G1 Hk1) as [H4 H5].
    destruct (files_loop w c k1 f1 r) as [[f2 log] e2]. cbn [fst snd] in *. split; [now apply Hhd|]. constructor; [split; [reflexivity|exact H2]|exact H5].
Qed.
Lemma keys_none before : keys_ok before no_caches.
Proof. intros sys n t H. discriminate. Qed.
Lemma main_parts_nil f : sort_str (find_files (w_ls w) (c_obsdir c) RE_OBS) = [] -> main_parts w c f = [].
Proof. unfold main_parts. now intros ->. Qed.
Lemma run_reports f before name p : part_of_run w c f before name p -> reported before name p.
Proof.
  intros [pre [x [y [post [H ->]]]]]. unfold main_parts in H. destruct (files_reports (sort_str (find_files (w_ls w) (c_obsdir c) RE_OBS)) [] no_caches f (good_none w c) (keys_none [])) as [H1 _].
  exact (H1 _ _ _ _ H x p y eq_refl).
Qed.
Lemma run_rows f : Forall2 (fun a b => fst a = fst b /\ snd a = concat (map p_ops (snd b))) (snd (fst (main w c f))) (main_parts w c f).
Proof.
  unfold main, main_parts. destruct (sort_str _) as [|nm r]; [constructor|]. apply (files_reports (nm :: r) [] no_caches f (good_none w c) (keys_none [])).
Qed.
End Reports.

(** ** which records are processed *)
Section Records.
Context (w : world) (c : cfg).
Fixpoint accepted (day : option date) (si : option Z) (last : option datetime) (steps : list step) : list step :=
  match steps with
  | [] => []
  | s :: r =>
    match record_ident s with
    | Err e => []
    | Ok (t, sys, _) => match accept day si last t sys with None => accepted day si last r | Some last' => s :: accepted day si last' r end
    end
  end.
Lemma loop_records b xyzs si : forall steps last k l st k' st' os, record_loop w c b xyzs si last k l st steps = (k', st', os, None) ->
  records_of (loop_parts w c b xyzs si last k l st steps) = accepted (b_date b) si last steps.
Proof.
  induction steps as [|s r IH]; intros last k l st k' st' os; cbn [record_loop loop_parts accepted].
  { intros _. destruct (b_end b) as [|[]]; reflexivity. }
  destruct (record_ident s) as [[[t sys] n]|e0]; [|discriminate]. destruct (accept (b_date b) si last t sys) as [last'|].
  - destruct (record_body _ _ _ _ _ _ _ _ _ _) as [[[k1 l1] ops]|e0]; [|discriminate]. destruct (do_ops _ _ _) as [st1|e0]; [|discriminate].
    destruct (record_loop w c b xyzs si last' k1 l1 st1 r) as [[[k2 st2] os2] e2] eqn:El. intros H. apply pair4 in H. destruct H as [_ [_ [_ ->]]].
    cbn [records_of flat_map p_step app]. f_equal. exact (IH _ _ _ _ _ _ _ El).
  - intros H. cbn [records_of flat_map p_step app]. exact (IH _ _ _ _ _ _ _ H).
Qed.
Lemma accepted_all day : forall steps last, Forall (fun s => exists t sys n, identifies s t sys n) steps -> chosen (usable day) steps (accepted day None last steps).
Proof.
  induction steps as [|s r IH]; intros last F; cbn [accepted]; [constructor|]. inversion F as [|? ? [t [sys [n Hi]]] F']; subst.
  pose proof Hi as Ei. apply ident_iff in Ei. rewrite Ei. destruct (usable_dec day s) as [Hu|Hu].
  - rewrite (usable_accept _ _ _ _ _ last Hi Hu). constructor; [exact Hu|now apply IH].
  - rewrite (unusable_accept _ _ _ _ _ _ _ Hi Hu). constructor; [exact Hu|now apply IH].
Qed.
Lemma chosen_same {A} (P : A -> Prop) l : Forall P l -> chosen P l l.
Proof. induction 1; constructor; auto. Qed.
Lemma accepted_thinned day iv last steps kept : thinned day iv last steps kept -> Forall dated steps -> Forall (fun s => exists t sys n, identifies s t sys n) steps ->
  valid_last last -> accepted day (Some iv) last steps = kept /\ Forall (usable day) kept.
Proof.
  induction 1 as [last|last s r Hs|last s r r' Hr Hn _ IH|s r r' t Hu He _ IH|s r r' t Hu He _ IH|s r r' t t0 Hu He Hne Hle _ IH|s r r' t t0 Hu He Hne Hlt _ IH];
    intros Hd Hf Hv; cbn [accepted]; [auto| | | | | |]; inversion Hf as [|? ? [t' [sys [n Hi]]] Hf']; subst; inversion Hd as [|? ? Hds Hd']; subst; [exfalso; apply Hs; eauto|..];
    pose proof Hi as Ei; apply ident_iff in Ei; rewrite Ei.
  - rewrite (unusable_accept _ _ _ _ _ _ _ Hi Hn). now apply IH.
  - assert (t' = t) by (destruct Hi as [X _]; congruence). subst t'. rewrite (accept_sampled _ _ _ _ _ (usable_ident _ _ _ _ _ Hi Hu)). unfold sample.
    rewrite (proj2 (dt_eqb_eq t t) eq_refl). destruct (IH Hd' Hf' (Hds t (proj1 Hi))) as [-> H2]. auto.
  - assert (t' = t) by (destruct Hi as [X _]; congruence). subst t'. rewrite (accept_sampled _ _ _ _ _ (usable_ident _ _ _ _ _ Hi Hu)). unfold sample.
    rewrite (proj2 (dt_eqb_eq t t) eq_refl). destruct (IH Hd' Hf' (Hds t (proj1 Hi))) as [-> H2]. auto.
  - assert (t' = t) by (destruct Hi as [X _]; congruence). subst t'. rewrite (accept_sampled _ _ _ _ _ (usable_ident _ _ _ _ _ Hi Hu)). unfold sample.
    destruct (dt_eqb t0 t) eqn:Ee; [apply dt_eqb_eq in Ee; congruence|]. pose proof (Hds t (proj1 Hi)) as Hvt. cbn in Hv. rewrite !instant_eq in Hle by assumption.
    destruct (Z.ltb_spec (dt_sub t t0) iv) as [Hl|Hl]; [unfold dt_sub in Hl; lia|]. destruct (IH Hd' Hf' Hvt) as [-> H2]. auto.
  - assert (t' = t) by (destruct Hi as [X _]; congruence). subst t'. rewrite (accept_sampled _ _ _ _ _ (usable_ident _ _ _ _ _ Hi Hu)). unfold sample.
    destruct (dt_eqb t0 t) eqn:Ee; [apply dt_eqb_eq in Ee; congruence|]. pose proof (Hds t (proj1 Hi)) as Hvt. cbn in Hv. rewrite !instant_eq in Hlt by assumption.
    destruct (Z.ltb_spec (dt_sub t t0) iv) as [Hl|Hl]; [|unfold dt_sub in Hl; lia]. now apply IH.
Qed.
(** the files of a run that nothing stops *)
Lemma files_in names : forall k f, snd (files_loop w c k f names) = None -> good w c k -> map fst (files_parts w c k f names) = names /\
  forall name ps, In (name, ps) (files_parts w c k f names) -> exists k1 f1 k2 f2 os, good w c k1 /\ file_step w c k1 f1 name = (k2, f2, os, None) /\ ps = file_parts_of w c k1 f1 name.
Proof.
  induction names as [|nm r IH]; intros k f H G; cbn [files_parts files_loop] in *; [split; [reflexivity|intros name ps []]|].
  destruct (file_step w c k f nm) as [[[k1 f1] os] e] eqn:Ef. destruct e as [e|]; [discriminate H|].
  pose proof (proj1 (file_step_spec w c k f nm k1 f1 os None G Ef) eq_refl) as G1.
  specialize (IH k1 f1). destruct (files_loop w c k1 f1 r) as [[f2 log] e2]. destruct (IH H G1) as [H1 H2]. cbn [map fst]. split; [now rewrite H1|].
  intros name ps [E|Hin]; [|now apply H2]. injection E as <- <-. exists k, f, k1, f1, os. auto.
Qed.
Lemma run_in f : stopped_by w c f = None -> map fst (main_parts w c f) = sort_str (find_files (w_ls w) (c_obsdir c) RE_OBS) /\
  forall name ps, In (name, ps) (main_parts w c f) -> exists k1 f1 k2 f2 os, good w c k1 /\ file_step w c k1 f1 name = (k2, f2, os, None) /\ ps = file_parts_of w c k1 f1 name.
Proof.
  unfold stopped_by, main, main_parts. destruct (sort_str _) as [|nm r]; [discriminate|]. intros H. apply files_in; [exact H|apply good_none].
Qed.
(** a file is processed, all its records; or the log says it is skipped *)
Lemma run_records f name ps : stopped_by w c f = None -> In (name, ps) (main_parts w c f) ->
  (exists b, open_obs w name = Ok b /\ suitable b /\ forall kept, used c b kept -> chosen (usable (b_date b)) kept (records_of ps)) \/
  (records_of ps = [] /\ exists p m, In p ps /\ In m (p_says p) /\
     ((exists e, open_obs w name = Err e /\ m = LOpen e) \/
      (exists b, open_obs w name = Ok b /\ ~ suitable b /\ ((exists v ty sys, h_ver (b_hdr b) = Some (v, ty, sys) /\ m = LSystem sys) \/ (exists t0 ts, h_tofo (b_hdr b) = Some (t0, ts) /\ m = LTime name ts))))).
Proof.
  intros Hs Hin. destruct (run_in f Hs) as [_ H]. destruct (H name ps Hin) as [k1 [f1 [k2 [f2 [os [G [Hf ->]]]]]]]. clear H Hin. revert Hf. unfold file_step, file_parts_of.
  destruct (open_obs w name) as [b|e0] eqn:Eo.
  2:{ destruct e0; try discriminate; intros _; right; (split; [reflexivity|]); eexists; eexists; (split; [left; reflexivity|split; [left; reflexivity|left; eexists; split; reflexivity]]). }
  destruct (file_start w c b) as [[[[[[xyzs si] l] iv] pos]|]|e0] eqn:Es; [| |discriminate].
  - assert (Hsu : suitable b) by (apply (start_suitable w c b _ Es); intros X; clear -X; discriminate).
    destruct (file_start_spec w c b xyzs si l iv pos Es) as [Hl [Hg [_ [_ [Hsi _]]]]].
    destruct (do_op (out_of w c) (f1, new_writer name iv) pos) as [st|e0]; [|discriminate].
    destruct (record_loop w c b xyzs si None k1 l st (b_steps b)) as [[[k3 st3] os3] e3] eqn:Er. intros H. apply pair4 in H. destruct H as [_ [_ [_ ->]]].
    left. exists b. split; [reflexivity|]. split; [exact Hsu|]. intros kept Hu.
    cbn [records_of flat_map p_step app]. fold (records_of (loop_parts w c b xyzs si None k1 l st (b_steps b))). rewrite (loop_records b xyzs si _ _ _ _ _ _ _ _ Er).
    pose proof (loop_readable _ _ _ _ _ _ _ _ _ _ _ _ _ Er) as Hr. destruct Hu as [[Hk ->]|[iv' [Ht Hth]]].
    + rewrite (keeps_sampling c b Hk) in Hsi. apply ok_eq in Hsi. subst si. now apply accepted_all.
    + rewrite (thins_sampling c b iv' Ht) in Hsi. apply ok_eq in Hsi. subst si.
      destruct (accepted_thinned _ _ _ _ _ Hth (open_obs_dated w name b Eo) Hr I) as [-> HF]. now apply chosen_same.
  - intros _. right. split; [reflexivity|]. exists (mkPart None (skip_says b) []). pose proof (proj1 (start_suitable w c b _ Es)) as Hsu.
    assert (Hns : ~ suitable b) by (intros X; apply Hsu in X; now apply X). revert Es. unfold file_start, skip_says.
    destruct (h_ver (b_hdr b)) as [[[rv ft] ss]|] eqn:Ev; cbn [of_option bind]; [|discriminate]. destruct (supports ss || ceqb ss "M"); cbn [negb].
    + destruct (h_tofo (b_hdr b)) as [[t0 ts]|] eqn:Et; cbn [of_option bind]; [|discriminate]. destruct (seqb ts (lit "GPS")); cbn [negb].
      * destruct (lbh_of w _); cbn [bind]; [|discriminate]. destruct (xyz_data _ _ _); cbn [bind]; [|discriminate].
        destruct (interval_of b); cbn [bind]; [|discriminate]. destruct (sampling_of c b); cbn [bind]; discriminate.
      * intros _. exists (LTime (b_name b) ts). split; [now left|]. split; [now left|]. right. exists b. split; [reflexivity|]. split; [exact Hns|]. right. exists t0, ts. split; [exact Et|]. now rewrite (open_name w name b Eo).
    + intros _. exists (LSystem ss). split; [now left|]. split; [now left|]. right. exists b. split; [reflexivity|]. split; [exact Hns|]. left. exists rv, ft, ss. split; [exact Ev|reflexivity].
Qed.
End Records.
(** what is said is in the log file *)
Lemma verbose_threshold c m : verbose c -> noticeable m -> threshold c <=? level_of m = true.
Proof.
  unfold verbose, noticeable. intros Hc H. apply Nat.leb_le. assert (threshold c <= 20); [|lia]. unfold threshold. destruct Hc as [-> | ->]; cbn; lia.
Qed.
Lemma said_logged w c f name ps p m : In (name, ps) (main_parts w c f) -> In p ps -> In m (p_says p) -> threshold c <=? level_of m = true -> In m (main_log_file w c f).
Proof.
  intros H1 H2 H3 H4. unfold main_log_file, kept_messages. apply filter_In. split; [|exact H4]. unfold main_says. apply in_concat.
  exists (concat (map p_says ps)). split; [apply in_map_iff; exists (name, ps); auto|]. apply in_concat. exists (p_says p). split; [now apply in_map|exact H3].
Qed.
Lemma in_part w c f before name p : part_of_run w c f before name p -> exists ps, In (name, ps) (main_parts w c f) /\ In p ps.
Proof.
  intros [pre [x [y [post [-> _]]]]]. exists (x ++ p :: y). split; apply in_or_app; right; now left.
Qed.
Lemma run_left_out w c f name ps : stopped_by w c f = None -> In (name, ps) (main_parts w c f) ->
  (exists b, open_obs w name = Ok b /\ suitable b /\ forall kept, used c b kept -> chosen (usable (b_date b)) kept (records_of ps)) \/
  (records_of ps = [] /\ exists p m, In p ps /\ In m (p_says p) /\ 30 <= level_of m /\
     ((exists e, open_obs w name = Err e /\ m = LOpen e) \/
      (exists b, open_obs w name = Ok b /\ ~ suitable b /\
         ((exists v ty sys, h_ver (b_hdr b) = Some (v, ty, sys) /\ m = LSystem sys) \/ (exists t0 ts, h_tofo (b_hdr b) = Some (t0, ts) /\ m = LTime name ts))))).
Proof.
  intros H1 H2. destruct (run_records w c f name ps H1 H2) as [H|[H [p [m [Hp [Hm Hx]]]]]]; [left; exact H|right]. split; [exact H|]. exists p, m. split; [exact Hp|]. split; [exact Hm|].
  split; [|exact Hx]. destruct Hx as [[e [_ ->]]|[b [_ [_ [[v [ty [sys [_ ->]]]]|[t0 [ts [_ ->]]]]]]]]; cbn; lia.
Qed.
Lemma run_all_files w c f : stopped_by w c f = None -> map fst (main_parts w c f) = sort_str (find_files (w_ls w) (c_obsdir c) RE_OBS).
Proof. intros H. exact (proj1 (run_in w c f H)). Qed.
Lemma run_reported w c f before name p s t sys n : part_of_run w c f before name p -> p_step p = Some s -> identifies s t sys n ->
  has_row s t (p_ops p) \/
  (exists m, In m (p_says p) /\ noticeable m /\ about m name s t sys n /\ (verbose c -> In m (main_log_file w c f))) \/
  ((c_ignore c = false \/ sys = "R"%char) /\ (far w c t sys n \/ exists s', processed before s' /\ identifies s' t sys n)).
Proof.
  intros Hp Hs Hi. destruct (in_part w c f before name p Hp) as [ps [H1 H2]]. destruct (run_reports w c f before name p Hp s t sys n Hs Hi) as [H|[[m [Hm [Hn Ha]]]|H]].
  - left. exact H.
  - right. left. exists m. split; [exact Hm|]. split; [exact Hn|]. split; [exact Ha|]. intros Hv. exact (said_logged w c f name ps p m H1 H2 Hm (verbose_threshold c m Hv Hn)).
  - right. right. exact H.
Qed.
