(** The run: sampling, and which records are written. *)
From Coq Require Import ZifyBool ZifyNat.
From Verif Require Import Base PyStr PyFloat PyDate PyPath S_Time M_Common M_Header M_Obs2 M_Rec M_Text M_Cfg M_Label M_Names M_Xyz M_Nav M_NmUtils M_Num M_Tec M_Sat M_Main S_Main S_Fresh P_Str P_Date P_Nav P_Out P_Main1 P_Main2 P_Main3 P_Main4.
Open Scope nat_scope.

Section Sampling.
Variable (w : world) (c : cfg).

Lemma usable_accept day s t sys n last : identifies s t sys n -> usable day s -> accept day None last t sys = Some last.
Proof.
  intros Hi [t' [sys' [n' [Hi' [Hs Hd]]]]]. apply ident_iff in Hi, Hi'. rewrite Hi in Hi'. injection Hi' as <- <- <-.
  unfold accept. rewrite (proj2 (supports_iff sys) Hs). cbn [negb]. rewrite Hd, date_eqb_refl. reflexivity.
Qed.
Lemma unusable_accept day si s t sys n last : identifies s t sys n -> ~ usable day s -> accept day si last t sys = None.
Proof.
  intros Hi Hu. destruct (accept day si last t sys) eqn:E; [|reflexivity]. destruct Hu. exact (accept_usable _ _ _ _ _ _ _ _ Hi E).
Qed.
Lemma unreadable_ident s : unreadable s -> exists e, record_ident s = Err e.
Proof.
  intros H. destruct (record_ident s) as [[[t sys] n]|e] eqn:E; [|eauto]. destruct H. exists t, sys, n. now apply ident_iff.
Qed.
(** acceptance with an interval *)
Lemma accept_sampled day iv last t sys : (In sys systems /\ day = Some (dt_date t)) ->
  accept day (Some iv) last t sys = sample (Some iv) last t.
Proof. intros [Hs Hd]. unfold accept. rewrite (proj2 (supports_iff sys) Hs). cbn [negb]. rewrite Hd, date_eqb_refl. reflexivity. Qed.
Lemma usable_ident day s t sys n : identifies s t sys n -> usable day s -> In sys systems /\ day = Some (dt_date t).
Proof.
  intros Hi [t' [sys' [n' [Hi' [Hs Hd]]]]]. apply ident_iff in Hi, Hi'. rewrite Hi in Hi'. injection Hi' as <- <- <-. auto.
Qed.
Lemma usable_dec day s : usable day s \/ ~ usable day s.
Proof.
  destruct (record_ident s) as [[[t sys] n]|e] eqn:E.
  - apply ident_iff in E. destruct (accept day None None t sys) eqn:Ea.
    + left. exact (accept_usable _ _ _ _ _ _ _ _ E Ea).
    + right. intros Hu. rewrite (usable_accept _ _ _ _ _ _ E Hu) in Ea. discriminate.
  - right. intros [t [sys [n [Hi _]]]]. apply (ident_err _ _ E). eauto.
Qed.

Definition valid_last (last : option datetime) : Prop := match last with Some t => valid_datetime t | None => True end.
Lemma thin_loop b xyzs iv steps : Forall dated steps -> forall last, valid_last last ->
  exists kept, thinned (b_date b) iv last steps kept /\
    forall last2 k l st, record_loop w c b xyzs (Some iv) last k l st steps = record_loop w c b xyzs None last2 k l st kept.
Proof.
  intros Hd. induction Hd as [|s r Hs Hd IH]; intros last Hv.
  { exists []. split; [constructor|]. reflexivity. }
  destruct (record_ident s) as [[[t sys] n]|e] eqn:Ei.
  2:{ exists [s]. split; [apply th_stop; exact (ident_err _ _ Ei)|]. intros. cbn [record_loop]. now rewrite Ei. }
  pose proof Ei as Hi. apply ident_iff in Hi. destruct (usable_dec (b_date b) s) as [Hu|Hu].
  2:{ destruct (IH last Hv) as [kept [H1 H2]]. exists kept. split; [apply th_other; eauto|]. intros. cbn [record_loop].
      rewrite Ei, (unusable_accept _ _ _ _ _ _ _ Hi Hu). apply H2. }
  pose proof (Hs t (proj1 Hi)) as Hvt. pose proof (usable_ident _ _ _ _ _ Hi Hu) as Hsd.
  assert (Hkeep : forall last' kept, sample (Some iv) last t = Some (Some t) -> thinned (b_date b) iv last' (s :: r) (s :: kept) ->
    (forall last2 k l st, record_loop w c b xyzs (Some iv) (Some t) k l st r = record_loop w c b xyzs None last2 k l st kept) ->
    forall last2 k l st, record_loop w c b xyzs (Some iv) last k l st (s :: r) = record_loop w c b xyzs None last2 k l st (s :: kept)).
  { intros last' kept Hsm _ Hr last2 k l st. cbn [record_loop]. rewrite Ei, (accept_sampled _ _ _ _ _ Hsd), Hsm, (usable_accept _ _ _ _ _ _ Hi Hu).
    destruct (record_body w c xyzs (latest (w_xyz (snd st))) k l s t sys n) as [[[k1 l1] ops]|e]; [|reflexivity].
    destruct (do_ops (out_of w c) st ops) as [st1|e]; [|reflexivity]. now rewrite (Hr last2). }
  destruct last as [t0|].
  - destruct (dt_eqb t0 t) eqn:Ee.
    + apply dt_eqb_eq in Ee. subst t0. destruct (IH (Some t) Hvt) as [kept [H1 H2]]. exists (s :: kept).
      assert (Ht : thinned (b_date b) iv (Some t) (s :: r) (s :: kept)) by (eapply th_same; [exact Hu|exact (proj1 Hi)|exact H1]).
      split; [exact Ht|]. refine (Hkeep _ kept _ Ht H2). unfold sample. now rewrite (proj2 (dt_eqb_eq t t) eq_refl).
    + assert (Hne : t <> t0). { intros ->. rewrite (proj2 (dt_eqb_eq t0 t0) eq_refl) in Ee. discriminate. }
      destruct (dt_sub t t0 <? iv)%Z eqn:El.
      * destruct (IH (Some t0) Hv) as [kept [H1 H2]]. exists kept. split.
        { eapply th_drop; [exact Hu|exact (proj1 Hi)|exact Hne| |exact H1]. rewrite !instant_eq by assumption. unfold dt_sub in El. lia. }
        intros. cbn [record_loop]. rewrite Ei, (accept_sampled _ _ _ _ _ Hsd). unfold sample. rewrite Ee, El. apply H2.
      * destruct (IH (Some t) Hvt) as [kept [H1 H2]]. exists (s :: kept).
        assert (Ht : thinned (b_date b) iv (Some t0) (s :: r) (s :: kept)).
        { eapply th_next; [exact Hu|exact (proj1 Hi)|exact Hne| |exact H1]. rewrite !instant_eq by assumption. unfold dt_sub in El. lia. }
        split; [exact Ht|]. refine (Hkeep _ kept _ Ht H2). unfold sample. now rewrite Ee, El.
  - destruct (IH (Some t) Hvt) as [kept [H1 H2]]. exists (s :: kept).
    assert (Ht : thinned (b_date b) iv None (s :: r) (s :: kept)) by (eapply th_first; [exact Hu|exact (proj1 Hi)|exact H1]).
    split; [exact Ht|]. refine (Hkeep _ kept _ Ht H2). unfold sample. now rewrite (proj2 (dt_eqb_eq t t) eq_refl).
Qed.
(** [thinned] determines the records kept *)
Lemma thinned_unique day iv last steps kept : thinned day iv last steps kept -> forall kept', thinned day iv last steps kept' -> kept = kept'.
Proof.
  assert (Hread : forall s, unreadable s -> usable day s -> False).
  { intros s H [t [sys [n [Hi _]]]]. apply H. eauto. }
  induction 1 as [last|last s r Hs|last s r r' Hr Hn _ IH|s r r' t Hu He _ IH|s r r' t Hu He _ IH|s r r' t t0 Hu He Hne Hle _ IH|s r r' t t0 Hu He Hne Hlt _ IH];
    intros kept' H'; inversion H'; subst; try reflexivity; try contradiction; try (exfalso; eauto; fail);
    repeat match goal with H1 : s_epoch ?s = Some _, H2 : s_epoch ?s = Some _ |- _ => rewrite H1 in H2; injection H2 as <- end;
    try contradiction; try lia; try (f_equal; auto; fail); auto.
Qed.

(** rows are at the time of their record *)
Lemma row_step_time nav g l s t sys n v op : row_step w c nav g l s t sys n v = Ok (Some op) -> exists sd q, op = WRow (s_sat s) sd nav t q.
Proof.
  unfold row_step. destruct v as [[p el] az].
  destruct (if ceqb sys "R" then of_option KeyError g else Ok (fzero, fzero, fzero)) as [[[f1 f2] k0]|e]; cbn [bind]; [|discriminate].
  destruct (tec_columns _ _ _ _) as [tecs|e]; cbn [bind]; [|discriminate].
  destruct (s_types s sys) as [types|e]; cbn [bind]; [|discriminate].
  destruct (record_validity types (s_rec s)) as [v|e]; [|destruct e; discriminate].
  intros H. apply (f_equal (fun x => match x with Ok (Some y) => y | _ => op end)) in H. cbn beta iota in H. subst op. eauto.
Qed.
Lemma body_time xyzs lp k l s t sys n k' l' ops : record_body w c xyzs lp k l s t sys n = Ok (k', l', ops) ->
  forall sat sd nav u q, In (WRow sat sd nav u q) ops -> u = t.
Proof.
  unfold record_body. destruct (nav_step w c k l t sys) as [[[k1 l1] go]|e]; cbn [bind]; [|discriminate].
  destruct go; cbn [negb]; [|intros H; injection H as _ _ <-; intros; contradiction].
  destruct (sat_step w k1 l1 t sys n) as [[k2 go]|e]; cbn [bind]; [|discriminate].
  destruct go; cbn [negb]; [|intros H; injection H as _ _ <-; intros; contradiction].
  destruct (site_step w xyzs l1 s t) as [l2|e]; cbn [bind]; [|discriminate]. destruct lp as [last|e]; cbn [bind]; [|discriminate]. cbv zeta.
  destruct (of_option KeyError (dict_get sat_key_eqb _ _)) as [cur|e]; cbn [bind]; [|discriminate].
  assert (Hpos : forall sat sd nav u q, In (WRow sat sd nav u q) (if same_xyz (l_xyz l2) last then [] else [WPos t (l_xyz l2) (l_lbh l2)]) -> False).
  { intros. destruct (same_xyz (l_xyz l2) last); [contradiction|]. destruct H as [E|[]]. discriminate. }
  destruct (view w c (l_xyz l2) cur sys) as [[v|]|e]; cbn [bind]; [|intros H; injection H as _ _ <-; intros; exfalso; eauto|discriminate].
  destruct (of_option KeyError (dict_get date_eqb _ _)) as [files|e]; cbn [bind]; [|discriminate].
  destruct (of_option KeyError (dict_get ceqb _ _)) as [nav|e]; cbn [bind]; [|discriminate].
  destruct (row_step w c nav _ l2 s t sys n v) as [r|e] eqn:Er; cbn [bind]; [|discriminate].
  intros H. injection H as _ _ <-. intros sat sd nav' u q Hin. apply in_app_or in Hin. destruct Hin as [Hin|Hin]; [exfalso; eauto|].
  destruct r as [op|]; [|contradiction]. destruct Hin as [E|[]]. destruct (row_step_time _ _ _ _ _ _ _ _ _ Er) as [sd' [q' ->]].
  now injection E as _ _ _ <- _.
Qed.

Definition later (iv : Z) (a b : datetime) : Prop := a = b \/ (instant a + iv <= instant b)%Z.
Lemma later_trans iv a b d : (0 <= iv)%Z -> later iv a b -> later iv b d -> later iv a d.
Proof. unfold later. intros Hi [->|H1] [->|H2]; auto. right. lia. Qed.
Lemma in_split_app {A} (a : A) x y l1 l2 : x ++ a :: y = l1 ++ l2 ->
  (exists y', l1 = x ++ a :: y' /\ y = y' ++ l2) \/ (exists x', l2 = x' ++ a :: y /\ x = l1 ++ x').
Proof.
  revert x. induction l1 as [|h l1 IH]; intros x; cbn [app].
  - intros <-. right. exists x. auto.
  - destruct x as [|h' x]; cbn [app].
    + intros [= <- ->]. left. exists l1. auto.
    + intros [= -> H]. destruct (IH x H) as [[y' [-> ->]]|[x' [-> ->]]]; [left|right]; eauto.
Qed.
Lemma loop_spaced b xyzs iv steps : (0 <= iv)%Z -> Forall dated steps -> forall last k l st k' st' os e, valid_last last ->
  record_loop w c b xyzs (Some iv) last k l st steps = (k', st', os, e) ->
  (forall sat sd nav u q, In (WRow sat sd nav u q) os -> match last with Some t0 => later iv t0 u | None => True end) /\
  (forall s1 d1 n1 t1 q1 s2 d2 n2 t2 q2, above (WRow s1 d1 n1 t1 q1) (WRow s2 d2 n2 t2 q2) os -> later iv t1 t2).
Proof.
  intros Hiv Hd. induction Hd as [|s r Hs Hd IH]; intros last k l st k' st' os e Hv; cbn [record_loop].
  { intros H. injection H as _ _ <- _. split; [intros; contradiction|]. intros * [x [y [z E]]]. destruct x; discriminate. }
  assert (Hnil : forall (P : Prop), [] = os -> (forall sat sd nav u q, In (WRow sat sd nav u q) os -> match last with Some t0 => later iv t0 u | None => True end) /\
    (forall s1 d1 n1 t1 q1 s2 d2 n2 t2 q2, above (WRow s1 d1 n1 t1 q1) (WRow s2 d2 n2 t2 q2) os -> later iv t1 t2)).
  { intros _ <-. split; [intros; contradiction|]. intros * [x [y [z E]]]. destruct x; discriminate. }
  destruct (record_ident s) as [[[t sys] n]|e0] eqn:Ei; [|intros H; injection H as _ _ E _; exact (Hnil True E)].
  apply ident_iff in Ei. pose proof (Hs t (proj1 Ei)) as Hvt.
  destruct (accept (b_date b) (Some iv) last t sys) as [last'|] eqn:Ea; [|exact (IH _ _ _ _ _ _ _ _ Hv)].
  apply accept_some in Ea. destruct Ea as [_ [_ Hsm]].
  assert (Hl' : last' = Some t /\ match last with Some t0 => later iv t0 t | None => True end).
  { unfold sample in Hsm. destruct last as [t0|].
    - destruct (dt_eqb t0 t) eqn:Ee; [apply dt_eqb_eq in Ee; subst t0; injection Hsm as <-; split; [reflexivity|now left]|].
      destruct (dt_sub t t0 <? iv)%Z eqn:El; [discriminate|]. injection Hsm as <-. split; [reflexivity|]. right.
      cbn in Hv. rewrite !instant_eq by assumption. unfold dt_sub in El. lia.
    - rewrite (proj2 (dt_eqb_eq t t) eq_refl) in Hsm. injection Hsm as <-. auto. }
  destruct Hl' as [-> Hl].
  destruct (record_body w c xyzs (latest (w_xyz (snd st))) k l s t sys n) as [[[k1 l1] ops]|e0] eqn:Eb; [|intros H; injection H as _ _ E _; exact (Hnil True E)].
  destruct (do_ops (out_of w c) st ops) as [st1|e0]; [|intros H; injection H as _ _ E _; exact (Hnil True E)].
  destruct (record_loop w c b xyzs (Some iv) (Some t) k1 l1 st1 r) as [[[k2 st2] os2] e2] eqn:El.
  intros H. injection H as _ _ <- _. destruct (IH (Some t) _ _ _ _ _ _ _ Hvt El) as [H1 H2].
  pose proof (body_time _ _ _ _ _ _ _ _ _ _ _ Eb) as Ht. split.
  - intros sat sd nav u q Hin. destruct last as [t0|]; [|exact I]. apply in_app_or in Hin. destruct Hin as [Hin|Hin].
    + now rewrite (Ht _ _ _ _ _ Hin).
    + exact (later_trans iv t0 t u Hiv Hl (H1 _ _ _ _ _ Hin)).
  - intros s1 d1 n1 t1 q1 s2 d2 n2 t2 q2 [x [y [z E]]]. symmetry in E. destruct (in_split_app _ _ _ _ _ E) as [[y' [-> Hy]]|[x' [-> ->]]].
    + assert (E1 : t1 = t). { apply (Ht s1 d1 n1 t1 q1). apply in_elt. } subst t1.
      destruct (in_split_app _ _ _ _ _ Hy) as [[y2 [-> _]]|[x2 [-> _]]].
      * left. symmetry. apply (Ht s2 d2 n2 t2 q2). apply in_or_app. right. right. apply in_elt.
      * apply (H1 s2 d2 n2 t2 q2). apply in_elt.
    + eapply H2. exists x', y, z. reflexivity.
Qed.
End Sampling.
