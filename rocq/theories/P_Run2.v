(** The count of errors of a file and of a run. *)
From Coq Require Import ZifyBool ZifyNat.
From Verif Require Import Base PyStr PyFloat PyDate PyPath PyRegex S_Text S_Time S_Open2 M_Common M_Header M_Obs2 M_Obs3 M_Rec M_Text M_Cfg M_Label M_Names M_Xyz M_Nav M_NmUtils M_Num M_Tec M_Sat M_Main M_Run S_Names S_Xyz S_Main S_Fresh S_Run S_Out P_Str P_Date P_Label P_Main1 P_Main2 P_Main3 P_Main4 P_Main5 P_Main6 P_Main7 P_Main8 P_Main12 P_Run1.
Open Scope nat_scope.

Section Errors.
Variables (w : world) (c : cfg).
(** the records used, as the count sees them *)
Lemma thin_errors b xyzs iv steps : Forall dated steps -> forall last, valid_last last ->
  exists kept, thinned (b_date b) iv last steps kept /\
    forall last2 k l st, loop_errors w c b xyzs (Some iv) last k l st steps = loop_errors w c b xyzs None last2 k l st kept.
Proof.
  intros Hd. induction Hd as [|s r Hs Hd IH]; intros last Hv.
  { exists []. split; [constructor|]. reflexivity. }
  destruct (record_ident s) as [[[t sys] n]|e] eqn:Ei.
  2:{ exists [s]. split; [apply th_stop; exact (ident_err _ _ Ei)|]. intros. cbn [loop_errors]. now rewrite Ei. }
  pose proof Ei as Hi. apply ident_iff in Hi. destruct (usable_dec (b_date b) s) as [Hu|Hu].
  2:{ destruct (IH last Hv) as [kept [H1 H2]]. exists kept. split; [apply th_other; eauto|]. intros. cbn [loop_errors].
      rewrite Ei, (unusable_accept _ _ _ _ _ _ _ Hi Hu). apply H2. }
  pose proof (Hs t (proj1 Hi)) as Hvt. pose proof (usable_ident _ _ _ _ _ Hi Hu) as Hsd.
  assert (Hkeep : forall last' kept, sample (Some iv) last t = Some (Some t) -> thinned (b_date b) iv last' (s :: r) (s :: kept) ->
    (forall last2 k l st, loop_errors w c b xyzs (Some iv) (Some t) k l st r = loop_errors w c b xyzs None last2 k l st kept) ->
    forall last2 k l st, loop_errors w c b xyzs (Some iv) last k l st (s :: r) = loop_errors w c b xyzs None last2 k l st (s :: kept)).
  { intros last' kept Hsm _ Hr last2 k l st. cbn [loop_errors]. rewrite Ei, (accept_sampled _ _ _ _ _ Hsd), Hsm, (usable_accept _ _ _ _ _ _ Hi Hu).
    destruct (record_body w c xyzs (latest (w_xyz (snd st))) k l s t sys n) as [[[k1 l1] ops]|e]; [|reflexivity].
    destruct (do_ops (out_of w c) st ops) as [st1|e]; [|reflexivity]. now rewrite (Hr last2). }
  destruct last as [t0|].
  - destruct (dt_eqb t0 t) eqn:Ee.
    + apply dt_eqb_eq in Ee. subst t0. destruct (IH (Some t) Hvt) as [kept [H1 H2]]. exists (s :: kept).
      assert (Ht : thinned (b_date b) iv (Some t) (s :: r) (s :: kept)) by (eapply th_same; [exact Hu|exact (proj1 Hi)|exact H1]).
      split; [exact Ht|]. refine (Hkeep _ kept _ Ht H2). unfold sample. now rewrite (proj2 (dt_eqb_eq t t) eq_refl).
    + assert (Hne : t <> t0). { intros ->. rewrite (proj2 (dt_eqb_eq t0 t0) eq_refl) in Ee. discriminate. }
      destruct (dt_sub t t0 <? iv)%Z eqn:El.
      * destruct (IH (Some t0) Hv) as [kept [H1 H2]]. exists kept. split.
        { eapply th_drop; [exact Hu|exact (proj1 Hi)|exact Hne| |exact H1]. rewrite !instant_eq by assumption. unfold dt_sub in El. lia. }
        intros. cbn [loop_errors]. rewrite Ei, (accept_sampled _ _ _ _ _ Hsd). unfold sample. rewrite Ee, El. apply H2.
      * destruct (IH (Some t) Hvt) as [kept [H1 H2]]. exists (s :: kept).
        assert (Ht : thinned (b_date b) iv (Some t0) (s :: r) (s :: kept)).
        { eapply th_next; [exact Hu|exact (proj1 Hi)|exact Hne| |exact H1]. rewrite !instant_eq by assumption. unfold dt_sub in El. lia. }
        split; [exact Ht|]. refine (Hkeep _ kept _ Ht H2). unfold sample. now rewrite Ee, El.
  - destruct (IH (Some t) Hvt) as [kept [H1 H2]]. exists (s :: kept).
    assert (Ht : thinned (b_date b) iv None (s :: r) (s :: kept)) by (eapply th_first; [exact Hu|exact (proj1 Hi)|exact H1]).
    split; [exact Ht|]. refine (Hkeep _ kept _ Ht H2). unfold sample. now rewrite (proj2 (dt_eqb_eq t t) eq_refl).
Qed.
Lemma loop_errors_last b xyzs steps : forall last last2 k l st,
  loop_errors w c b xyzs None last k l st steps = loop_errors w c b xyzs None last2 k l st steps.
Proof.
  induction steps as [|s r IH]; intros last last2 k l st; cbn [loop_errors]; [reflexivity|].
  destruct (record_ident s) as [[[t sys] n]|e]; [|reflexivity].
  assert (Ha : forall x, accept (b_date b) None x t sys = if supports sys then match b_date b with Some d => if date_eqb (dt_date t) d then Some x else None | None => None end else None).
  { intros x. unfold accept. destruct (supports sys); [|reflexivity]. cbn [negb]. destruct (b_date b); [|reflexivity]. destruct (date_eqb _ _); reflexivity. }
  rewrite (Ha last), (Ha last2). destruct (supports sys); [|apply IH]. destruct (b_date b) as [d|]; [|apply IH]. destruct (date_eqb (dt_date t) d); [|apply IH].
  destruct (record_body _ _ _ _ _ _ _ _ _ _) as [[[k' l'] os]|e]; [|reflexivity]. destruct (do_ops _ _ _) as [st'|e]; [|reflexivity].
  rewrite (IH last last2). reflexivity.
Qed.
Lemma used_errors b xyzs si kept last k l st : Forall dated (b_steps b) -> sampling_of c b = Ok si -> used c b kept ->
  loop_errors w c b xyzs si None k l st (b_steps b) = loop_errors w c b xyzs None last k l st kept.
Proof.
  intros Hd Hs [[H ->]|[iv [H Ht]]].
  - rewrite (keeps_sampling c b H) in Hs. injection Hs as <-. apply loop_errors_last.
  - rewrite (thins_sampling c b iv H) in Hs. injection Hs as <-. destruct (thin_errors b xyzs iv (b_steps b) Hd None I) as [kept' [Hk Hl]].
    rewrite (thinned_unique _ _ _ _ _ Ht _ Hk). apply Hl.
Qed.
Definition bad_some (xyzs : list (datetime * xyz)) (s : step) : Prop :=
  exists t sys n site, identifies s t sys n /\ site_of xyzs s t site /\ no_view w c t sys n site.
Definition bad_all (xyzs : list (datetime * xyz)) (s : step) : Prop :=
  exists t sys n, identifies s t sys n /\ forall site, site_of xyzs s t site -> no_view w c t sys n site.
(** the loop over the records looked at: with the sampling as it is, and without *)
Lemma loop_errors_spec b xyzs si steps : forall last k l st k' st' os,
  good w c k -> (forall day, b_date b = Some day -> loc_good w c day k l) -> geodetic w (l_xyz l) (l_lbh l) ->
  record_loop w c b xyzs si last k l st steps = (k', st', os, None) ->
  (loop_errors w c b xyzs si last k l st steps <> 0 -> b_end b = GRaise RinexError \/
     exists s, In s steps /\ usable (b_date b) s /\ bad_some xyzs s) /\
  (loop_errors w c b xyzs si last k l st steps = 0 -> no_bad w c k -> no_bad w c k' /\ b_end b <> GRaise RinexError /\
     (si = None -> forall s, In s steps -> usable (b_date b) s -> ~ bad_all xyzs s)).
Proof.
  induction steps as [|s r IH]; intros last k l st k' st' os G Gl Hg; cbn [record_loop loop_errors].
  { intros H. injection H as <- _ _ He. split.
    - destruct (b_end b) as [|[]]; auto; intros X; now destruct X.
    - intros Hz Hn. split; [exact Hn|]. split; [|intros _ s []]. intros E. rewrite E in Hz. discriminate. }
  destruct (record_ident s) as [[[t sys] n]|e] eqn:Ei; [|discriminate]. apply ident_iff in Ei.
  destruct (accept (b_date b) si last t sys) as [last'|] eqn:Ea.
  2:{ intros H. destruct (IH _ _ _ _ _ _ _ G Gl Hg H) as [H1 H2]. split.
      - intros Hne. destruct (H1 Hne) as [X|[s' [Hs' X]]]; [now left|]. right. exists s'. split; [now right|exact X].
      - intros Hz Hn. destruct (H2 Hz Hn) as [Ha [Hb Hc]]. split; [exact Ha|]. split; [exact Hb|]. intros -> s' [<-|Hs'] Hu; [|exact (Hc eq_refl s' Hs' Hu)].
        rewrite (usable_accept _ _ _ _ _ _ Ei Hu) in Ea. discriminate. }
  destruct (accept_some _ _ _ _ _ _ Ea) as [Hs [Hday _]].
  destruct (record_body w c xyzs (latest (w_xyz (snd st))) k l s t sys n) as [[[k1 l1] ops]|e] eqn:Eb; [|discriminate].
  destruct (do_ops (out_of w c) st ops) as [st1|e]; [|discriminate].
  destruct (record_loop w c b xyzs si last' k1 l1 st1 r) as [[[k2 st2] os2] e2] eqn:Er. intros H. injection H as <- _ _ ->.
  destruct (body_spec w c _ _ _ _ _ _ _ _ _ _ _ _ G eq_refl (Gl _ Hday) Hg Ei Eb) as [G1 [Gl1 [Hg1 _]]].
  destruct (record_errors_spec w c _ _ _ _ _ _ _ _ _ _ _ G (Gl _ Hday) Hg Ei Eb) as [R1 R2].
  assert (Gl1' : forall day, b_date b = Some day -> loc_good w c day k1 l1). { intros day E. rewrite Hday in E. apply some_inj in E. now subst day. }
  destruct (IH _ _ _ _ _ _ _ G1 Gl1' Hg1 Er) as [H1 H2]. split.
  - intros Hne. destruct (Nat.eq_dec (record_errors w c xyzs k l s t sys n) 0) as [Hz|Hz].
    + destruct H1 as [X|[s' [Hs' X]]]; [lia|now left|]. right. exists s'. split; [now right|exact X].
    + right. destruct (R1 Hz) as [site [Hsite Hv]]. exists s. split; [now left|]. split; [exact (accept_usable _ _ _ _ _ _ _ _ Ei Ea)|].
      exists t, sys, n, site. auto.
  - intros Hz Hn. destruct (R2 ltac:(lia) Hn) as [Hn1 Hr]. destruct (H2 ltac:(lia) Hn1) as [Ha [Hb Hc]]. split; [exact Ha|]. split; [exact Hb|].
    intros Hsi s' [<-|Hs'] Hu; [|exact (Hc Hsi s' Hs' Hu)]. intros [t' [sys' [n' [Hi' Hall]]]].
    destruct (identifies_fun _ _ _ _ _ _ _ Ei Hi') as [<- [<- <-]]. exact (Hr Hall).
Qed.
(** the first alternative, for the records used *)
Lemma used_errors_some b xyzs si k l st k' st' os : Forall dated (b_steps b) -> sampling_of c b = Ok si ->
  good w c k -> (forall day, b_date b = Some day -> loc_good w c day k l) -> geodetic w (l_xyz l) (l_lbh l) ->
  record_loop w c b xyzs si None k l st (b_steps b) = (k', st', os, None) ->
  loop_errors w c b xyzs si None k l st (b_steps b) <> 0 -> b_end b = GRaise RinexError \/
     exists s, In s (b_steps b) /\ usable (b_date b) s /\ (forall kept, used c b kept -> In s kept) /\ bad_some xyzs s.
Proof.
  intros Hd Hs G Gl Hg Hr Hne. destruct (loop_errors_spec b xyzs si _ _ _ _ _ _ _ _ G Gl Hg Hr) as [H1 _].
  destruct si as [iv|].
  - destruct (thin_loop w c b xyzs iv (b_steps b) Hd None I) as [kept [Hk Hl]]. destruct (thin_errors b xyzs iv (b_steps b) Hd None I) as [kept' [Hk' Hl']].
    rewrite <- (thinned_unique _ _ _ _ _ Hk _ Hk') in Hl'. rewrite (Hl None) in Hr. rewrite (Hl' None) in Hne.
    destruct (loop_errors_spec b xyzs None _ _ _ _ _ _ _ _ G Gl Hg Hr) as [H3 _]. destruct (H3 Hne) as [X|[s [Hin [Hu Hb]]]]; [now left|]. right. exists s.
    assert (Hsub : forall last steps kept, thinned (b_date b) iv last steps kept -> forall x, In x kept -> In x steps).
    { clear. induction 1; intros x Hx; cbn [In] in *; try tauto; try (destruct Hx as [<-|Hx]; [now left|]; now right; auto); try (right; auto). }
    split; [exact (Hsub _ _ _ Hk s Hin)|]. split; [exact Hu|]. split; [|exact Hb].
    intros kept0 [[Ha ->]|[iv' [Ha Ht]]]; [exact (Hsub _ _ _ Hk s Hin)|]. rewrite (thins_sampling c b iv' Ha) in Hs. injection Hs as ->.
    rewrite (thinned_unique _ _ _ _ _ Ht _ Hk). exact Hin.
  - destruct (H1 Hne) as [X|[s [Hin [Hu Hb]]]]; [now left|]. right. exists s. split; [exact Hin|]. split; [exact Hu|]. split; [|exact Hb].
    intros kept [[_ ->]|[iv [Ha _]]]; [exact Hin|]. rewrite (thins_sampling c b iv Ha) in Hs. discriminate.
Qed.
End Errors.
