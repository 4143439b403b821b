(** The run: the rows of a file are those of its records, one by one. *)
From Coq Require Import ZifyBool ZifyNat.
From Verif Require Import Base PyStr PyFloat PyDate PyPath S_Time M_Common M_Header M_Obs2 M_Obs3 M_Rec M_Text M_Cfg M_Label M_Names M_Xyz M_Nav M_NmUtils M_Num M_Tec M_Sat M_Main S_Main S_Fresh P_Str P_Date P_Nav P_Nav5 P_Out P_Main1 P_Main2 P_Main3 P_Main4 P_Main5 P_Main6 P_Main7.
Open Scope nat_scope.

Section Account.
Variable (w : world) (c : cfg).

Lemma rows_only_app a b : rows_only (a ++ b) = rows_only a ++ rows_only b.
Proof. apply filter_app. Qed.
Lemma body_shape xyzs lp k l s t sys n k' l' ops : record_body w c xyzs lp k l s t sys n = Ok (k', l', ops) ->
  rows_only ops = [] \/ exists op, rows_only ops = [op].
Proof.
  unfold record_body. destruct (nav_step w c k l t sys) as [[[k1 l1] go]|e]; cbn [bind]; [|discriminate].
  destruct go; cbn [negb]; [|intros H; injection H as _ _ <-; now left].
  destruct (sat_step w k1 l1 t sys n) as [[k2 go]|e]; cbn [bind]; [|discriminate].
  destruct go; cbn [negb]; [|intros H; injection H as _ _ <-; now left].
  destruct (site_step w xyzs l1 s t) as [l2|e]; cbn [bind]; [|discriminate].
  destruct lp as [last|e]; cbn [bind]; [|discriminate]. cbv zeta.
  destruct (of_option KeyError (dict_get sat_key_eqb _ _)) as [cur|e]; cbn [bind]; [|discriminate].
  assert (Hp : rows_only (if same_xyz (l_xyz l2) last then [] else [WPos t (l_xyz l2) (l_lbh l2)]) = []) by (destruct (same_xyz _ _); reflexivity).
  destruct (view w c _ cur sys) as [[v|]|e]; cbn [bind]; [|intros H; injection H as _ _ <-; now left|discriminate].
  destruct (of_option KeyError (dict_get date_eqb _ _)) as [files|e]; cbn [bind]; [|discriminate].
  destruct (of_option KeyError (dict_get ceqb _ _)) as [nav|e]; cbn [bind]; [|discriminate].
  destruct (row_step w c nav _ _ s t sys n v) as [[op|]|e]; cbn [bind]; [| |discriminate]; intros H; injection H as _ _ <-.
  - rewrite rows_only_app, Hp. cbn [app rows_only filter]. destruct (is_row op); [right; now exists op|now left].
  - rewrite rows_only_app, Hp. now left.
Qed.
Lemma rows_only_in op ops : In op (rows_only ops) <-> In op ops /\ is_row op = true.
Proof. apply filter_In. Qed.
Lemma body_accounts xyzs lp k l s t sys n k' l' ops day : good w c k -> dt_date t = day -> loc_good w c day k l ->
  geodetic w (l_xyz l) (l_lbh l) -> identifies s t sys n -> record_body w c xyzs lp k l s t sys n = Ok (k', l', ops) ->
  (exists op, rows_only ops = [op] /\ row_for w c xyzs s op) \/
  (rows_only ops = [] /\ ((nav_data w c t sys None /\ dict_mem ceqb sys (l_nav l) = false) \/ forall day before, skipped w c xyzs day before s t sys n)).
Proof.
  intros G Hd Gl Hg Hi Hb. destruct (body_spec w c xyzs lp k l s t sys n k' l' ops day G Hd Gl Hg Hi Hb) as [_ [_ [_ [Hops _]]]].
  destruct (body_shape _ _ _ _ _ _ _ _ _ _ _ Hb) as [Hs|[op Hs]].
  - right. split; [exact Hs|]. destruct (body_complete w c xyzs lp k l s t sys n k' l' ops day G Hd Gl Hg Hi Hb) as [[op [H1 H2]]|H]; [|exact H].
    exfalso. assert (Hin : In op (rows_only ops)); [|rewrite Hs in Hin; exact Hin]. apply rows_only_in. split; [exact H1|].
    destruct H2 as [? [? [? [? [? [? [? [? [? [? [? [_ [-> _]]]]]]]]]]]]]. reflexivity.
  - left. exists op. split; [exact Hs|]. assert (Hin : In op (rows_only ops)) by (rewrite Hs; now left). apply rows_only_in in Hin. destruct Hin as [H1 H2].
    destruct (Hops op H1) as [[p [q [-> _]]]|H]; [discriminate|exact H].
Qed.
Lemma loop_accounts b xyzs : forall steps before last k l st k' st' os e,
  good w c k -> (forall day, b_date b = Some day -> loc_good w c day k l) -> geodetic w (l_xyz l) (l_lbh l) ->
  (forall s', In s' before -> usable (b_date b) s' -> exists x, hd_error (s_sat s') = Some x /\ dict_mem ceqb x (l_nav l) = true) ->
  record_loop w c b xyzs None last k l st steps = (k', st', os, e) ->
  exists done rest, steps = done ++ rest /\ accounts w c xyzs (b_date b) before done (rows_only os) /\ (e = None -> rest = []).
Proof.
  induction steps as [|p steps IH]; intros before last k l st k' st' os e G Gl Hg Hb; cbn [record_loop].
  { intros H. apply pair4 in H. destruct H as [_ [_ [<- _]]]. exists [], []. split; [reflexivity|]. split; [constructor|reflexivity]. }
  assert (Hstop : forall kx stx ex, (kx, stx, @nil wop, Some ex) = (k', st', os, e) ->
    exists done rest, p :: steps = done ++ rest /\ accounts w c xyzs (b_date b) before done (rows_only os) /\ (e = None -> rest = [])).
  { intros kx stx ex H. apply pair4 in H. destruct H as [_ [_ [<- <-]]]. exists [], (p :: steps). split; [reflexivity|]. split; [constructor|discriminate]. }
  destruct (record_ident p) as [[[tp sp] np]|e0] eqn:Ei; [|apply Hstop]. apply ident_iff in Ei.
  destruct (usable_dec (b_date b) p) as [Hup|Hup].
  - rewrite (usable_accept _ _ _ _ _ last Ei Hup). destruct (usable_ident _ _ _ _ _ Ei Hup) as [_ Hday].
    destruct (record_body w c xyzs (latest (w_xyz (snd st))) k l p tp sp np) as [[[k1 l1] ops]|e0] eqn:Eb; [|apply Hstop].
    destruct (body_spec w c xyzs _ k l p tp sp np k1 l1 ops (dt_date tp) G eq_refl (Gl _ Hday) Hg Ei Eb) as [G1 [Gl1 [Hg1 _]]].
    pose proof (body_seen w c xyzs _ k l p tp sp np k1 l1 ops (dt_date tp) G eq_refl (Gl _ Hday) Eb) as Hseen.
    pose proof (body_accounts xyzs _ k l p tp sp np k1 l1 ops (dt_date tp) G eq_refl (Gl _ Hday) Hg Ei Eb) as Hacc.
    destruct (do_ops (out_of w c) st ops) as [st1|e0]; [|apply Hstop].
    destruct (record_loop w c b xyzs None last k1 l1 st1 steps) as [[[k2 st2] os2] e2] eqn:El. intros H. apply pair4 in H. destruct H as [<- [<- [<- <-]]].
    assert (Gl1' : forall day, b_date b = Some day -> loc_good w c day k1 l1). { intros day Hd. rewrite Hday in Hd. injection Hd as <-. exact Gl1. }
    destruct (IH (before ++ [p]) last k1 l1 st1 k2 st2 os2 e2 G1 Gl1' Hg1) as [dn [rest [-> [Ha Hr]]]]; [|exact El|].
    { intros s' Hs' Hu'. apply in_app_or in Hs'. destruct Hs' as [Hs'|[<-|[]]].
      - destruct (Hb s' Hs' Hu') as [x [Hx1 Hx2]]. exists x. split; [exact Hx1|]. rewrite Hseen, Hx2. apply orb_true_r.
      - exists sp. destruct Ei as [_ [d [-> _]]]. split; [reflexivity|]. rewrite Hseen, ceqb_refl. reflexivity. }
    exists (p :: dn), rest. split; [reflexivity|]. split; [|exact Hr]. rewrite rows_only_app. destruct Hacc as [[op [-> Hrow]]|[-> Hsk]].
    + cbn [app]. apply ac_row; assumption.
    + cbn [app]. apply (ac_skip _ _ _ _ _ _ _ tp sp np); [exact Hup|exact Ei| |exact Ha]. destruct Hsk as [[H1 H2]|Hsk]; [|apply Hsk].
      apply sk_first; [exact H1|]. intros s' Hs' Hu' Hh. destruct (Hb s' Hs' Hu') as [x [Hx1 Hx2]]. rewrite Hh in Hx1. injection Hx1 as <-. congruence.
  - rewrite (unusable_accept _ _ _ _ _ _ _ Ei Hup). intros H.
    destruct (IH (before ++ [p]) last k l st k' st' os e G Gl Hg) as [dn [rest [-> [Ha Hr]]]]; [|exact H|].
    { intros s' Hs' Hu'. apply in_app_or in Hs'. destruct Hs' as [Hs'|[<-|[]]]; [exact (Hb s' Hs' Hu')|contradiction]. }
    exists (p :: dn), rest. split; [reflexivity|]. split; [|exact Hr]. apply ac_other; assumption.
Qed.
(** the rows of a file: those of the records used, up to the record where the program stopped *)
Lemma rows_account f name ops b kept : written w c f name ops -> ops <> [] -> open_obs w name = Ok b -> used c b kept ->
  exists xyzs done rest, coordinates w c name xyzs /\ kept = done ++ rest /\ accounts w c xyzs (b_date b) [] done (rows_only ops) /\
    (stopped_by w c f = None -> rest = []).
Proof.
  intros Hw Hne Ho Hu.
  destruct (written_parts w c f name ops b Hw Ho Hne) as [k [xyzs [si [l [pos [st [os [k' [st' [e [G [Hl [Hg [Hx [Hs [-> [Hp [Hr He]]]]]]]]]]]]]]]]]].
  rewrite (used_loop w c b xyzs si _ None k l st (open_obs_dated w name b Ho) Hs Hu) in Hr.
  destruct (loop_accounts b xyzs kept [] None k l st k' st' os e G (fun day _ => loc_nil w c day k l Hl) Hg) as [dn [rest [-> [Ha Hrest]]]].
  - intros s' [].
  - exact Hr.
  - exists xyzs, dn, rest. split; [exact Hx|]. split; [reflexivity|]. split.
    + destruct pos as [t p q|s sd nav t q]; [exact Ha|]. exfalso. exact (Hp _ _ _ _ _ eq_refl).
    + intros Hn. apply Hrest, He, Hn.
Qed.
End Account.
