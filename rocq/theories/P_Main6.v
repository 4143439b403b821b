(** The run: every usable record is written or skipped for a known reason; dates of the records. *)
From Coq Require Import ZifyBool ZifyNat.
From Verif Require Import Base PyStr PyFloat PyDate PyPath S_Time M_Common M_Header M_Obs2 M_Obs3 M_Rec M_Text M_Cfg M_Label M_Names M_Xyz M_Nav M_NmUtils M_Num M_Tec M_Sat M_Main S_Main S_Fresh P_Str P_Date P_Nav P_Nav5 P_Out P_Main1 P_Main2 P_Main3 P_Main4 P_Main5.
Open Scope nat_scope.

Section Complete.
Variable (w : world) (c : cfg).

Lemma fresh_row_complete xyzs lp site s t sys n f m cur g site' ops : fresh_nav w c t sys = Ok (f, m) ->
  (fresh_sat w t sys n m = Ok (Some (cur, g)) \/ cur = None /\ g = None /\ fresh_sat w t sys n m = Ok None) ->
  geodetic w (fst site) (snd site) -> identifies s t sys n ->
  fresh_row w c xyzs lp site s t sys n f cur g = Ok (site', ops) ->
  (exists op, In op ops /\ row_for w c xyzs s op) \/ forall day before, skipped w c xyzs day before s t sys n.
Proof.
  intros Hf Hsat Hgeo Hid Hrow.
  destruct (fresh_row_spec w c xyzs lp site s t sys n f m cur g site' ops Hf Hsat Hgeo Hid Hrow) as [_ [_ [Hops _]]].
  revert Hrow. unfold fresh_row. destruct (site_step w xyzs (mkLocal [] (fst site) (snd site)) s t) as [l|e] eqn:El; cbn [bind]; [|discriminate].
  destruct (site_step_spec w xyzs (mkLocal [] (fst site) (snd site)) s t l Hgeo El) as [Hg1 Hg2].
  destruct lp as [last|e]; cbn [bind]; [|discriminate]. cbv zeta.
  destruct (view w c (l_xyz l) cur sys) as [[[[pos el] az]|]|e] eqn:Ev; cbn [bind]; [| |discriminate].
  - destruct (row_step w c f (Some (known g)) l s t sys n (pos, el, az)) as [[op|]|e] eqn:Er; cbn [bind]; [| |discriminate].
    + intros H. injection H as <- <-. left. exists op. split; [apply in_or_app; right; now left|].
      destruct (Hops op) as [[p [q [E _]]]|Hr]; [apply in_or_app; right; now left| |exact Hr].
      destruct (row_step_time w c _ _ _ _ _ _ _ _ _ Er) as [sd [q' ->]]. discriminate.
    + intros _. right. intros day before. revert Er. unfold row_step.
      destruct (if ceqb sys "R" then of_option KeyError (Some (known g)) else Ok (fzero, fzero, fzero)) as [[[f1 f2] k0]|e]; cbn [bind]; [|discriminate].
      destruct (tec_columns _ _ _ _) as [tecs|e]; cbn [bind]; [|discriminate].
      destruct (s_types s sys) as [types|e] eqn:Ety; cbn [bind]; [|discriminate].
      destruct (record_validity types (s_rec s)) as [v|e] eqn:Evl; [discriminate|]. destruct e; try discriminate. intros _.
      eapply sk_label; eassumption.
  - intros _. right. intros day before. unfold view in Ev. destruct cur as [p|].
    + destruct Hsat as [Hs|[? _]]; [|discriminate]. destruct (fresh_sat_spec w c t sys n f m _ Hf Hs) as [Hl _].
      destruct (compute_el_az _ _ (l_xyz l) p) as [[el' az']|e] eqn:Ec.
      * destruct (fltb el' fzero) eqn:Ez; [|discriminate]. eapply sk_below; eassumption.
      * destruct (existsb (exn_eqb e) arithmetic) eqn:Ea; [|discriminate]. apply arith_eqb in Ea. eapply sk_angle; eassumption.
    + assert (Hno : c_ignore c = false \/ sys = "R"%char).
      { destruct (c_ignore c); [|auto]. cbn [negb] in Ev. destruct (ceqb sys "R") eqn:E; [|discriminate]. right. now apply ceqb_eq. }
      destruct Hsat as [Hs|[_ [_ Hs]]]; pose proof (fresh_sat_spec w c t sys n f m _ Hf Hs) as Hsp; cbn in Hsp.
      * apply sk_absent; assumption.
      * apply sk_arith; assumption.
Qed.
Lemma body_complete xyzs lp k l s t sys n k' l' ops day : good w c k -> dt_date t = day -> loc_good w c day k l ->
  geodetic w (l_xyz l) (l_lbh l) -> identifies s t sys n -> record_body w c xyzs lp k l s t sys n = Ok (k', l', ops) ->
  (exists op, In op ops /\ row_for w c xyzs s op) \/
  (nav_data w c t sys None /\ dict_mem ceqb sys (l_nav l) = false) \/ forall day before, skipped w c xyzs day before s t sys n.
Proof.
  intros G Hd Gl Hg Hi Hb.
  destruct (body_rel w c xyzs lp k l s t sys n _ day G Hd Gl (seen_keys l)) as [Hok _]. destruct (Hok _ _ _ Hb) as [G' [Gl' [seen' [_ Hf]]]].
  destruct Hf as [Hf|[f [m [Hf1 [Hf2 Hf3]]]]].
  - revert Hf. unfold fresh_body. destruct (fresh_nav w c t sys) as [[f m]|e] eqn:Ef; cbn [bind]; [|discriminate]. cbv zeta.
    rewrite <- (seen_keys l sys).
    assert (Hrest : (do got <- fresh_sat w t sys n m;
      match got with
      | None => Ok ((if negb (dict_mem ceqb sys (l_nav l)) then sys :: map fst (l_nav l) else map fst (l_nav l)), (l_xyz l, l_lbh l), [])
      | Some (cur, glo) => do (site, ops) <- fresh_row w c xyzs lp (l_xyz l, l_lbh l) s t sys n f cur glo;
         Ok ((if negb (dict_mem ceqb sys (l_nav l)) then sys :: map fst (l_nav l) else map fst (l_nav l)), site, ops)
      end) = Ok (seen', (l_xyz l', l_lbh l'), ops) ->
      (exists op, In op ops /\ row_for w c xyzs s op) \/
      (nav_data w c t sys None /\ dict_mem ceqb sys (l_nav l) = false) \/ forall day before, skipped w c xyzs day before s t sys n).
    { destruct (fresh_sat w t sys n m) as [[[cur g]|]|e] eqn:Es; cbn [bind]; [| |discriminate].
      - destruct (fresh_row w c xyzs lp (l_xyz l, l_lbh l) s t sys n f cur g) as [[site1 ops1]|e] eqn:Er; cbn [bind]; [|discriminate].
        intros H. injection H as _ _ <-.
        destruct (fresh_row_complete xyzs lp (l_xyz l, l_lbh l) s t sys n f m cur g site1 ops1 Ef (or_introl Es) Hg Hi Er); auto.
      - intros _. right. right. intros day' before. apply sk_arith. exact (fresh_sat_spec w c t sys n f m None Ef Es). }
    destruct f as [f|]; [exact Hrest|]. destruct (dict_mem ceqb sys (l_nav l)) eqn:Em; [exact Hrest|]. cbn [negb]. intros _. right. left.
    split; [|reflexivity]. destruct (fresh_nav_spec w c t sys _ _ Ef) as [d [Hd' [Hn _]]]. destruct d as [[? ?]|]; [discriminate|exact Hd'].
  - destruct (fresh_row_complete xyzs lp (l_xyz l, l_lbh l) s t sys n f m None None (l_xyz l', l_lbh l') ops Hf1 (or_intror (conj eq_refl (conj eq_refl Hf2))) Hg Hi Hf3);
      auto.
Qed.
Lemma body_seen xyzs lp k l s t sys n k' l' ops day : good w c k -> dt_date t = day -> loc_good w c day k l ->
  record_body w c xyzs lp k l s t sys n = Ok (k', l', ops) ->
  forall x, dict_mem ceqb x (l_nav l') = ceqb x sys || dict_mem ceqb x (l_nav l).
Proof.
  intros G <- Gl. unfold record_body. destruct (nav_step w c k l t sys) as [[[k1 l1] go]|e] eqn:En; cbn [bind]; [|discriminate].
  destruct (nav_step_ok w c k l t sys k1 l1 go G Gl En) as [_ [_ [_ [_ [Hmem _]]]]].
  destruct go; cbn [negb]; [|intros H; injection H as _ <- _; exact Hmem].
  destruct (sat_step w k1 l1 t sys n) as [[k2 go]|e]; cbn [bind]; [|discriminate].
  destruct go; cbn [negb]; [|intros H; injection H as _ <- _; exact Hmem].
  rewrite site_step_nav. destruct (site_step w xyzs (mkLocal [] (l_xyz l1) (l_lbh l1)) s t) as [l2|e]; cbn [bind]; [|discriminate].
  destruct lp as [last|e]; cbn [bind]; [|discriminate]. cbv zeta.
  destruct (of_option KeyError (dict_get sat_key_eqb _ _)) as [cur|e]; cbn [bind]; [|discriminate].
  destruct (view w c _ cur sys) as [[v|]|e]; cbn [bind]; [|intros H; injection H as _ <- _; exact Hmem|discriminate].
  destruct (of_option KeyError (dict_get date_eqb _ _)) as [files|e]; cbn [bind]; [|discriminate].
  destruct (of_option KeyError (dict_get ceqb _ _)) as [nav|e]; cbn [bind]; [|discriminate].
  destruct (row_step w c nav _ _ s t sys n v) as [r|e]; cbn [bind]; [|discriminate].
  intros H. injection H as _ <- _. exact Hmem.
Qed.

Lemma loop_complete b xyzs s post t sys n : identifies s t sys n -> usable (b_date b) s -> forall pre before last k l st k' st' os,
  good w c k -> (forall day, b_date b = Some day -> loc_good w c day k l) -> geodetic w (l_xyz l) (l_lbh l) ->
  (forall s', In s' before -> usable (b_date b) s' -> exists x, hd_error (s_sat s') = Some x /\ dict_mem ceqb x (l_nav l) = true) ->
  record_loop w c b xyzs None last k l st (pre ++ s :: post) = (k', st', os, None) ->
  (exists op, In op os /\ row_for w c xyzs s op) \/ skipped w c xyzs (b_date b) (before ++ pre) s t sys n.
Proof.
  intros Hi Hu. induction pre as [|p pre IH]; intros before last k l st k' st' os G Gl Hg Hb; cbn [app record_loop].
  - rewrite (proj2 (ident_iff _ _ _ _) Hi), (usable_accept _ _ _ _ _ last Hi Hu). rewrite app_nil_r.
    destruct (usable_ident _ _ _ _ _ Hi Hu) as [_ Hday].
    destruct (record_body w c xyzs (latest (w_xyz (snd st))) k l s t sys n) as [[[k1 l1] ops]|e0] eqn:Eb; [|discriminate].
    destruct (body_complete xyzs _ k l s t sys n k1 l1 ops (dt_date t) G eq_refl (Gl _ Hday) Hg Hi Eb) as [[op [H1 H2]]|[[H1 H2]|H]].
    + destruct (do_ops (out_of w c) st ops) as [st1|e0]; [|discriminate].
      destruct (record_loop w c b xyzs None last k1 l1 st1 post) as [[[k2 st2] os2] e2]. intros H. injection H as _ _ <- _.
      left. exists op. split; [apply in_or_app; now left|exact H2].
    + intros _. right. apply sk_first; [exact H1|]. intros s' Hs' Hu' Hh. destruct (Hb s' Hs' Hu') as [x [Hx1 Hx2]]. rewrite Hh in Hx1. injection Hx1 as <-. congruence.
    + intros _. right. apply H.
  - destruct (record_ident p) as [[[tp sp] np]|e0] eqn:Ei; [|discriminate]. apply ident_iff in Ei.
    replace (before ++ p :: pre) with ((before ++ [p]) ++ pre) by (rewrite <- app_assoc; reflexivity).
    destruct (usable_dec (b_date b) p) as [Hup|Hup].
    + rewrite (usable_accept _ _ _ _ _ last Ei Hup). destruct (usable_ident _ _ _ _ _ Ei Hup) as [_ Hday].
      destruct (record_body w c xyzs (latest (w_xyz (snd st))) k l p tp sp np) as [[[k1 l1] ops]|e0] eqn:Eb; [|discriminate].
      destruct (body_spec w c xyzs _ k l p tp sp np k1 l1 ops (dt_date tp) G eq_refl (Gl _ Hday) Hg Ei Eb) as [G1 [Gl1 [Hg1 _]]].
      pose proof (body_seen xyzs _ k l p tp sp np k1 l1 ops (dt_date tp) G eq_refl (Gl _ Hday) Eb) as Hseen.
      destruct (do_ops (out_of w c) st ops) as [st1|e0]; [|discriminate].
      destruct (record_loop w c b xyzs None last k1 l1 st1 (pre ++ s :: post)) as [[[k2 st2] os2] e2] eqn:El. intros H. injection H as <- <- <- ->.
      assert (Gl1' : forall day, b_date b = Some day -> loc_good w c day k1 l1). { intros day Hd. rewrite Hday in Hd. injection Hd as <-. exact Gl1. }
      destruct (IH (before ++ [p]) last k1 l1 st1 k2 st2 os2 G1 Gl1' Hg1) as [[op [H1 H2]]|H]; [|exact El| |right; exact H].
      { intros s' Hs' Hu'. apply in_app_or in Hs'. destruct Hs' as [Hs'|[<-|[]]].
        - destruct (Hb s' Hs' Hu') as [x [Hx1 Hx2]]. exists x. split; [exact Hx1|]. rewrite Hseen, Hx2. apply orb_true_r.
        - exists sp. destruct Ei as [_ [d [-> _]]]. split; [reflexivity|]. rewrite Hseen, ceqb_refl. reflexivity. }
      left. exists op. split; [apply in_or_app; now right|exact H2].
    + rewrite (unusable_accept _ _ _ _ _ _ _ Ei Hup). apply IH; [exact G|exact Gl|exact Hg|].
      intros s' Hs' Hu'. apply in_app_or in Hs'. destruct Hs' as [Hs'|[<-|[]]]; [exact (Hb s' Hs' Hu')|contradiction].
Qed.

(** ** files *)
Lemma files_done names : forall k f name ops, good w c k -> In (name, ops) (snd (fst (files_loop w c k f names))) -> snd (files_loop w c k f names) = None ->
  exists k1 f1 k2 f2, good w c k1 /\ file_step w c k1 f1 name = (k2, f2, ops, None).
Proof.
  induction names as [|nm r IH]; intros k f name ops G; cbn [files_loop]; [intros []|].
  destruct (file_step w c k f nm) as [[[k1 f1] os] e] eqn:Ef. destruct e as [e|]; [discriminate|].
  destruct (file_step_spec w c k f nm k1 f1 os None G Ef) as [G1 _]. specialize (IH k1 f1 name ops (G1 eq_refl)).
  destruct (files_loop w c k1 f1 r) as [[f2 log] e2]. cbn [fst snd In] in *. intros [E|Hin]; [|exact (IH Hin)].
  injection E as <- <-. intros _. exists k, f, k1, f1. auto.
Qed.
Lemma written_done f name ops : written w c f name ops -> stopped_by w c f = None ->
  exists k1 f1 k2 f2, good w c k1 /\ file_step w c k1 f1 name = (k2, f2, ops, None).
Proof.
  unfold written, stopped_by, main. destruct (sort_str _) as [|nm r]; [intros []|]. apply files_done. apply good_none.
Qed.
(** a file of which something is written *)
Lemma file_step_parts k f name k' f' ops e : ops <> [] -> file_step w c k f name = (k', f', ops, e) ->
  exists b xyzs si l iv pos st os st', open_obs w name = Ok b /\ file_start w c b = Ok (Some (xyzs, si, l, iv, pos)) /\ ops = pos :: os /\
    record_loop w c b xyzs si None k l st (b_steps b) = (k', st', os, e).
Proof.
  intros Hne. unfold file_step.
  assert (Hnil : forall (P : Prop) (kx : caches) (fx : fs) (ex : option exn), (kx, fx, @nil wop, ex) = (k', f', ops, e) -> P).
  { intros P kx fx ex H. exfalso. apply Hne. now injection H as _ _ <- _. }
  destruct (open_obs w name) as [b|e0]; [|destruct e0; apply Hnil].
  destruct (file_start w c b) as [[[[[[xyzs si] l] iv] pos]|]|e0] eqn:Es; [|apply Hnil|apply Hnil].
  destruct (do_op (out_of w c) (f, new_writer name iv) pos) as [st|e0]; [|apply Hnil].
  destruct (record_loop w c b xyzs si None k l st (b_steps b)) as [[[k1 st1] os1] e1] eqn:El.
  intros H. injection H as <- <- <- <-. exists b, xyzs, si, l, iv, pos, st, os1, st1. auto.
Qed.
End Complete.

(** ** dates of the records of an opened file are valid *)
Lemma catch_ok {A} (x : res A) es h a : catch x es h = Ok a -> x = Ok a \/ h = Ok a.
Proof. unfold catch. destruct x as [v|e]; [auto|]. destruct (existsb (exn_eqb e) es); [auto|discriminate]. Qed.
Lemma epoch_date_valid s t : epoch_date s = Ok t -> valid_datetime t.
Proof.
  unfold epoch_date. intros H. apply catch_ok in H. destruct H as [H|H]; [|discriminate].
  destruct (mapM _ _) as [e|x]; cbn [bind] in H; [|discriminate]. destruct (py_float _) as [sec|x]; cbn [bind] in H; [|discriminate].
  destruct (split_sec 5 sec) as [[s0 us]|x]; cbn [bind] in H; [|discriminate].
  destruct e as [|y [|mo [|d [|h [|mi [|]]]]]]; try discriminate. exact (proj1 (validate_epoch_sound _ _ _ _ _ _ _ _ H)).
Qed.
Lemma read_sats_epoch types ep prns : forall o lines ys r, read_sats types ep prns o lines = (ys, r) ->
  forall t sat rec o', In ((t, sat, rec), o') ys -> t = ep.
Proof.
  induction prns as [|p prns IH]; intros o lines ys r; cbn [read_sats]; [intros [= <- _]; intros; contradiction|].
  destruct (read_obs_lines _ lines) as [[data rr]|e]; [|intros [= <- _]; intros; contradiction].
  destruct (make_record types data []) as [rec|e]; [|intros [= <- _]; intros; contradiction].
  destruct (read_sats types ep prns o rr) as [ys' e'] eqn:E. destruct (odt_eqb (Some ep) (o_prec o)); intros [= <- _].
  - exact (IH _ _ _ _ E).
  - intros t sat rec' o' [Hin|Hin]; [now injection Hin as <- _ _ _|exact (IH _ _ _ _ E t sat rec' o' Hin)].
Qed.
Lemma read_records_valid v types fuel : forall lines o ys e o', read_records fuel v types lines o = (ys, e, o') ->
  forall t sat rec ob, In ((t, sat, rec), ob) ys -> valid_datetime t.
Proof.
  induction fuel as [|fuel IH]; intros lines o ys e o'; cbn [read_records]; [intros H; injection H as <- _ _; intros; contradiction|].
  destruct lines as [|line rest]; [intros H; injection H as <- _ _; intros; contradiction|].
  destruct (read_epoch (rstrip line) rest) as [[er r]|x] eqn:Ee; [|intros H; injection H as <- _ _; intros; contradiction].
  destruct er as [flag num|ep flag prns].
  - destruct (take_recs (Z.to_nat num) r) as [[ls r']|x]; [|intros H; injection H as <- _ _; intros; contradiction].
    destruct ((flag =? 3)%Z || (flag =? 4)%Z); [|apply IH].
    destruct (parse_header v ls (o_hdr o)) as [h|x]; [|intros H; injection H as <- _ _; intros; contradiction]. apply IH.
  - assert (Hv : valid_datetime ep).
    { unfold read_epoch in Ee. destruct (catch (py_int (slice 26 29 _)) _ _) as [fl|x]; cbn [bind] in Ee; [|discriminate].
      destruct (1 <? fl)%Z. { destruct (catch _ _ _) as [n|x]; cbn [bind] in Ee; discriminate. }
      destruct (epoch_date (rstrip line)) as [ep'|x] eqn:Ed; cbn [bind] in Ee; [|discriminate].
      destruct (catch _ _ _) as [n|x]; cbn [bind] in Ee; [|discriminate].
      destruct (read_prns _ _ _) as [[pr rr]|x]; cbn [bind] in Ee; [|discriminate]. injection Ee as <- _ _ _. exact (epoch_date_valid _ _ Ed). }
    destruct (read_sats types ep prns o r) as [ys1 e1] eqn:Es. pose proof (read_sats_epoch _ _ _ _ _ _ _ Es) as Hsat. destruct e1 as [r'|x].
    + destruct (read_records fuel v types r' (mkObj2 (Some ep) (o_hdr o))) as [[ys2 e2] o2] eqn:Er. intros H. injection H as <- _ _.
      intros t sat rec ob Hin. apply in_app_or in Hin. destruct Hin as [Hin|Hin]; [now rewrite (Hsat _ _ _ _ Hin)|exact (IH _ _ _ _ _ Er _ _ _ _ Hin)].
    + intros H. injection H as <- _ _. intros t sat rec ob Hin. now rewrite (Hsat _ _ _ _ Hin).
Qed.
Definition valid_opt (e : option datetime) : Prop := forall t, e = Some t -> valid_datetime t.
Lemma parse_epoch3_valid rec ep flag n : parse_epoch3 rec = Ok (ep, flag, n) -> valid_opt ep.
Proof.
  unfold parse_epoch3. destruct (char_at 0 rec) as [c0|x]; cbn [bind]; [|discriminate]. destruct (negb (ceqb c0 ">")); [discriminate|].
  destruct (epoch3_date rec) as [ep'|x] eqn:Ed; cbn [bind]; [|discriminate].
  destruct (catch _ [IndexError; ValueError] _) as [fl|x]; cbn [bind]; [|discriminate].
  destruct (catch (py_int _) _ _) as [m|x]; cbn [bind]; [|discriminate].
  destruct (catch _ _ (Ok tt)) as [u|x]; cbn [bind]; [|discriminate]. intros H. injection H as <- _ _. intros t ->.
  unfold epoch3_date in Ed. apply catch_ok in Ed. destruct Ed as [H|H]; [|discriminate].
  destruct (py_float _) as [sec|x]; cbn [bind] in H; [|discriminate].
  destruct (sec2sec_ms sec) as [[s us]|x]; cbn [bind] in H; [|discriminate].
  destruct (py_int _) as [y|x]; cbn [bind] in H; [|discriminate].
  destruct (mapM _ _) as [e|x]; cbn [bind] in H; [|discriminate]. destruct e as [|mo [|d [|h [|mi [|]]]]]; try discriminate.
  destruct (validate_epoch y mo d h mi s us) as [t'|x] eqn:Ev; cbn [bind] in H; [|discriminate]. injection H as ->.
  exact (proj1 (validate_epoch_sound _ _ _ _ _ _ _ _ Ev)).
Qed.
Lemma read_records3_valid v chunks lines : forall s special o ys e o', (forall ep flag n, s = Some (ep, flag, n) -> valid_opt ep) ->
  read_records3 v chunks lines s special o = (ys, e, o') -> forall ep sat rec ob, In ((ep, sat, rec), ob) ys -> valid_opt ep.
Proof.
  induction lines as [|line rest IH]; intros s special o ys e o' Hs; cbn [read_records3]; [intros H; injection H as <- _ _; intros; contradiction|].
  destruct line as [|c0 l]; [intros H; injection H as <- _ _; intros; contradiction|].
  destruct (ceqb c0 ">").
  - destruct (parse_epoch3 (c0 :: l)) as [[[ep flag] n]|x] eqn:Ep; [|intros H; injection H as <- _ _; intros; contradiction].
    apply IH. intros ep' flag' n' [= <- <- <-]. exact (parse_epoch3_valid _ _ _ _ Ep).
  - destruct s as [[[ep flag] n]|]; [|intros H; injection H as <- _ _; intros; contradiction].
    pose proof (Hs _ _ _ eq_refl) as Hv.
    assert (Hs' : forall (fl m : Z) ep' flag' n', Some (ep, fl, m) = Some (ep', flag', n') -> valid_opt ep') by (intros fl m ep' flag' n' [= <- _ _]; exact Hv).
    destruct (1 <? flag)%Z.
    + match goal with |- context [if (0 <? n)%Z then ?a else ?b] => destruct (if (0 <? n)%Z then a else b) as [sp n1] end. destruct (n1 =? 0)%Z.
      * destruct (handle_event v flag sp o) as [o1|x]; [|intros H; injection H as <- _ _; intros; contradiction]. apply IH. apply Hs'.
      * apply IH. apply Hs'.
    + cbv zeta. destruct (0 <? n)%Z; [|apply IH; apply Hs'].
      destruct (parse_obs3 chunks (o3_tab o) (c0 :: l)) as [[[sat types] vals]|x]; [|intros H; injection H as <- _ _; intros; contradiction].
      destruct (make_record types vals []) as [rec|x]; [|intros H; injection H as <- _ _; intros; contradiction].
      destruct (read_records3 v chunks rest _ special o) as [[ys1 e1] o1] eqn:Er. intros H. injection H as <- _ _.
      intros ep' sat' rec' ob [Hin|Hin]; [injection Hin as <- _ _ _; exact Hv|]. exact (IH _ _ _ _ _ _ (Hs' _ _) Er _ _ _ _ Hin).
Qed.
Lemma open_obs_dated w name b : open_obs w name = Ok b -> Forall dated (b_steps b).
Proof.
  unfold open_obs. destruct (expand_plan name) as [u|x]; cbn [bind]; [|discriminate]. cbv zeta. destruct (w_content w name); cbn [bind]; [|discriminate].
  destruct (obs_class _) as [v|x]; cbn [bind]; [|discriminate]. destruct (ver_lt3 v).
  - destruct (open2 v _) as [r|x]; cbn [bind]; [|discriminate].
    destruct (records2 v r) as [[ys e] o] eqn:Er. intros H. injection H as <-. cbn [b_steps]. apply Forall_forall. intros s Hs.
    apply in_map_iff in Hs. destruct Hs as [[[[t sat] rec] ob] [<- Hin]]. intros t' Ht. cbn in Ht. injection Ht as <-.
    exact (read_records_valid _ _ _ _ _ _ _ _ Er _ _ _ _ Hin).
  - destruct (open3 _ v _) as [r|x]; cbn [bind]; [|discriminate].
    destruct (records3 v r) as [[ys e] o] eqn:Er. intros H. injection H as <-. cbn [b_steps]. apply Forall_forall. intros s Hs.
    apply in_map_iff in Hs. destruct Hs as [[[[t sat] rec] ob] [<- Hin]]. intros t' Ht. cbn in Ht. subst t.
    assert (Hn : forall ep flag n, @None (option datetime * Z * Z) = Some (ep, flag, n) -> valid_opt ep) by discriminate.
    exact (read_records3_valid _ _ _ _ _ _ _ _ _ Hn Er _ _ _ _ Hin t' eq_refl).
Qed.
