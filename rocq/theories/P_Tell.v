(** The rows of a result file as an account of the observation file. *)
From Coq Require Import Reals.
From Verif Require Import Base PyStr PyFloat PyDate PyPath S_Text S_Time S_Obs2 S_Open2 S_Obs3 S_Label S_Rec S_Tec S_Out M_Common M_Header M_Obs2 M_Obs3 M_Label M_Num M_Tec M_Rec M_Text M_Cfg M_Names M_Nav M_Main S_Main S_End S_Tell.
From Verif Require Import P_Str P_Rec P_Open2 P_Open2b P_View2 P_Prop2 P_Obs3d P_Obs3e P_Obs3f P_Nav P_Main1 P_Main2 P_Main3 P_Main5 P_Main6 P_Main7 P_Main8 P_Main9 P_End2 P_End3 P_End4 P_End5.
Open Scope nat_scope.

Definition stands_for (s : step) (x : fact) : Prop :=
  s_epoch s = Some (fst (fst x)) /\ s_sat s = snd (fst x) /\ NoDup (map fst (snd x)) /\ record_of (snd x) (s_rec s).
Lemma forall2_map_r {A B C} (P : A -> C -> Prop) (g : B -> C) l r : Forall2 (fun a b => P a (g b)) l r -> Forall2 P l (map g r).
Proof. induction 1; constructor; auto. Qed.
Lemma forall2_flip {A B} (P : A -> B -> Prop) l r : Forall2 P l r -> Forall2 (fun b a => P a b) r l.
Proof. induction 1; constructor; auto. Qed.

Definition for2 (r : orec * position) (x : fact) : Prop :=
  fst (fst (fst r)) = fst (fst x) /\ snd (fst (fst r)) = snd (fst x) /\ NoDup (map fst (snd x)) /\ record_of (snd x) (snd (fst r)).
Lemma states2_records types prec pos bs out facts : NoDup types -> delivered types prec pos bs out -> states2 types prec bs facts -> Forall2 for2 out facts.
Proof.
  intros Hn H. revert facts. induction H as [prec pos|ep fl sats bs pos out H IH|ep fl sats bs prec pos rs out Hp He H IH|fl ls np bs prec pos pos' out Hnp H IH]; intros facts Hs.
  - inversion Hs; subst. constructor.
  - inversion Hs; subst; [now apply IH|congruence].
  - inversion Hs; subst; [congruence|]. apply Forall2_app; [|now apply IH]. clear -He Hn.
    induction He as [|s x sats rs [H1 [H2 H3]] He IH]; [constructor|]. cbn [map]. constructor; [|exact IH]. split; [exact H1|]. split; [exact H2|]. cbn [fst snd].
    split; [now apply nodup_combine|]. eapply forall2_impl; [|exact H3]. intros p q [E1 E2]. split; [exact E1|now left].
  - inversion Hs; subst. now apply IH.
Qed.
Definition for3 (r : option datetime * str * record) (x : fact) : Prop :=
  fst (fst r) = Some (fst (fst x)) /\ snd (fst r) = snd (fst x) /\ NoDup (map fst (snd x)) /\ record_of (snd x) (snd r).
Lemma types_fun T name a b : NoDup (map fst T) -> types_of T name a -> types_of T name b -> a = b.
Proof.
  intros Hn [c [r [-> H1]]] [c' [r' [E H2]]]. injection E as <- <-. revert H1 H2. induction T as [|[k v] T IH]; [intros []|]. inversion Hn as [|? ? Hk Hn']; subst. intros [H1|H1] [H2|H2].
  - congruence.
  - injection H1 as -> ->. exfalso. apply Hk. apply in_map_iff. now exists (c, b).
  - injection H2 as -> ->. exfalso. apply Hk. apply in_map_iff. now exists (c, a).
  - now apply IH.
Qed.
Lemma states3_records T bs out facts : NoDup (map fst T) -> distinct_types T -> delivered3 T bs out -> states3 T bs facts -> Forall2 for3 out facts.
Proof.
  intros Hn Hd H. revert facts. induction H as [|ep fl sats bs rs out He H IH|fl ls np bs out H IH]; intros facts Hs.
  - inversion Hs; subst. constructor.
  - inversion Hs as [|ep' fl' sats' bs' fs out' F Hs'|]; subst. apply Forall2_app; [|now apply IH]. clear -He F Hn Hd. revert fs F.
    induction He as [|s x sats rs [H1 [H2 [ty [H3 H4]]]] He IH]; intros fs F; inversion F as [|? f ? fs' [ty' [T1 ->]] F']; subst; constructor; [|now apply IH].
    split; [exact H1|]. split; [exact H2|]. cbn [fst snd]. pose proof (types_fun T (fst s) ty ty' Hn H3 T1) as <-.
    split; [apply nodup_combine; exact (types_nodup _ _ _ Hd H3)|]. eapply forall2_impl; [|exact H4]. intros p q [E1 E2]. split; [exact E1|now right].
  - inversion Hs; subst. now apply IH.
Qed.
Lemma read_table_keys v T : map fst (read_table v T) = map fst T.
Proof. unfold read_table. rewrite map_map. reflexivity. Qed.
Lemma file_records w name facts b : file_states w name facts -> open_obs w name = Ok b -> Forall2 stands_for (b_steps b) facts.
Proof.
  intros Hw Ho. destruct Hw as [file v header body types blocks facts Hf Hv Hlt Hp Ht Hn Hb Hf1 Hs|file v header body sel table blocks facts Hf Hv Hlt Hp Hl Ht Hn Hd Hb Hs];
    unfold open_obs in Ho; destruct (expand_plan name) as [x|]; try discriminate Ho; cbn [bind] in Ho; rewrite Hf in Ho; cbn [bind] in Ho; rewrite Hv in Ho; cbn [bind] in Ho; rewrite Hlt in Ho.
  - destruct (open2 v file) as [r|] eqn:Eo; [|discriminate Ho]. cbn [bind] in Ho.
    pose proof (declared_types v header body file types r Hp Ht Eo) as Et.
    destruct (open2_delivers v header body file r blocks Hp Eo) as [ys [o' [Er Hdel]]]; [now rewrite Et|now rewrite Et|exact Hf1|]. rewrite Er in Ho.
    apply Ok_inj in Ho. subst b. cbn [b_steps]. rewrite Et in *. pose proof (states2_records _ _ _ _ _ _ Hn Hdel Hs) as F. clear -F. revert facts F.
    induction ys as [|[[[ep sat] rec] o] ys IH]; intros facts F; inversion F as [|? x ? facts' [H1 [H2 [H3 H4]]] F']; subst; cbn [map]; constructor; [|now apply IH].
    cbn [fst snd with_pos] in *. split; [cbn; congruence|]. split; [exact H2|]. split; [exact H3|exact H4].
  - destruct (open3 (w_fuel w) v file) as [r|] eqn:Eo; [|discriminate Ho]. cbn [bind] in Ho.
    destruct (open3_delivers (w_fuel w) v header body file sel table r blocks Hp Hl Ht Hn Hd Eo Hb) as [ys [o' [Er Hdel]]]. rewrite Er in Ho.
    apply Ok_inj in Ho. subst b. cbn [b_steps]. assert (Hn' : NoDup (map fst (read_table v table))) by (rewrite read_table_keys; exact Hn).
    pose proof (states3_records _ _ _ _ Hn' Hd Hdel Hs) as F. clear -F. revert facts F.
    induction ys as [|[[[ep sat] rec] o] ys IH]; intros facts F; inversion F as [|? x ? facts' [H1 [H2 [H3 H4]]] F']; subst; cbn [map]; constructor; [|now apply IH].
    cbn [fst snd] in *. split; [exact H1|]. split; [exact H2|]. split; [exact H3|exact H4].
Qed.
Lemma stands_usable s t k vals day : stands_for s (t, k, vals) -> (usable day s <-> of_day day t k).
Proof.
  intros [H1 [H2 _]]. cbn [fst snd] in *. split.
  - intros [t' [sys [n [[Ht [dg [Hk Hn]]] [Hs Hd]]]]]. rewrite H1 in Ht. injection Ht as <-. rewrite H2 in Hk. exists sys, dg, n. auto.
  - intros [sys [dg [n [Hk [Hn [Hs Hd]]]]]]. exists t, sys, n. split; [|auto]. split; [exact H1|]. exists dg. split; [congruence|exact Hn].
Qed.

Lemma loop_readable w c b xyzs si steps : forall last k l st k' st' os, record_loop w c b xyzs si last k l st steps = (k', st', os, None) ->
  Forall (fun s => exists t sys n, identifies s t sys n) steps.
Proof.
  induction steps as [|s r IH]; intros last k l st k' st' os H; [constructor|]. cbn [record_loop] in H. destruct (record_ident s) as [[[t sys] n]|e] eqn:Ei; [|discriminate].
  apply ident_iff in Ei. constructor; [eauto|]. destruct (accept (b_date b) si last t sys) as [last'|]; [|eapply IH; exact H].
  destruct (record_body w c xyzs (latest (w_xyz (snd st))) k l s t sys n) as [[[k1 l1] ops]|e]; [|discriminate]. destruct (do_ops (out_of w c) st ops) as [st1|e]; [|discriminate].
  destruct (record_loop w c b xyzs si last' k1 l1 st1 r) as [[[k2 st2] os2] e2] eqn:El. injection H as _ _ _ ->. eapply IH. exact El.
Qed.
Lemma sampled_steps day iv : forall steps facts, Forall2 stands_for steps facts -> Forall (fun s => exists t sys n, identifies s t sys n) steps ->
  forall last kept, sampled day iv last facts kept -> exists ks, thinned day iv last steps ks /\ Forall2 stands_for ks kept.
Proof.
  induction 1 as [|s x steps facts Hx F IH]; intros Hr last kept Hs.
  - inversion Hs; subst. exists []. split; constructor.
  - inversion Hr as [|? ? Hi Hr']; subst. pose proof (fun t k vals E => stands_usable s t k vals day (eq_ind _ (stands_for s) Hx _ E)) as Hu.
    assert (He : forall t k vals, x = (t, k, vals) -> s_epoch s = Some t) by (intros t k vals ->; exact (proj1 Hx)).
    inversion Hs as [|? t k vals r r' Hd Hs'|t k vals r r' Hd Hs'|t k vals r r' Hd Hs'|t k vals t0 r r' Hd Hn Hle Hs'|t k vals t0 r r' Hd Hn Hle Hs']; subst; destruct (IH Hr' _ _ Hs') as [ks [K1 K2]].
    + exists ks. split; [|exact K2]. apply th_other; [exact Hi|intros X; apply Hd; now apply (Hu t k vals)|exact K1].
    + exists (s :: ks). split; [|now constructor]. apply (th_first day iv s _ _ t); [now apply (Hu t k vals)|now apply (He t k vals)|exact K1].
    + exists (s :: ks). split; [|now constructor]. apply (th_same day iv s _ _ t); [now apply (Hu t k vals)|now apply (He t k vals)|exact K1].
    + exists (s :: ks). split; [|now constructor]. apply (th_next day iv s _ _ t t0); [now apply (Hu t k vals)|now apply (He t k vals)|exact Hn|exact Hle|exact K1].
    + exists ks. split; [|exact K2]. apply (th_drop day iv s _ _ t t0); [now apply (Hu t k vals)|now apply (He t k vals)|exact Hn|exact Hle|exact K1].
Qed.
Lemma used_steps w c f name ops b facts kept : written w c f name ops -> ops <> [] -> stopped_by w c f = None -> open_obs w name = Ok b -> file_states w name facts -> used_facts c b facts kept ->
  exists ks, used c b ks /\ Forall2 stands_for ks kept.
Proof.
  intros Hw Hne Hs Ho Hf Hu. pose proof (file_records w name facts b Hf Ho) as F. destruct Hu as [[Hk ->]|[iv [Ht Hsa]]]; [exists (b_steps b); split; [left; auto|exact F]|].
  destruct (written_parts w c f name ops b Hw Ho Hne) as [k [xyzs [si [l [pos [st [os [k' [st' [e [_ [_ [_ [_ [_ [_ [_ [Hr He]]]]]]]]]]]]]]]]]].
  specialize (He Hs). subst e. destruct (sampled_steps _ iv _ _ F (loop_readable _ _ _ _ _ _ _ _ _ _ _ _ _ Hr) _ _ Hsa) as [ks [K1 K2]]. exists ks. split; [right; exists iv; auto|exact K2].
Qed.

Section Tell.
Context (w : world) (c : cfg) (n : nat) (fields : list str).
Hypothesis Hfmt : compose_rec_format n fields = Ok (c_format c).
Hypothesis Hsq : squares w.
Lemma step_row xyzs s sd nav t q k vals iv row : row_for w c xyzs s (WRow (s_sat s) sd nav t q) -> stands_for s (t, k, vals) ->
  row_text (c_format c) (oc_strftime (out_of w c)) iv t q = Ok row -> row_states w c t k vals row.
Proof.
  intros Hrow [_ [Hk [Hnd Hrec]]] Hr. cbn [fst snd] in *.
  destruct Hrow as [t' [sys [m [site [lbh [pos [el0 [az [sd' [nav' [q' [Hid [E [_ [_ [_ [_ [_ [_ [_ Hd]]]]]]]]]]]]]]]]]]]]. injection E as -> -> -> ->.
  destruct Hid as [_ [digits [Hsat Hnum]]]. destruct (row_cells n fields (c_format c) _ t' iv q' row Hfmt Hr) as [cells [Hc Hf]].
  exists cells. split; [exact Hc|]. rewrite <- Hk, Hsat. eapply forall2_in; [exact Hf|]. intros fl cell Hfl Hcell. cbv beta in Hcell.
  exact (column_ok w c s t' sys digits m q' vals Hsq Hnum Hd Hnd Hrec fl cell Hfl (composed_names n fields (c_format c) fl Hfmt Hfl) Hcell).
Qed.
Lemma account_told xyzs b sat iv before steps ops : accounts w c xyzs (b_date b) before steps ops -> used c b (before ++ steps) ->
  forall facts texts, Forall2 stands_for steps facts -> Forall2 (fun tq r => row_text (c_format c) (oc_strftime (out_of w c)) iv (fst tq) (snd tq) = Ok r) (rows_of sat ops) texts ->
  told w c xyzs b sat facts texts.
Proof.
  induction 1 as [before|before s r ops Hu H IH|before s r op ops Hu Hrow H IH|before s r t sys m ops Hu Hid Hsk H IH]; intros Hb facts texts F G.
  - inversion F; subst. cbn in G. inversion G; subst. constructor.
  - inversion F as [|? [[t k] vals] ? facts' Hst F']; subst. apply to_other; [right; intros X; apply Hu; now apply (stands_usable _ _ _ _ _ Hst)|].
    apply IH; [rewrite <- app_assoc; exact Hb|exact F'|exact G].
  - inversion F as [|? [[t k] vals] ? facts' Hst F']; subst. pose proof Hrow as Hrow'.
    destruct Hrow' as [t' [sys [m [site [lbh [pos [el0 [az [sd [nav [q [Hid [E _]]]]]]]]]]]]]. subst op.
    assert (t' = t) by (destruct Hid as [X _], Hst as [Y _]; cbn in Y; congruence). subst t'. assert (Hk : s_sat s = k) by (destruct Hst as [_ [X _]]; exact X).
    assert (Hb' : used c b ((before ++ [s]) ++ r)) by (rewrite <- app_assoc; exact Hb).
    cbn [rows_of] in G. destruct (seqb sat (s_sat s)) eqn:Es.
    + apply seqb_eq in Es. cbn [app] in G. inversion G as [|? row ? texts' Hr G']; subst. cbn [fst snd] in Hr.
      apply to_row; [now apply (stands_usable _ _ _ _ _ Hst)| |now apply IH]. exact (step_row xyzs s sd nav t q _ vals iv row Hrow Hst Hr).
    + apply to_other; [left; intros X; rewrite <- X, <- Hk, seqb_refl in Es; discriminate|]. now apply IH.
  - inversion F as [|? [[t' k] vals] ? facts' Hst F']; subst. assert (t' = t) by (destruct Hid as [X _], Hst as [Y _]; cbn in Y; congruence). subst t'.
    assert (Hk : s_sat s = k) by (destruct Hst as [_ [X _]]; exact X). assert (Hb' : used c b ((before ++ [s]) ++ r)) by (rewrite <- app_assoc; exact Hb).
    destruct (seqb k sat) eqn:Es.
    + apply seqb_eq in Es. subst sat. apply to_hidden; [now apply (stands_usable _ _ _ _ _ Hst)| |now apply IH]. exists (before ++ s :: r), before, s, r, sys, m. auto 6.
    + apply to_other; [left; intros X; subst sat; rewrite seqb_refl in Es; discriminate|now apply IH].
Qed.
Lemma rows_of_only sat ops : rows_of sat (rows_only ops) = rows_of sat ops.
Proof. unfold rows_only. induction ops as [|o ops IH]; [reflexivity|]. destruct o; cbn [filter is_row rows_of]; [exact IH|now rewrite IH]. Qed.
Lemma end_told f pre name ops post sat b facts kept : stopped_by w c f = None -> snd (fst (main w c f)) = pre ++ (name, ops) :: post -> rows_of sat ops <> [] ->
  (forall name' ops', In (name', ops') post -> rows_of sat ops' <> [] -> marker_of name' <> marker_of name \/ get_rinex_date name' <> get_rinex_date name) ->
  open_obs w name = Ok b -> file_states w name facts -> used_facts c b facts kept ->
  exists d h rows xyzs, get_rinex_date name = Some d /\ fs_get (result_file (c_outdir c) (marker_of name) sat d) (fst (fst (main w c f))) = Some (h ++ concat rows) /\
    comments h /\ coordinates w c name xyzs /\ told w c xyzs b sat kept rows.
Proof.
  intros H1 H2 H3 H4 Ho Hf Hk. destruct (run_files w c f pre name ops post sat H1 H2 H3 H4) as [b' [iv [d [content [Ho' [_ [Hd [Hg [h [rs [-> [Hh Hrs]]]]]]]]]]]].
  assert (Hwr : written w c f name ops) by (unfold written; rewrite H2; apply in_or_app; right; now left).
  assert (Hne : ops <> []) by (intros ->; apply H3; reflexivity). destruct (used_steps w c f name ops b facts kept Hwr Hne H1 Ho Hf Hk) as [ks [Hus F]].
  destruct (rows_account w c f name ops b ks Hwr Hne Ho Hus) as [xyzs [done [rest [Hx [Hs [Ha Hr]]]]]]. specialize (Hr H1). subst rest. rewrite app_nil_r in Hs. subst done.
  exists d, h, rs, xyzs. split; [exact Hd|]. split; [exact Hg|]. split; [exact Hh|]. split; [exact Hx|].
  apply (account_told xyzs b sat iv [] ks (rows_only ops) Ha Hus kept rs F). rewrite rows_of_only. exact Hrs.
Qed.
(** without any row there is nothing to write: every fact of the satellite and the day is hidden *)
Lemma end_untold f name ops sat b facts kept : stopped_by w c f = None -> written w c f name ops -> ops <> [] -> rows_of sat ops = [] -> open_obs w name = Ok b -> file_states w name facts -> used_facts c b facts kept ->
  exists xyzs, coordinates w c name xyzs /\ told w c xyzs b sat kept [].
Proof.
  intros H1 Hwr Hne H3 Ho Hf Hk. destruct (used_steps w c f name ops b facts kept Hwr Hne H1 Ho Hf Hk) as [ks [Hus F]].
  destruct (rows_account w c f name ops b ks Hwr Hne Ho Hus) as [xyzs [done [rest [Hx [Hs [Ha Hr]]]]]].
  specialize (Hr H1). subst rest. rewrite app_nil_r in Hs. subst done. exists xyzs. split; [exact Hx|].
  apply (account_told xyzs b sat (PInt 0) [] ks (rows_only ops) Ha Hus kept [] F). rewrite rows_of_only, H3. constructor.
Qed.
End Tell.
(** the facts used are determined *)
Lemma sampled_fun day iv : forall facts last a b, sampled day iv last facts a -> sampled day iv last facts b -> a = b.
Proof.
  induction facts as [|x facts IH]; intros last a b Ha Hb.
  - inversion Ha; inversion Hb; reflexivity.
  - inversion Ha; subst; inversion Hb; subst; try contradiction; try congruence; try lia; try (f_equal; eapply IH; eassumption); eapply IH; eassumption.
Qed.
Lemma of_day_dec day t k : of_day day t k \/ ~ of_day day t k.
Proof.
  unfold of_day. destruct k as [|sys digits]; [right; intros [? [? [? [H _]]]]; discriminate|].
  destruct (py_int digits) as [n|e] eqn:En; [|right; intros [? [? [? [H [H2 _]]]]]; congruence].
  destruct (in_dec Ascii.ascii_dec sys systems) as [Hi|Hi]; [|right; intros [? [? [? [H [H2 [H3 _]]]]]]; congruence].
  destruct day as [d|]; [|right; intros [? [? [? [H [H2 [H3 H4]]]]]]; discriminate].
  destruct (date_eqb d (dt_date t)) eqn:Ed.
  - left. exists sys, digits, n. split; [reflexivity|]. split; [exact En|]. split; [exact Hi|]. f_equal. now apply date_eqb_eq.
  - right. intros [? [? [? [H [H2 [H3 H4]]]]]]. injection H4 as ->. rewrite (proj2 (date_eqb_eq _ _) eq_refl) in Ed. discriminate.
Qed.
Lemma sampled_exists day iv : forall facts last, exists kept, sampled day iv last facts kept.
Proof.
  induction facts as [|[[t k] vals] facts IH]; intros last; [exists []; constructor|].
  destruct (of_day_dec day t k) as [Hd|Hd]; [|destruct (IH last) as [kept H]; exists kept; now constructor].
  destruct last as [t0|]; [|destruct (IH (Some t)) as [kept H]; eexists; apply sa_first; eassumption].
  destruct (dt_dec t t0) as [->|Hn]; [destruct (IH (Some t0)) as [kept H]; eexists; apply sa_same; eassumption|].
  destruct (Z_lt_le_dec (instant t) (instant t0 + iv)) as [Hl|Hl].
  - destruct (IH (Some t0)) as [kept H]. exists kept. now apply sa_drop.
  - destruct (IH (Some t)) as [kept H]. eexists. apply sa_next; eassumption.
Qed.
Lemma used_facts_fun c b facts : forall d, interval_is b d -> match c_sampling c with Some iv => (Z.abs iv < 2 ^ 52)%Z | None => True end ->
  exists kept, used_facts c b facts kept /\ forall kept', used_facts c b facts kept' -> kept' = kept.
Proof.
  intros d Hi Hc. assert (Hu : forall a a', used_facts c b facts a -> used_facts c b facts a' -> a' = a).
  { intros a a' [[H1 ->]|[iv [H1 Ht]]] [[H2 ->]|[iv' [H2 Ht']]].
    - reflexivity.
    - apply keeps_sampling in H1. apply thins_sampling in H2. rewrite H1 in H2. discriminate.
    - apply keeps_sampling in H2. apply thins_sampling in H1. rewrite H1 in H2. discriminate.
    - destruct H1 as [E1 _], H2 as [E2 _]. rewrite E1 in E2. injection E2 as <-. exact (sampled_fun _ _ _ _ _ _ Ht' Ht). }
  assert (He : exists kept, used_facts c b facts kept).
  { destruct (c_sampling c) as [iv|] eqn:Ec; [|exists facts; left; split; [left; exact Ec|reflexivity]].
    destruct (Z.eq_dec iv 0) as [->|Hn]; [exists facts; left; split; [right; left; exact Ec|reflexivity]|]. destruct (Z.ltb_spec d iv) as [Hlt|Hge].
    - destruct (sampled_exists (b_date b) iv facts None) as [kept Hk]. exists kept. right. exists iv. split; [|exact Hk].
      split; [exact Ec|]. split; [exact Hn|]. split; [exact Hc|]. exists d. split; [exact Hi|exact Hlt].
    - exists facts. left. split; [right; right; exists iv, d; auto|reflexivity]. }
  destruct He as [kept Hk]. exists kept. split; [exact Hk|]. intros kept' Hk'. exact (Hu _ _ Hk Hk').
Qed.
