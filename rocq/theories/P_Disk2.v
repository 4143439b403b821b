(** Disk contents: the operations of the writer. *)
From Verif Require Import Base PyStr PyFloat PyDate PyPath M_Common M_Header M_Rec M_Text M_Main M_Disk S_Time S_Out P_Str P_Out P_Main8 P_Run4 P_Disk1.
Open Scope nat_scope.

(** the same calls: the same writer, the same files *)
Lemma write_same c f w sat t q : match write_data c f w sat t q with
  | Ok (f', w') => exists ev, write_events c w sat t q = (ev, Ok w') /\ sem f ev = f'
  | Err e => exists ev, write_events c w sat t q = (ev, Err e)
  end.
Proof.
  unfold write_data, write_events. cbn [w_sats w_obs w_path w_interval w_xyz w_lbh].
  destruct (dict_get seqb sat (w_sats w)) as [s|]; cbn [of_option bind]; [|eauto].
  destruct (s_fout s) as [out|]; cbn [bind w_interval].
  - destruct (row_text _ _ _ _ _) as [r|e]; cbn [bind]; [|eauto]. eexists. split; reflexivity.
  - destruct (header_text _ _ _) as [h|e]; cbn [bind w_interval]; [|eauto].
    destruct (row_text _ _ _ _ _) as [r|e]; cbn [bind]; [|eauto]. eexists. split; reflexivity.
Qed.
Lemma op_same c f w o : match do_op c (f, w) o with
  | Ok (f', w') => exists ev, op_events c w o = (ev, Ok w') /\ sem f ev = f'
  | Err e => exists ev, op_events c w o = (ev, Err e)
  end.
Proof. destruct o as [t p l|sat sd nav t q]; cbn [do_op op_events]; [eexists; split; reflexivity|apply write_same]. Qed.
Lemma ops_same c os : forall f w, match do_ops c (f, w) os with
  | Ok (f', w') => exists ev, ops_events c w os = (ev, Ok w') /\ sem f ev = f'
  | Err e => exists ev, ops_events c w os = (ev, Err e)
  end.
Proof.
  induction os as [|o os IH]; intros f w; cbn [do_ops ops_events]; [eexists; split; reflexivity|].
  pose proof (op_same c f w o) as H. destruct (do_op c (f, w) o) as [[f1 w1]|e]; cbn [bind].
  - destruct H as [ev [-> Hs]]. specialize (IH f1 w1). destruct (do_ops c (f1, w1) os) as [[f2 w2]|e].
    + destruct IH as [ev2 [-> Hs2]]. eexists. split; [reflexivity|]. now rewrite sem_app, Hs.
    + destruct IH as [ev2 ->]. eauto.
  - destruct H as [ev ->]. eauto.
Qed.
Lemma ops_events_app c a : forall w b, ops_events c w (a ++ b) = match ops_events c w a with
  | (ev, Err e) => (ev, Err e)
  | (ev, Ok w') => let '(ev', x) := ops_events c w' b in (ev ++ ev', x)
  end.
Proof.
  induction a as [|o a IH]; intros w b; cbn [app ops_events]; [destruct (ops_events c w b); reflexivity|].
  destruct (op_events c w o) as [ev [w1|e]]; [|reflexivity]. rewrite IH. destruct (ops_events c w1 a) as [ev1 [w2|e]]; [|reflexivity].
  destruct (ops_events c w2 b) as [ev2 x]. now rewrite app_assoc.
Qed.
(** a failing list of calls fails at one of them *)
Lemma ops_fail c os : forall w ev e, ops_events c w os = (ev, Err e) -> exists a o z ev1 w1 ev2, os = a ++ o :: z /\ ops_events c w a = (ev1, Ok w1) /\
  op_events c w1 o = (ev2, Err e) /\ ev = ev1 ++ ev2.
Proof.
  induction os as [|o os IH]; intros w ev e; cbn [ops_events]; [discriminate|]. destruct (op_events c w o) as [ev0 [w0|e0]] eqn:Eo.
  - destruct (ops_events c w0 os) as [ev' x] eqn:E. intros H. injection H as <- ->. destruct (IH w0 ev' e E) as [a [o' [z [ev1 [w1 [ev2 [-> [H1 [H2 ->]]]]]]]]].
    exists (o :: a), o', z, (ev0 ++ ev1), w1, ev2. split; [reflexivity|]. split; [cbn [ops_events]; now rewrite Eo, H1|]. split; [exact H2|]. now rewrite app_assoc.
  - intros H. injection H as <- <-. exists [], o, os, [], w, ev0. auto.
Qed.

(** ** one observation file: each path is opened once, before writing *)
Section File.
  Variables (c : out_cfg) (name : str) (iv : pynum) (d : date).
  Hypothesis Hd : date_ok d.
  Hypothesis Hm : marker_of name <> [].
  Let target sat := result_file (oc_dir c) (marker_of name) sat d.
  Hypothesis target_inj : forall s s', target s = target s' -> s = s'.

  (** the paths of the open files *)
  Definition fouts (w : writer) : list str := flat_map (fun e => match s_fout (snd e) with Some p => [p] | None => [] end) (w_sats w).
  Definition well (w : writer) : Prop :=
    w_obs w = name /\ w_interval w = iv /\ (forall p t, w_path w = Some p -> dt_date t = d -> p = out_dir c name t) /\
    (forall sat s out, dict_get seqb sat (w_sats w) = Some s -> s_fout s = Some out -> out = target sat).
  Lemma well_new : well (new_writer name iv).
  Proof. repeat split; intros; discriminate. Qed.

  (** what a call does: nothing yet opened is opened again *)
  Lemma write_tidy w sat t q ev r ps : well w -> dt_date t = d -> no_slash sat ->
    (forall sat s, dict_get seqb sat (w_sats w) = Some s -> (In (target sat) ps <-> s_fout s <> None)) ->
    (forall sat, dict_get seqb sat (w_sats w) = None -> ~ In (target sat) ps) ->
    write_events c w sat t q = (ev, r) ->
    tidy ps ev /\ (forall e, In e ev -> touches (target sat) e = true) /\
    (forall e, r = Err e -> forall f, sem f ev = f \/ ~ In (target sat) ps /\ In (EOpen (target sat)) ev /\ exists h, fs_get (target sat) (sem f ev) = Some h /\ (h = [] \/ comments h)) /\
    (forall w', r = Ok w' -> well w' /\ exists s', dict_get seqb sat (w_sats w') = Some s' /\ s_fout s' = Some (target sat) /\
       (forall sat', sat' <> sat -> dict_get seqb sat' (w_sats w') = dict_get seqb sat' (w_sats w)) /\
       (forall p, In p (began ev ps) <-> p = target sat \/ In p ps)).
  Proof.
    intros [I1 [I2 [I3 I4]]] Ht Hs Hps Hno. unfold write_events. cbn [w_sats w_obs w_path w_interval w_xyz w_lbh].
    assert (Hpath : match w_path w with Some p => p | None => out_dir c (w_obs w) t end = out_dir c name t).
    { rewrite I1. destruct (w_path w) eqn:Ep; [|reflexivity]. now apply I3. }
    rewrite Hpath, I1, I2.
    assert (Htgt : path_join (out_dir c name t) (out_name name sat t) = target sat).
    { rewrite result_path; [|rewrite Ht; exact Hd|exact Hm|exact Hs]. now rewrite Ht. }
    rewrite Htgt.
    assert (Hdir : forall p t', Some (out_dir c name t) = Some p -> dt_date t' = d -> p = out_dir c name t').
    { intros p t' E Ht'. injection E as <-. now apply (out_dir_same c name d Hd). }
    destruct (dict_get seqb sat (w_sats w)) as [s|] eqn:Es.
    2:{ intros E. injection E as <- <-. split; [exact I|]. split; [intros e []|]. split; [intros; now left|discriminate]. }
    destruct (s_fout s) as [out|] eqn:Eo.
    - pose proof (I4 sat s out Es Eo) as ->. assert (Hin : In (target sat) ps) by (apply (Hps sat s Es); congruence).
      destruct (row_text _ _ _ _ _) as [row|e]; intros E; injection E as <- <-.
      + split; [exact (conj Hin I)|]. split; [intros e [<-|[]]; cbn [touches]; apply seqb_refl|]. split; [discriminate|]. intros w' E. injection E as <-.
        split; [split; [reflexivity|]; split; [reflexivity|]; split; [exact Hdir|exact I4]|]. exists s. cbn [w_sats]. split; [exact Es|]. split; [exact Eo|].
        split; [auto|]. intros p. cbn [began In]. split; [auto|]. intros [->|X]; auto.
      + split; [exact I|]. split; [intros x []|]. split; [intros; now left|discriminate].
    - assert (Hin : ~ In (target sat) ps) by (intros X; apply (Hps sat s Es) in X; congruence).
      set (w1 := mkWriter name iv (Some (out_dir c name t)) (dict_set seqb sat (mkSat (s_def s) (s_nav s) (Some (target sat))) (w_sats w)) (w_xyz w) (w_lbh w)).
      destruct (header_text c w1 s) as [h|e] eqn:Eh.
      + destruct (row_text _ _ _ _ _) as [row|e]; intros E; injection E as <- <-.
        * split; [cbn [tidy]; auto using in_eq|]. split; [intros e [<-|[<-|[<-|[]]]]; cbn [touches]; apply seqb_refl|]. split; [discriminate|].
          intros w' E. injection E as <-. split; [split; [reflexivity|]; split; [reflexivity|]; split; [exact Hdir|]|].
          -- intros sat' s' out' G1 G2. unfold w1 in G1. cbn [w_sats] in G1. destruct (path_dec sat' sat) as [->|Hn].
             ++ rewrite sget_same in G1. injection G1 as <-. cbn [s_fout] in G2. congruence.
             ++ rewrite sget_other in G1 by exact Hn. exact (I4 sat' s' out' G1 G2).
          -- exists (mkSat (s_def s) (s_nav s) (Some (target sat))). unfold w1. cbn [w_sats]. rewrite sget_same. split; [reflexivity|]. split; [reflexivity|].
             split; [intros sat' Hn; now apply sget_other|]. intros p. cbn [began In]. split; intros [X|X]; auto.
        * split; [cbn [tidy]; auto using in_eq|]. split; [intros x [<-|[<-|[]]]; cbn [touches]; apply seqb_refl|]. split; [|discriminate].
          intros e' _ f. right. split; [exact Hin|]. split; [now left|]. exists h. split; [|right; exact (header_comments c w1 s h Eh)].
          cbn [sem fold_left sem1]. rewrite append_get, truncate_same. reflexivity.
      + intros E. injection E as <- <-. split; [cbn [tidy]; auto|]. split; [intros x [<-|[]]; cbn [touches]; apply seqb_refl|]. split; [|discriminate].
        intros e' _ f. right. split; [exact Hin|]. split; [now left|]. exists []. split; [|now left]. cbn [sem fold_left sem1]. now rewrite truncate_same.
  Qed.

  Definition linked (w : writer) (ps : list str) : Prop := well w /\
    (forall sat s, dict_get seqb sat (w_sats w) = Some s -> (In (target sat) ps <-> s_fout s <> None)) /\
    (forall sat, dict_get seqb sat (w_sats w) = None -> ~ In (target sat) ps) /\
    (forall p, In p ps -> exists sat s, dict_get seqb sat (w_sats w) = Some s /\ s_fout s = Some p).
  Lemma linked_new : linked (new_writer name iv) [].
  Proof. split; [exact well_new|]. split; [discriminate|]. split; [intros sat _ []|intros p []]. Qed.
  Lemma linked_entry w ps sat sd nav : linked w ps -> linked (match dict_get seqb sat (w_sats w) with Some _ => w | None => update_satellite w sat sd nav end) ps.
  Proof.
    intros [[I1 [I2 [I3 I4]]] [L1 [L2 L3]]]. destruct (dict_get seqb sat (w_sats w)) as [s|] eqn:Es; [exact (conj (conj I1 (conj I2 (conj I3 I4))) (conj L1 (conj L2 L3)))|].
    unfold update_satellite. rewrite Es. split; [|split; [|split]]; cbn [w_sats].
    - split; [exact I1|]. split; [exact I2|]. split; [exact I3|]. cbn [w_sats]. intros sat' s' out G1 G2. destruct (path_dec sat' sat) as [->|Hn].
      + rewrite sget_same in G1. injection G1 as <-. discriminate.
      + rewrite sget_other in G1 by exact Hn. exact (I4 sat' s' out G1 G2).
    - intros sat' s' G1. destruct (path_dec sat' sat) as [->|Hn].
      + rewrite sget_same in G1. injection G1 as <-. cbn [s_fout]. split; [intros X; exfalso; exact (L2 sat Es X)|congruence].
      + rewrite sget_other in G1 by exact Hn. exact (L1 sat' s' G1).
    - intros sat' G1. destruct (path_dec sat' sat) as [->|Hn]; [rewrite sget_same in G1; discriminate|]. rewrite sget_other in G1 by exact Hn. exact (L2 sat' G1).
    - intros p Hp. destruct (L3 p Hp) as [sat' [s' [G1 G2]]]. exists sat', s'. split; [|exact G2]. rewrite sget_other; [exact G1|]. intros ->. congruence.
  Qed.
  Definition of_row (o : wop) : Prop := forall s sd nav t q, o = WRow s sd nav t q -> dt_date t = d /\ no_slash s.
  Lemma op_linked w ps o ev w' : linked w ps -> of_row o -> op_events c w o = (ev, Ok w') -> tidy ps ev /\ linked w' (began ev ps).
  Proof.
    intros L Ho. destruct o as [t p l|sat sd nav t q]; cbn [op_events].
    - intros E. injection E as <- <-. split; [exact I|]. destruct L as [[I1 [I2 [I3 I4]]] L]. split; [|exact L]. repeat split; assumption.
    - destruct (Ho _ _ _ _ _ eq_refl) as [Ht Hs]. apply (linked_entry w ps sat sd nav) in L. revert L.
      generalize (match dict_get seqb sat (w_sats w) with Some _ => w | None => update_satellite w sat sd nav end). intros w0 [L0 [L1 [L2 L3]]] E.
      destruct (write_tidy w0 sat t q ev _ ps L0 Ht Hs L1 L2 E) as [T1 [_ [_ T2]]]. destruct (T2 w' eq_refl) as [W [s' [G1 [G2 [G3 G4]]]]].
      split; [exact T1|]. split; [exact W|]. split; [|split].
      + intros sat' s2 G5. destruct (path_dec sat' sat) as [->|Hn].
        * rewrite G1 in G5. injection G5 as <-. rewrite G2, G4. split; [discriminate|auto].
        * rewrite G3 in G5 by exact Hn. rewrite G4, <- (L1 sat' s2 G5). split; [intros [X|X]; [apply target_inj in X; contradiction|exact X]|auto].
      + intros sat' G5. destruct (path_dec sat' sat) as [->|Hn]; [congruence|]. rewrite G3 in G5 by exact Hn. rewrite G4. intros [X|X]; [apply target_inj in X; contradiction|].
        exact (L2 sat' G5 X).
      + intros p Hp. apply G4 in Hp. destruct (path_dec p (target sat)) as [->|Hn]; [exists sat, s'; auto|]. destruct Hp as [Hp|Hp]; [contradiction|].
        destruct (L3 p Hp) as [sat' [s2 [G5 G6]]]. exists sat', s2. split; [|exact G6]. rewrite G3; [exact G5|]. intros ->. destruct L0 as [_ [_ [_ L0]]]. exact (Hn (L0 _ _ _ G5 G6)).
  Qed.
  Lemma ops_linked os : forall w ps ev w', linked w ps -> Forall of_row os -> ops_events c w os = (ev, Ok w') -> tidy ps ev /\ linked w' (began ev ps).
  Proof.
    induction os as [|o os IH]; intros w ps ev w' L Ho; cbn [ops_events].
    - intros E. injection E as <- <-. split; [exact I|exact L].
    - inversion Ho as [|? ? Ho1 Ho2]; subst. destruct (op_events c w o) as [ev1 [w1|e]] eqn:E1; [|discriminate].
      destruct (ops_events c w1 os) as [ev2 x] eqn:E2. intros E. injection E as <- ->.
      destruct (op_linked w ps o ev1 w1 L Ho1 E1) as [T1 L1]. destruct (IH w1 _ ev2 w' L1 Ho2 E2) as [T2 L2].
      split; [apply tidy_app; auto|]. now rewrite began_app.
  Qed.
  (** a call that fails *)
  Lemma fail_linked w ps o ev e : linked w ps -> of_row o -> op_events c w o = (ev, Err e) -> tidy ps ev /\
    forall f, (forall p, fs_get p (sem f ev) = fs_get p f) \/ exists sat sd nav t q h, o = WRow sat sd nav t q /\ ~ In (target sat) ps /\
      fs_get (target sat) (sem f ev) = Some h /\ (h = [] \/ comments h) /\ forall p, p <> target sat -> fs_get p (sem f ev) = fs_get p f.
  Proof.
    intros L Ho. destruct o as [t p l|sat sd nav t q]; cbn [op_events]; [discriminate|].
    destruct (Ho _ _ _ _ _ eq_refl) as [Ht Hs]. apply (linked_entry w ps sat sd nav) in L. revert L.
    generalize (match dict_get seqb sat (w_sats w) with Some _ => w | None => update_satellite w sat sd nav end). intros w0 [L0 [L1 [L2 L3]]] E.
    destruct (write_tidy w0 sat t q ev _ ps L0 Ht Hs L1 L2 E) as [T1 [T2 [T3 _]]]. split; [exact T1|]. intros f.
    destruct (T3 e eq_refl f) as [->|[H1 [_ [h [H2 H3]]]]]; [now left|]. right. exists sat, sd, nav, t, q, h. repeat (split; [first [reflexivity|assumption]|]).
    intros p Hp. apply sem_untouched. intros ev0 Hin. specialize (T2 ev0 Hin). destruct ev0 as [r|r s|r]; cbn [touches] in *; try (apply seqb_eq in T2; subst r; apply seqb_neq; exact Hp).
    reflexivity.
  Qed.

  Lemma ends_none w ps qs : linked w ps -> incl qs ps -> opened (end_events w) qs = [].
  Proof.
    intros [_ [_ [_ L]]] Hq. assert (H : forall p, In p qs -> In (EClose p) (end_events w)).
    { intros p Hp. destruct (L p (Hq p Hp)) as [sat [s [G1 G2]]]. assert (Hi : forall l, dict_get seqb sat l = Some s -> exists k, In (k, s) l).
      { clear. induction l as [|[k x] l IH]; cbn [dict_get]; [discriminate|]. destruct (seqb sat k); [intros E; injection E as ->; exists k; now left|]. intros E. destruct (IH E) as [k' Hk]. exists k'. now right. }
      destruct (Hi _ G1) as [k' Hk]. apply in_flat_map. exists (k', s). split; [exact Hk|]. cbn [snd]. rewrite G2. now left. }
    assert (Hc : forall evs qs, (forall e, In e evs -> exists p, e = EClose p) -> (forall p, In p qs -> In (EClose p) evs) -> opened evs qs = []).
    { clear. induction evs as [|e evs IH]; intros qs He Hq; cbn [opened].
      - destruct qs as [|p qs]; [reflexivity|]. destruct (Hq p (or_introl eq_refl)).
      - destruct (He e (or_introl eq_refl)) as [p ->]. apply IH; [intros e' He'; apply He; now right|]. intros r Hr. apply filter_In in Hr. destruct Hr as [Hr1 Hr2].
        destruct (Hq r Hr1) as [E|X]; [|exact X]. injection E as ->. rewrite seqb_refl in Hr2. discriminate. }
    apply Hc; [|exact H]. intros e He. apply in_flat_map in He. destruct He as [[sat s] [_ He]]. cbn [snd] in He. destruct (s_fout s) as [p|]; [|destruct He].
    destruct He as [<-|[]]. eauto.
  Qed.
  Lemma ends_tidy w ps : tidy ps (end_events w).
  Proof. unfold end_events. induction (w_sats w) as [|[sat s] l IH]; [exact I|]. cbn [flat_map snd]. destruct (s_fout s); cbn [app tidy]; exact IH. Qed.
  Lemma ends_sem w f : sem f (end_events w) = f.
  Proof. unfold end_events. induction (w_sats w) as [|[sat s] l IH]; [reflexivity|]. cbn [flat_map snd]. destruct (s_fout s); cbn [app sem fold_left sem1]; exact IH. Qed.
End File.
