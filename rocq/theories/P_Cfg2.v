(** Proofs about the conversion of settings. *)
From Coq Require Import Reals Lra.
From Flocq Require Import Core.Core IEEE754.BinarySingleNaN.
From Verif Require Import Base PyStr PyFloat PyDate PyPath S_Text P_Str P_Float P_Div P_Sec M_Common M_Rec S_Rec P_Rec M_Cfg S_Cfg P_Out P_Cfg.
Open Scope nat_scope.

Lemma float_lit_digits s : digits s -> s <> [] -> float_lit s = Some (LDec false (dec_value s) 0).
Proof.
  intros Hd Hn. unfold float_lit.
  destruct s as [|c0 s0] eqn:Es; [congruence|]. rewrite <- Es in *.
  assert (Hc0 : is_space c0 = false) by (rewrite Es in Hd; inversion Hd; now apply digit_not_space).
  destruct (nonempty_last s Hn) as [s1 [c1 E1]].
  assert (Hc1 : is_space c1 = false).
  { rewrite E1 in Hd. apply digits_app in Hd. destruct Hd as [_ Hd]. inversion Hd. now apply digit_not_space. }
  pose proof (strip_core [] s [] c0 s0 s1 c1) as HS. cbn [app] in HS. rewrite app_nil_r in HS.
  rewrite HS; try assumption; try constructor. clear HS.
  rewrite drop_underscores_none by now apply digits_no_underscore.
  rewrite take_sign_digits by assumption.
  assert (Hu0 : exists c r, s = c :: r /\ (is_digit c = true \/ c = "."%char)).
  { exists c0, s0. split; [assumption|]. left. rewrite Es in Hd. inversion Hd. now apply digit_is_digit. }
  rewrite !float_word_no; try exact Hu0; try (eexists; eexists; split; [reflexivity|reflexivity]).
  cbn [orb]. pose proof (span_digits_app s [] Hd I) as Hs. rewrite app_nil_r in Hs. rewrite Hs.
  rewrite app_nil_r. rewrite Es. rewrite <- Es. cbn [float_exponent List.length]. rewrite digits_val_dec. reflexivity.
Qed.

Lemma sec2sec_whole n : (0 <= n < 1000000)%Z -> sec2sec_ms (float_of_Z n) = Ok (n, 0%Z).
Proof.
  intros Hn. destruct (float_of_Z_correct n) as [Hg Hr]; [lia|]. unfold sec2sec_ms, split_sec.
  rewrite float_to_int_correct by apply Hg. rewrite Hr, Ztrunc_IZR. cbn [bind].
  assert (Hz : exists b, fsub (float_of_Z n) (float_of_Z n) = S754_zero b).
  { destruct (fsub_correct _ _ Hg Hg) as [Hg1 Hr1].
    - rewrite Rminus_diag_eq by reflexivity. rewrite Rabs_R0. unfold big. apply bpow_ge_0.
    - rewrite Rminus_diag_eq in Hr1 by reflexivity. rewrite (rnd_IZR 0) in Hr1 by lia.
      apply f2r_zero_iff in Hr1; [|assumption]. unfold ftruth, fis_zero in Hr1.
      destruct (fsub _ _) as [b| | |]; try discriminate. now exists b. }
  destruct Hz as [b Hz]. rewrite Hz. destruct b; vm_compute; reflexivity.
Qed.

Lemma sampling_text s n : digits s -> s <> [] -> dec_value s = n -> (n < 1000000)%Z ->
  get_sampling (CStr s) = Ok (if (n =? 0)%Z then None else Some (n * 1000000)%Z).
Proof.
  intros Hd Hs <- Hn. pose proof (dec_value_nonneg s Hd) as H0. set (n := dec_value s) in *.
  unfold get_sampling, to_float, py_float, py_float_opt. rewrite float_lit_digits by assumption.
  fold n. cbn [option_map of_option bind float_of_lit].
  assert (E : b64_of_dec false n 0 = float_of_Z n).
  { unfold float_of_Z. replace (n <? 0)%Z with false by lia. now rewrite Z.abs_eq. }
  rewrite E, sec2sec_whole by lia. cbn [bind].
  destruct (float_of_Z_correct n) as [Hg Hr]; [lia|].
  destruct (n =? 0)%Z eqn:En.
  - apply Z.eqb_eq in En. rewrite En. reflexivity.
  - assert (Ht : ftruth (float_of_Z n) = true).
    { destruct (ftruth (float_of_Z n)) eqn:T; [reflexivity|]. apply f2r_zero_iff in T; [|assumption].
      rewrite Hr in T. apply eq_IZR in T. lia. }
    rewrite Ht. rewrite Z.add_0_r.
    replace (Z.abs (n * 1000000 / (86400 * 1000000)) <=? 999999999)%Z with true; [reflexivity|].
    symmetry. apply Z.leb_le. rewrite Z.div_mul_cancel_r by lia.
    assert (0 <= n / 86400 <= n)%Z by (split; [apply Z.div_pos; lia|apply Z.div_le_upper_bound; lia]). lia.
Qed.
Lemma sampling_default : get_sampling (CInt 0) = Ok None.
Proof. vm_compute. reflexivity. Qed.

Lemma no_quote s : ~ In "'"%char s -> ~ In """"%char s -> existsb is_quote s = false.
Proof.
  intros H1 H2. destruct (existsb is_quote s) eqn:E; [|reflexivity]. apply existsb_exists in E.
  destruct E as [x [Hx Hq]]. unfold is_quote in Hq. apply orb_true_iff in Hq. destruct Hq as [Hq|Hq]; apply ceqb_eq in Hq; subst; contradiction.
Qed.
Lemma get_str_quoted e q v : is_quote q = true -> ~ In q v -> ~ In "\"%char v -> get_str e ([q] ++ v ++ [q]) = Ok v.
Proof.
  intros Hq Hv Hb. unfold get_str. cbn [app]. rewrite Hq. cbn [andb].
  rewrite existsb_app. cbn [existsb]. rewrite Hq, orb_true_r. cbn [orb].
  unfold simple_quoted, last_c. rewrite rev_unit. rewrite removelast_last. rewrite Hq, ceqb_refl. cbn [andb].
  replace (forallb _ v) with true; [reflexivity|]. symmetry. apply forallb_forall. intros x Hx.
  apply andb_true_iff. split; apply negb_true_iff.
  - destruct (ceqb x q) eqn:E; [apply ceqb_eq in E; subst; contradiction|reflexivity].
  - destruct (ceqb x "\"%char) eqn:E; [apply ceqb_eq in E; subst; contradiction|reflexivity].
Qed.
Lemma get_str_ok e s v : quotable s v -> get_str e s = Ok v.
Proof.
  intros [H1 [H2 [H3 [H|[H|H]]]]].
  - subst s. unfold get_str. destruct v as [|q r]; [reflexivity|].
    assert (Hq : is_quote q = false).
    { pose proof (no_quote (q :: r) H1 H2) as E. cbn in E. now apply orb_false_iff in E. }
    now rewrite Hq.
  - rewrite H. now apply get_str_quoted.
  - rewrite H. now apply get_str_quoted.
Qed.
Lemma replace_absent a b s : ~ In a s -> replace_c a b s = s.
Proof.
  unfold replace_c. induction s as [|c s IH]; intros H; [reflexivity|]. cbn [map].
  destruct (ceqb c a) eqn:E; [apply ceqb_eq in E; subst; destruct H; now left|].
  rewrite IH; [reflexivity|]. intros HI; apply H; now right.
Qed.
Lemma get_path_ok e s v : quotable s v -> get_path e s = Ok v.
Proof.
  intros H. unfold get_path. rewrite replace_absent; [now apply get_str_ok|].
  destruct H as [H1 [H2 [H3 H]]]. intros HI.
  destruct H as [H|[H|H]]; subst s; [contradiction| |];
    (apply in_app_or in HI; destruct HI as [[HI|[]]|HI]; [discriminate|];
     apply in_app_or in HI; destruct HI as [HI|[HI|[]]]; [contradiction|discriminate]).
Qed.

Lemma split_on_nonnil c s : split_on c s <> [].
Proof. destruct s; cbn; [discriminate|]. destruct (ceqb _ _); [discriminate|]. destruct (split_on c s); discriminate. Qed.

Lemma compose_known n fields : fields <> [] -> known_fields fields -> exists rf, compose_rec_format n fields = Ok rf.
Proof.
  intros Hn H. destruct (existsb (seqb (lit "all")) fields) eqn:E.
  - apply all_dec in E. destruct (compose_all n fields E) as [rf [Hrf _]]. eauto.
  - assert (Hna : ~ In (lit "all") fields) by (intros HI; apply all_dec in HI; congruence).
    pose proof (compose_names n fields Hn Hna) as HC. destruct H as [H|H]; [contradiction|].
    destruct (compose_rec_format n fields) as [rf|]; [eauto|]. destruct HC as [_ HC]. contradiction.
Qed.

Lemma get_dir_list_ok s : get_dir_list s = map strip (items s).
Proof. unfold get_dir_list, items. rewrite map_map. apply map_ext. intros a. apply lstrip_rstrip. Qed.

Lemma assigned_nonempty name ls v : assigned name ls = Some v -> v <> [].
Proof.
  induction ls as [|l r IH]; cbn [assigned]; [discriminate|]. destruct (assigned name r); [intros [= <-]; now apply IH|].
  destruct l; try discriminate. destruct (seqb name0 name); [|discriminate]. destruct value; [discriminate|]. intros [= <-]. discriminate.
Qed.

Lemma priority_ok ls name : dict_get seqb name default_text = Some [] ->
  get_priority (match assigned name ls with Some v => CStr v | None => CList [] end) = Ok (priority (value_of ls name)).
Proof.
  intros H. unfold value_of. rewrite H. destruct (assigned name ls) as [v|]; [|reflexivity]. unfold get_priority, priority.
  destruct v; reflexivity.
Qed.
Lemma text_ok ls name d : dict_get seqb name default_text = Some d ->
  as_str (match assigned name ls with Some v => CStr v | None => CStr d end) = Ok (value_of ls name).
Proof. intros H. unfold value_of. rewrite H. now destruct (assigned name ls). Qed.

Lemma level_ok s : In (upper s) log_levels -> get_log_level s = Ok (upper s).
Proof.
  intros H. unfold get_log_level. change log_levels with levels in H.
  replace (existsb (seqb (upper s)) levels) with true; [reflexivity|]. symmetry. apply existsb_exists.
  exists (upper s). split; [exact H|apply seqb_refl].
Qed.

Ltac tx ls n d := rewrite (text_ok ls (lit n) (lit d) eq_refl); cbn [bind].
Ltac pr ls n := rewrite (priority_ok ls (lit n) eq_refl); cbn [bind].
Lemma read_cfg_ok e ls fields outdir dtf secs : Forall line_ok ls ->
  assigned (lit "navIgnoreAbsence") ls <> None -> good_values ls fields outdir dtf secs ->
  exists c, read_cfg e (file_text ls) = Ok c /\ cfg_of e ls fields outdir dtf secs c.
Proof.
  intros Hls Hign [G1 G2 G3 G4 G5 G6 [G7 [G8 G9]]].
  destruct (read_settings_ok ls Hls) as [st [E HG]]. unfold read_cfg. rewrite E. cbn [bind].
  destruct (assigned (lit "navIgnoreAbsence") ls) as [ign|] eqn:Ei; [clear Hign|congruence].
  destruct (compose_known (now_len e dtf) (items (without_space (lower fields))) (split_on_nonnil _ _) G3) as [rf Hrf].
  assert (Hsi : get_sampling (match assigned (lit "samplingInterval") ls with Some v => CStr v | None => CInt 0 end)
     = Ok (if (secs =? 0)%Z then None else Some (secs * 1000000)%Z)).
  { unfold value_of in G7, G8. destruct (assigned (lit "samplingInterval") ls) as [v|] eqn:Es.
    - apply sampling_text; try assumption. eapply assigned_nonempty; exact Es.
    - cbn in G8. subst secs. exact sampling_default. }
  eexists. split.
  - unfold convert, setting. rewrite !HG.
    change (dict_get seqb (lit "logLevel") defaults) with (Some (CStr (lit "DEBUG"))).
    change (dict_get seqb (lit "recFields") defaults) with (Some (CStr (lit "datetime, el, az, tec.l1l2, validity"))).
    change (dict_get seqb (lit "obsDir") defaults) with (Some (CStr (lit "./obs"))).
    change (dict_get seqb (lit "navDir") defaults) with (Some (CStr (lit "./nav"))).
    change (dict_get seqb (lit "outDir") defaults) with (Some (CStr (lit "./out"))).
    change (dict_get seqb (lit "datetimeFormat") defaults) with (Some (CStr (lit "%Y-%j %H:%M:%S"))).
    change (dict_get seqb (lit "outFileMode") defaults) with (Some (CStr (lit "text"))).
    change (dict_get seqb (lit "navPriorityGPS") defaults) with (Some (CList [])).
    change (dict_get seqb (lit "navPriorityGLO") defaults) with (Some (CList [])).
    change (dict_get seqb (lit "navPriorityGEO") defaults) with (Some (CList [])).
    change (dict_get seqb (lit "navIgnoreAbsence") defaults) with (Some (CBool false)).
    change (dict_get seqb (lit "logFile") defaults) with (Some (CStr (lit "tecs.log"))).
    change (dict_get seqb (lit "samplingInterval") defaults) with (Some (CInt 0)).
    cbn [of_option bind].
    tx ls "logLevel"%string "DEBUG"%string. rewrite level_ok by exact G1. cbn [bind].
    tx ls "recFields"%string "datetime, el, az, tec.l1l2, validity"%string. rewrite (get_str_ok e _ fields) by exact G2. cbn [bind].
    tx ls "obsDir"%string "./obs"%string. tx ls "navDir"%string "./nav"%string.
    tx ls "outDir"%string "./out"%string. rewrite (get_path_ok e _ outdir) by exact G4. cbn [bind].
    tx ls "datetimeFormat"%string "%Y-%j %H:%M:%S"%string. rewrite (get_str_ok e _ dtf) by exact G5. cbn [bind].
    tx ls "outFileMode"%string "text"%string. rewrite G6, seqb_refl. cbn [negb].
    change (split_on ","%char (drop_space (lower fields))) with (items (without_space (lower fields))).
    rewrite Hrf. cbn [bind]. pr ls "navPriorityGPS"%string. pr ls "navPriorityGLO"%string. pr ls "navPriorityGEO"%string.
    rewrite Ei. cbn [get_bool bind]. tx ls "logFile"%string "tecs.log"%string.
    rewrite Hsi. cbn [bind]. reflexivity.
  - constructor; try reflexivity; try assumption; try apply get_dir_list_ok.
    cbn [c_ignore]. unfold value_of. now rewrite Ei.
Qed.

(** without navIgnoreAbsence: TypeError *)
Lemma read_cfg_omitted e ls fields outdir dtf secs : Forall line_ok ls ->
  assigned (lit "navIgnoreAbsence") ls = None -> good_values ls fields outdir dtf secs ->
  read_cfg e (file_text ls) = Err TypeError.
Proof.
  intros Hls Ei [G1 G2 G3 G4 G5 G6 [G7 [G8 G9]]].
  destruct (read_settings_ok ls Hls) as [st [E HG]]. unfold read_cfg. rewrite E. cbn [bind].
  destruct (compose_known (now_len e dtf) (items (without_space (lower fields))) (split_on_nonnil _ _) G3) as [rf Hrf].
  unfold convert, setting. rewrite !HG.
    change (dict_get seqb (lit "logLevel") defaults) with (Some (CStr (lit "DEBUG"))).
    change (dict_get seqb (lit "recFields") defaults) with (Some (CStr (lit "datetime, el, az, tec.l1l2, validity"))).
    change (dict_get seqb (lit "obsDir") defaults) with (Some (CStr (lit "./obs"))).
    change (dict_get seqb (lit "navDir") defaults) with (Some (CStr (lit "./nav"))).
    change (dict_get seqb (lit "outDir") defaults) with (Some (CStr (lit "./out"))).
    change (dict_get seqb (lit "datetimeFormat") defaults) with (Some (CStr (lit "%Y-%j %H:%M:%S"))).
    change (dict_get seqb (lit "outFileMode") defaults) with (Some (CStr (lit "text"))).
    change (dict_get seqb (lit "navPriorityGPS") defaults) with (Some (CList [])).
    change (dict_get seqb (lit "navPriorityGLO") defaults) with (Some (CList [])).
    change (dict_get seqb (lit "navPriorityGEO") defaults) with (Some (CList [])).
    change (dict_get seqb (lit "navIgnoreAbsence") defaults) with (Some (CBool false)).
    cbn [of_option bind].
    tx ls "logLevel"%string "DEBUG"%string. rewrite level_ok by exact G1. cbn [bind].
    tx ls "recFields"%string "datetime, el, az, tec.l1l2, validity"%string. rewrite (get_str_ok e _ fields) by exact G2. cbn [bind].
    tx ls "obsDir"%string "./obs"%string. tx ls "navDir"%string "./nav"%string.
    tx ls "outDir"%string "./out"%string. rewrite (get_path_ok e _ outdir) by exact G4. cbn [bind].
    tx ls "datetimeFormat"%string "%Y-%j %H:%M:%S"%string. rewrite (get_str_ok e _ dtf) by exact G5. cbn [bind].
    tx ls "outFileMode"%string "text"%string. rewrite G6, seqb_refl. cbn [negb].
    change (split_on ","%char (drop_space (lower fields))) with (items (without_space (lower fields))).
    rewrite Hrf. cbn [bind]. pr ls "navPriorityGPS"%string. pr ls "navPriorityGLO"%string. pr ls "navPriorityGEO"%string.
    rewrite Ei. reflexivity.
Qed.
