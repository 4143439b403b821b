(** Output files: proofs. *)
From Coq Require Import ZifyBool ZifyNat.
From Verif Require Import Base PyStr PyFloat PyDate PyPath S_Text S_Time M_Header M_Rec M_Text S_Out P_Str P_Float P_Date P_Label.
Open Scope nat_scope.

Local Arguments nat_str : simpl never.
(** ** dictionaries *)
Section DictLemmas.
  Context {K V : Type} (eqb : K -> K -> bool) (eqb_eq : forall a b, eqb a b = true <-> a = b).
  Lemma dict_get_set_same (k : K) (v : V) d : dict_get eqb k (dict_set eqb k v d) = Some v.
  Proof.
    induction d as [|[k' v'] d IH]; cbn.
    - now rewrite (proj2 (eqb_eq k k) eq_refl).
    - destruct (eqb k k') eqn:E; cbn; rewrite E; [reflexivity|exact IH].
  Qed.
  Lemma dict_get_set_other (k k' : K) (v : V) d : k <> k' -> dict_get eqb k (dict_set eqb k' v d) = dict_get eqb k d.
  Proof.
    intros Hne. assert (Hf : eqb k k' = false). { destruct (eqb k k') eqn:E; [apply eqb_eq in E; contradiction|reflexivity]. }
    induction d as [|[k2 v2] d IH]; cbn; [now rewrite Hf|].
    destruct (eqb k' k2) eqn:E; cbn.
    - apply eqb_eq in E. subst k2. rewrite Hf. reflexivity.
    - destruct (eqb k k2); [reflexivity|exact IH].
  Qed.
End DictLemmas.
Definition sget_same {V} := @dict_get_set_same str V seqb seqb_eq.
Definition sget_other {V} := @dict_get_set_other str V seqb seqb_eq.

Lemma fs_append_same p s f c : fs_get p f = Some c -> fs_get p (fs_append p s f) = Some (c ++ s).
Proof. intros H. unfold fs_append. rewrite H. apply sget_same. Qed.
Lemma fs_append_other p p' s f : p <> p' -> fs_get p (fs_append p' s f) = fs_get p f.
Proof. intros H. unfold fs_append. destruct (fs_get p' f); now apply sget_other. Qed.

(** ** paths *)
Lemma from_drop n (s : str) : from n s = skipn n s. Proof. reflexivity. Qed.
Lemma digits_no_slash s : digits s -> no_slash s.
Proof. intros H Hin. apply (proj1 (Forall_forall _ _) H) in Hin. unfold digit in Hin. cbn in Hin. lia. Qed.
Lemma z_str_nat n : (0 <= n)%Z -> z_str n = nat_str n.
Proof. intros H. unfold z_str. replace (n <? 0)%Z with false by lia. reflexivity. Qed.
Lemma strf_Y_text t : date_ok (dt_date t) -> strf_Y t = year_text (dt_date t).
Proof. intros [H _]. unfold strf_Y. cbn. apply z_str_nat. cbn in H. lia. Qed.
Lemma doy_eq y m d : (1 <= y)%Z -> (1 <= m <= 12)%Z -> (civil_day y m d - civil_day y 1 1 + 1 = day_of_year y m d)%Z.
Proof. intros Hy Hm. rewrite !civil_day_eq by lia. unfold ymd2ord, day_of_year. replace (days_before_month y 1) with 0%Z; [lia|].
  unfold days_before_month. cbn. reflexivity. Qed.
Lemma doy_range y m d : valid_date y m d -> (1 <= day_of_year y m d <= 366)%Z.
Proof.
  intros [Hy [Hm Hd]]. unfold day_of_year. rewrite month_len_eq in Hd by exact Hm. pose proof (dbm_within y m d Hm Hd).
  unfold year_len in *. destruct (leap_year y); lia.
Qed.
Lemma strf_j_text t : date_ok (dt_date t) -> strf_j t = yday_text (dt_date t).
Proof.
  intros H. cbn in H. unfold strf_j, yday_text. cbn. rewrite doy_eq by (destruct H as [? [? ?]]; lia).
  pose proof (doy_range _ _ _ H). unfold fmt_0d. replace (_ <? 0)%Z with false by lia. reflexivity.
Qed.
Lemma year_text_digits d : date_ok d -> digits (year_text d) /\ year_text d <> [].
Proof. destruct d as [[y m] dd]. intros [H _]. destruct (nat_str_spec y) as [H1 [H2 _]]; [lia|]. split; assumption. Qed.
Lemma yday_text_digits d : date_ok d -> digits (yday_text d) /\ List.length (yday_text d) = 3.
Proof.
  destruct d as [[y m] dd]. intros H. cbn in H. unfold yday_text. rewrite doy_eq by (destruct H as [? [? ?]]; lia).
  pose proof (doy_range _ _ _ H). destruct (pad_left_digits 3 (day_of_year y m dd)) as [H1 [H2 _]]; [cbn; lia|lia|]. split; assumption.
Qed.
Lemma date_text_inj d d' : date_ok d -> date_ok d' -> year_text d = year_text d' -> yday_text d = yday_text d' -> d = d'.
Proof.
  destruct d as [[y m] dd], d' as [[y' m'] dd']. intros H H' E1 E2. cbn in H, H'.
  assert (y = y').
  { destruct (nat_str_spec y) as [_ [_ [V _]]]; [destruct H; lia|]. destruct (nat_str_spec y') as [_ [_ [V' _]]]; [destruct H'; lia|].
    cbn in E1. rewrite <- V, <- V'. now rewrite E1. }
  subst y'. unfold yday_text in E2. rewrite !doy_eq in E2 by (destruct H as [? [? ?]], H' as [? [? ?]]; lia).
  pose proof (doy_range _ _ _ H). pose proof (doy_range _ _ _ H').
  destruct (pad_left_digits 3 (day_of_year y m dd)) as [_ [_ V]]; [cbn; lia|lia|].
  destruct (pad_left_digits 3 (day_of_year y m' dd')) as [_ [_ V']]; [cbn; lia|lia|].
  assert (day_of_year y m dd = day_of_year y m' dd') by (rewrite <- V, <- V'; now rewrite E2).
  destruct H as [Hy [Hm Hd]], H' as [_ [Hm' Hd']]. rewrite month_len_eq in Hd, Hd' by assumption.
  destruct (ymd2ord_inj y m dd y m' dd') as [? [? ?]]; try assumption.
  - unfold ymd2ord. unfold day_of_year in *. lia.
  - subst. reflexivity.
Qed.

Lemma join_plain a b c r : b = c :: r -> c <> "/"%char -> path_join a b = with_slash a ++ b.
Proof.
  intros -> Hc. unfold path_join, with_slash. destruct (ceqb c slash) eqn:E; [apply ceqb_eq in E; contradiction|].
  destruct a as [|a0 a']; [reflexivity|]. destruct (ends_slash (a0 :: a')); [reflexivity|]. now rewrite <- app_assoc.
Qed.
Lemma no_slash_cons c r : no_slash (c :: r) -> c <> "/"%char.
Proof. intros H ->. apply H. now left. Qed.
Lemma join_seg a b : no_slash b -> b <> [] -> path_join a b = with_slash a ++ b.
Proof. intros H1 H2. destruct b as [|c r]; [congruence|]. apply (join_plain a _ c r); [reflexivity|]. now apply no_slash_cons in H1. Qed.
Lemma ends_slash_snoc a c : ends_slash (a ++ [c]) = ceqb c slash.
Proof. unfold ends_slash. rewrite rev_app_distr. reflexivity. Qed.
Lemma with_slash_seg a b : no_slash b -> b <> [] -> with_slash (a ++ b) = a ++ b ++ lit "/".
Proof.
  intros H1 H2. destruct (nonempty_last b H2) as [r [c ->]]. unfold with_slash. rewrite (app_assoc a r [c]). rewrite ends_slash_snoc.
  assert (Hc : ceqb c slash = false). { destruct (ceqb c slash) eqn:E; [|reflexivity]. apply ceqb_eq in E. subst c. exfalso. apply H1. apply in_or_app. right. now left. }
  rewrite Hc. destruct ((a ++ r) ++ [c]) eqn:E; [destruct (a ++ r); discriminate|]. rewrite <- E. rewrite <- !app_assoc. reflexivity.
Qed.

Lemma basename_no_slash p : forall cur, no_slash cur -> no_slash (basename_acc cur p).
Proof.
  induction p as [|c p IH]; intros cur H; cbn.
  - intros Hin. apply in_rev in Hin. contradiction.
  - destruct (ceqb c slash) eqn:E; apply IH; [intros []|]. intros [->|Hin]; [|contradiction]. cbn in E. discriminate.
Qed.
Lemma marker_no_slash f : no_slash (marker_of f).
Proof. unfold marker_of. intros H. apply (basename_no_slash f [] (fun x => x)). eapply firstn_subset in H || idtac. 
  unfold basename in H. revert H. generalize (basename_acc [] f). intros l. revert l. generalize 4. induction n as [|n IH]; intros [|x l]; cbn; try contradiction.
  intros [->|H]; [now left|right; now apply IH]. Qed.

Lemma result_path c filename sat t : date_ok (dt_date t) -> marker_of filename <> [] ->
  no_slash sat ->
  path_join (out_dir c filename t) (out_name filename sat t) = result_file (oc_dir c) (marker_of filename) sat (dt_date t).
Proof.
  intros Hd Hm Hs. unfold out_dir, out_name, result_file. rewrite strf_Y_text, strf_j_text by exact Hd.
  destruct (year_text_digits _ Hd) as [Y1 Y2]. destruct (yday_text_digits _ Hd) as [J1 J2].
  assert (J3 : yday_text (dt_date t) <> []) by (intros E; rewrite E in J2; discriminate).
  pose proof (digits_no_slash _ Y1) as Y3. pose proof (digits_no_slash _ J1) as J4. pose proof (marker_no_slash filename) as M1.
  set (y := year_text (dt_date t)) in *. set (j := yday_text (dt_date t)) in *. set (m := marker_of filename) in *.
  rewrite (join_seg (oc_dir c) y Y3 Y2). rewrite (join_seg _ j J4 J3). rewrite (with_slash_seg _ y Y3 Y2).
  rewrite (join_seg _ m M1 Hm).
  replace ((with_slash (oc_dir c) ++ y ++ lit "/") ++ j) with ((with_slash (oc_dir c) ++ y ++ lit "/") ++ j) by reflexivity.
  rewrite (with_slash_seg _ j J4 J3).
  set (pre := (with_slash (oc_dir c) ++ y ++ lit "/") ++ j ++ lit "/").
  destruct m as [|m0 mr] eqn:Em; [congruence|].
  rewrite (join_plain _ _ m0 (mr ++ lit "_" ++ sat ++ lit "_" ++ j ++ lit "_" ++ from 2 y ++ lit ".dat")); [|reflexivity|now apply no_slash_cons in M1].
  rewrite with_slash_seg by assumption. unfold pre. rewrite <- !app_assoc. reflexivity.
Qed.

(** ** one observation file *)
Section OneFile.
  Variables (c : out_cfg) (name : str) (iv : pynum) (d : date) (f0 : fs).
  Hypothesis Hd : date_ok d.
  Hypothesis Hm : marker_of name <> [].
  Let target sat := result_file (oc_dir c) (marker_of name) sat d.
  Hypothesis target_inj : forall s s', target s = target s' -> s = s'.

  (** the state after the operations [done] *)
  Definition winv (done : list wop) (f : fs) (w : writer) : Prop :=
    w_obs w = name /\ w_interval w = iv /\
    (forall p t, w_path w = Some p -> dt_date t = d -> p = out_dir c name t) /\
    (forall sat s, dict_get seqb sat (w_sats w) = Some s -> s_fout s = None -> rows_of sat done = []) /\
    (forall sat, dict_get seqb sat (w_sats w) = None -> rows_of sat done = []) /\
    (forall sat s out, dict_get seqb sat (w_sats w) = Some s -> s_fout s = Some out ->
       out = target sat /\ exists content, fs_get out f = Some content /\ file_of_rows c iv (rows_of sat done) content) /\
    (forall p, (forall sat, rows_of sat done <> [] -> p <> target sat) -> fs_get p f = fs_get p f0).

  Lemma rows_of_app sat a b : rows_of sat (a ++ b) = rows_of sat a ++ rows_of sat b.
  Proof. induction a as [|[t p l|s sd nav t q] a IH]; cbn; [reflexivity|exact IH|]. rewrite IH. now rewrite app_assoc. Qed.

  Lemma header_comments w s h : header_text c w s = Ok h -> comments h.
  Proof.
    unfold header_text. destruct (latest (w_xyz w)) as [p|]; [|discriminate]. cbn [bind]. destruct (latest (w_lbh w)) as [l|]; [|discriminate]. cbn [bind].
    intros E. match type of E with Ok (concat (map comment_line ?ls)) = _ => exists ls; assert (E' : concat (map comment_line ls) = h) by congruence end.
    split; [symmetry; exact E'|reflexivity].
  Qed.

  Lemma out_dir_same t t' : dt_date t = d -> dt_date t' = d -> out_dir c name t = out_dir c name t'.
  Proof. intros E E'. unfold out_dir. rewrite !strf_Y_text, !strf_j_text by (rewrite ?E, ?E'; exact Hd). now rewrite E, E'. Qed.

  Lemma write_data_inv done f w f' w' sat sd nav t q : winv done f w -> dict_get seqb sat (w_sats w) <> None ->
    dt_date t = d -> no_slash sat -> write_data c f w sat t q = Ok (f', w') -> winv (done ++ [WRow sat sd nav t q]) f' w'.
  Proof.
    intros (I1 & I2 & I3 & I4 & I5 & I6 & I7) Hg Ht Hs. unfold write_data. cbv zeta. cbn [w_path w_obs w_interval w_sats w_xyz w_lbh].
    destruct (dict_get seqb sat (w_sats w)) as [s|] eqn:Es; [|congruence]. cbn [of_option bind].
    assert (Hpath : match w_path w with Some p => p | None => out_dir c (w_obs w) t end = out_dir c name t).
    { rewrite I1. destruct (w_path w) eqn:Ep; [|reflexivity]. now apply I3. }
    rewrite Hpath. rewrite I1, I2.
    assert (Hrow : forall sat', rows_of sat' (done ++ [WRow sat sd nav t q]) = rows_of sat' done ++ (if seqb sat' sat then [(t, q)] else [])).
    { intros sat'. rewrite rows_of_app. cbn [rows_of]. now rewrite app_nil_r. }
    assert (Hrow1 : rows_of sat (done ++ [WRow sat sd nav t q]) = rows_of sat done ++ [(t, q)]) by (rewrite Hrow, seqb_refl; reflexivity).
    assert (Hrow2 : forall sat', sat' <> sat -> rows_of sat' (done ++ [WRow sat sd nav t q]) = rows_of sat' done).
    { intros sat' Hne. rewrite Hrow. apply seqb_neq in Hne. rewrite Hne. apply app_nil_r. }
    assert (Hframe : forall p, (forall sat', rows_of sat' (done ++ [WRow sat sd nav t q]) <> [] -> p <> target sat') ->
      p <> target sat /\ (forall sat', rows_of sat' done <> [] -> p <> target sat')).
    { intros p Hp. split.
      - apply Hp. rewrite Hrow1. destruct (rows_of sat done); discriminate.
      - intros sat' Hn. apply Hp. rewrite Hrow. destruct (rows_of sat' done); [congruence|discriminate]. }
    assert (Htgt : path_join (out_dir c name t) (out_name name sat t) = target sat).
    { rewrite result_path; [|rewrite Ht; exact Hd|exact Hm|exact Hs]. now rewrite Ht. }
    destruct (s_fout s) as [out|] eqn:Eo.
    - (* file already open *)
      cbn [bind w_interval]. destruct (row_text (oc_format c) (oc_strftime c) iv t q) as [row|] eqn:Er; [|discriminate]. cbn [bind].
      intros E. injection E as <- <-. destruct (I6 sat s out Es Eo) as [-> [content [Hc Hf]]].
      repeat split; cbn [w_obs w_interval w_path w_sats].
      + intros p t' [= <-] Ht'. now apply out_dir_same.
      + intros sat' s' G1 G2. rewrite Hrow2; [now apply (I4 sat' s')|]. intros ->. congruence.
      + intros sat' G1. rewrite Hrow2; [now apply I5|]. intros ->. congruence.
      + now destruct (I6 sat0 s0 out H H0).
      + destruct (I6 sat0 s0 out H H0) as [-> [content' [Hc' Hf']]]. destruct (seqb sat0 sat) eqn:E0.
        * apply seqb_eq in E0. subst sat0. exists (content ++ row). split; [now apply fs_append_same|].
          rewrite Hrow1. destruct Hf as [h [rs [-> [Hh Hrs]]]]. exists h, (rs ++ [row]). split; [now rewrite concat_app, <- app_assoc; cbn; rewrite app_nil_r|].
          split; [exact Hh|]. apply Forall2_app; [exact Hrs|]. constructor; [exact Er|constructor].
        * apply seqb_neq in E0. exists content'. split; [|now rewrite Hrow2].
          rewrite fs_append_other; [exact Hc'|]. intros E. apply E0. now apply target_inj.
      + intros p Hp. destruct (Hframe p Hp) as [P1 P2]. rewrite fs_append_other by exact P1. now apply I7.
    - (* new file *)
      rewrite Htgt. destruct (header_text _ _ s) as [h|] eqn:Eh; [|discriminate]. cbn [bind w_interval w_path w_sats w_xyz w_lbh].
      destruct (row_text (oc_format c) (oc_strftime c) iv t q) as [row|] eqn:Er; [|discriminate]. cbn [bind].
      intros E. injection E as <- <-.
      assert (Hno : rows_of sat done = []) by (now apply (I4 sat s)).
      assert (Hget : fs_get (target sat) (fs_append (target sat) row (fs_append (target sat) h (fs_truncate (target sat) f))) = Some (h ++ row)).
      { apply fs_append_same. rewrite (fs_append_same _ _ _ []); [reflexivity|]. apply sget_same. }
      assert (Hoth : forall p, p <> target sat -> fs_get p (fs_append (target sat) row (fs_append (target sat) h (fs_truncate (target sat) f))) = fs_get p f).
      { intros p Hp. rewrite !fs_append_other by exact Hp. now apply sget_other. }
      set (f' := fs_append (target sat) row _) in *. clearbody f'.
      repeat split; cbn [w_obs w_interval w_path w_sats].
      + intros p t' [= <-] Ht'. now apply out_dir_same.
      + intros sat' s' G1 G2. destruct (seqb sat' sat) eqn:E0.
        * apply seqb_eq in E0. subst sat'. rewrite sget_same in G1. injection G1 as <-. discriminate.
        * apply seqb_neq in E0. rewrite sget_other in G1 by exact E0. rewrite Hrow2 by exact E0. now apply (I4 sat' s').
      + intros sat' G1. destruct (seqb sat' sat) eqn:E0.
        * apply seqb_eq in E0. subst sat'. rewrite sget_same in G1. discriminate.
        * apply seqb_neq in E0. rewrite sget_other in G1 by exact E0. rewrite Hrow2 by exact E0. now apply I5.
      + cbn [w_sats] in H. destruct (seqb sat0 sat) eqn:E0.
        * apply seqb_eq in E0. subst sat0. rewrite sget_same in H. injection H as <-. cbn in H0. congruence.
        * apply seqb_neq in E0. rewrite sget_other in H by exact E0. now destruct (I6 sat0 s0 out H H0).
      + cbn [w_sats] in H. destruct (seqb sat0 sat) eqn:E0.
        * apply seqb_eq in E0. subst sat0. rewrite sget_same in H. injection H as <-. cbn in H0. injection H0 as <-.
          exists (h ++ row). split; [exact Hget|]. rewrite Hrow1, Hno. exists h, [row]. split; [now cbn; rewrite app_nil_r|].
          split; [now apply (header_comments _ _ _ Eh)|]. constructor; [exact Er|constructor].
        * apply seqb_neq in E0. rewrite sget_other in H by exact E0. destruct (I6 sat0 s0 out H H0) as [-> [content' [Hc' Hf']]].
          exists content'. split; [|now rewrite Hrow2]. rewrite Hoth; [exact Hc'|]. intros E. apply E0. now apply target_inj.
      + intros p Hp. destruct (Hframe p Hp) as [P1 P2]. rewrite Hoth by exact P1. now apply I7.
  Qed.

  Lemma update_sat_inv done f w sat sd nav : winv done f w -> dict_get seqb sat (w_sats w) = None ->
    winv done f (update_satellite w sat sd nav).
  Proof.
    intros (I1 & I2 & I3 & I4 & I5 & I6 & I7) Hn. unfold update_satellite. rewrite Hn.
    repeat split; cbn [w_obs w_interval w_path w_sats]; try assumption.
    - intros sat' s' G1 G2. destruct (seqb sat' sat) eqn:E0.
      + apply seqb_eq in E0. subst. now apply I5.
      + apply seqb_neq in E0. rewrite sget_other in G1 by exact E0. now apply (I4 sat' s').
    - intros sat' G1. destruct (seqb sat' sat) eqn:E0.
      + apply seqb_eq in E0. subst. now apply I5.
      + apply seqb_neq in E0. rewrite sget_other in G1 by exact E0. now apply I5.
    - cbn [w_sats] in H. destruct (seqb sat0 sat) eqn:E0.
      + apply seqb_eq in E0. subst. rewrite sget_same in H. injection H as <-. discriminate.
      + apply seqb_neq in E0. rewrite sget_other in H by exact E0. now destruct (I6 sat0 s out H H0).
    - cbn [w_sats] in H. destruct (seqb sat0 sat) eqn:E0.
      + apply seqb_eq in E0. subst. rewrite sget_same in H. injection H as <-. discriminate.
      + apply seqb_neq in E0. rewrite sget_other in H by exact E0. now destruct (I6 sat0 s out H H0).
  Qed.

  Lemma do_op_inv done f w f' w' o : winv done f w -> (forall s sd nav t q, o = WRow s sd nav t q -> dt_date t = d /\ no_slash s) ->
    do_op c (f, w) o = Ok (f', w') -> winv (done ++ [o]) f' w'.
  Proof.
    intros I Ho. destruct o as [t p l|sat sd nav t q]; cbn [do_op].
    - intros E. injection E as <- <-. destruct I as (I1 & I2 & I3 & I4 & I5 & I6 & I7).
      assert (Hr : forall sat, rows_of sat (done ++ [WPos t p l]) = rows_of sat done) by (intros sat; rewrite rows_of_app; cbn; apply app_nil_r).
      unfold update_lbh, update_xyz. cbn [w_obs w_interval w_path w_sats w_xyz w_lbh].
      repeat split; cbn [w_obs w_interval w_path w_sats]; try assumption.
      + intros. rewrite Hr. now apply (I4 sat s).
      + intros. rewrite Hr. now apply I5.
      + now destruct (I6 sat s out H H0).
      + destruct (I6 sat s out H H0) as [_ H1]. now rewrite Hr.
      + intros p' Hp. apply I7. intros sat Hs. apply Hp. now rewrite Hr.
    - intros E. destruct (Ho _ _ _ _ _ eq_refl) as [Ht Hs]. destruct (dict_get seqb sat (w_sats w)) as [s|] eqn:Es.
      + apply (write_data_inv done f w); try assumption. congruence.
      + apply (write_data_inv done f (update_satellite w sat sd nav)); try assumption.
        * now apply update_sat_inv.
        * unfold update_satellite. rewrite Es. cbn [w_sats]. rewrite sget_same. discriminate.
  Qed.
  Lemma do_ops_inv os : forall done f w f' w', winv done f w ->
    (forall s sd nav t q, In (WRow s sd nav t q) os -> dt_date t = d /\ no_slash s) ->
    do_ops c (f, w) os = Ok (f', w') -> winv (done ++ os) f' w'.
  Proof.
    induction os as [|o os IH]; intros done f w f' w' I Ho; cbn [do_ops].
    - intros E. injection E as <- <-. now rewrite app_nil_r.
    - destruct (do_op c (f, w) o) as [[f1 w1]|] eqn:E1; [|discriminate]. cbn [bind]. intros E.
      replace (done ++ o :: os) with ((done ++ [o]) ++ os) by (rewrite <- app_assoc; reflexivity).
      apply (IH (done ++ [o]) f1 w1); [|intros; apply (Ho s sd nav t q); now right|exact E].
      apply (do_op_inv done f w); [exact I| |exact E1]. intros s sd nav t q ->. apply (Ho s sd nav t q). now left.
  Qed.

  Lemma write_file_inv os f' : (forall s sd nav t q, In (WRow s sd nav t q) os -> dt_date t = d /\ no_slash s) ->
    write_file c f0 name iv os = Ok f' ->
    (forall sat, rows_of sat os <> [] -> exists content, fs_get (target sat) f' = Some content /\ file_of_rows c iv (rows_of sat os) content) /\
    (forall p, (forall sat, rows_of sat os <> [] -> p <> target sat) -> fs_get p f' = fs_get p f0).
  Proof.
    intros Ho. unfold write_file. destruct (do_ops c (f0, new_writer name iv) os) as [[f1 w1]|] eqn:E; [|discriminate]. cbn [bind].
    intros [= <-]. assert (I0 : winv [] f0 (new_writer name iv)).
    { repeat split; cbn; try reflexivity; try discriminate. }
    pose proof (do_ops_inv os [] f0 _ f1 w1 I0 Ho E) as I. cbn [app] in I. destruct I as (I1 & I2 & I3 & I4 & I5 & I6 & I7).
    split; [|exact I7]. intros sat Hr. destruct (dict_get seqb sat (w_sats w1)) as [s|] eqn:Es; [|exfalso; now apply Hr, I5].
    destruct (s_fout s) as [out|] eqn:Eo; [|exfalso; apply Hr; now apply (I4 sat s)].
    destruct (I6 sat s out Es Eo) as [-> H]. exact H.
  Qed.
End OneFile.

(** ** different sites, satellites and days have different files *)
Lemma split_slash a : forall b x y, no_slash a -> no_slash b -> a ++ "/"%char :: x = b ++ "/"%char :: y -> a = b /\ x = y.
Proof.
  induction a as [|c a IH]; intros [|c' b] x y Ha Hb E; cbn in E.
  - injection E as ->. auto.
  - injection E as <- _. exfalso. apply Hb. now left.
  - injection E as -> _. exfalso. apply Ha. now left.
  - injection E as <- E. destruct (IH b x y) as [-> ->]; try assumption; [intros H; apply Ha; now right|intros H; apply Hb; now right|]. auto.
Qed.
Lemma app_eq_len {A} (a b x y : list A) : List.length x = List.length y -> a ++ x = b ++ y -> a = b /\ x = y.
Proof.
  intros Hl E. assert (List.length a = List.length b). { apply (f_equal (@List.length A)) in E. rewrite !app_length in E. lia. }
  revert b H E. induction a as [|c a IH]; intros [|c' b] H E; cbn in *; try lia; [auto|].
  injection E as -> E. destruct (IH b ltac:(lia) E) as [-> ->]. auto.
Qed.
Lemma result_file_inj dir m m' sat sat' d d' : date_ok d -> date_ok d' -> no_slash m -> no_slash m' ->
  result_file dir m sat d = result_file dir m' sat' d' -> m = m' /\ sat = sat' /\ d = d'.
Proof.
  intros Hd Hd' Hm Hm' E. unfold result_file in E. apply app_inv_head in E.
  destruct (year_text_digits _ Hd) as [Y1 _]. destruct (year_text_digits _ Hd') as [Y1' _].
  destruct (yday_text_digits _ Hd) as [J1 _]. destruct (yday_text_digits _ Hd') as [J1' _].
  change (lit "/") with ["/"%char] in E. cbn [app] in E.
  apply split_slash in E; try (now apply digits_no_slash). destruct E as [E1 E].
  apply split_slash in E; try (now apply digits_no_slash). destruct E as [E2 E].
  apply split_slash in E; try assumption. destruct E as [E3 E].
  pose proof (date_text_inj d d' Hd Hd' E1 E2) as E4. subst m' d'. apply app_inv_head in E.
  apply (f_equal (skipn 1)) in E. cbn [skipn lit list_ascii_of_string app] in E.
  apply app_eq_len in E; [|reflexivity]. tauto.
Qed.

Lemma one_file c f name iv os f' d : date_ok d -> basename name <> [] -> all_of_day d os ->
  (forall s sd nav t q, In (WRow s sd nav t q) os -> no_slash s) ->
  write_file c f name iv os = Ok f' ->
  (forall sat, rows_of sat os <> [] -> exists content,
     fs_get (result_file (oc_dir c) (marker_of name) sat d) f' = Some content /\ file_of_rows c iv (rows_of sat os) content) /\
  (forall p, (forall sat, rows_of sat os <> [] -> p <> result_file (oc_dir c) (marker_of name) sat d) -> fs_get p f' = fs_get p f).
Proof.
  intros Hd Hb Ha Hs. apply write_file_inv; try assumption.
  - unfold marker_of. destruct (basename name); [congruence|discriminate].
  - intros s s' E. apply result_file_inj in E; try assumption; try apply marker_no_slash. tauto.
  - intros s sd nav t q H. split; [now apply (Ha s sd nav t q)|now apply (Hs s sd nav t q)].
Qed.

Definition job := (str * pynum * list wop)%type.
Definition job_ok (j : job) (d : date) : Prop :=
  date_ok d /\ basename (fst (fst j)) <> [] /\ all_of_day d (snd j) /\ (forall s sd nav t q, In (WRow s sd nav t q) (snd j) -> no_slash s).

Lemma other_jobs c js : forall f f' ds p, Forall2 job_ok js ds -> write_files c f js = Ok f' ->
  (forall i name iv os d sat, nth_error js i = Some (name, iv, os) -> nth_error ds i = Some d -> p <> result_file (oc_dir c) (marker_of name) sat d) ->
  fs_get p f' = fs_get p f.
Proof.
  induction js as [|[[name iv] os] js IH]; intros f f' ds p H E Hp; cbn [write_files] in E; [now injection E as <-|].
  inversion H as [|j d js' ds' Hj Hjs]; subst. destruct (write_file c f name iv os) as [f1|] eqn:E1; [|discriminate]. cbn [bind] in E.
  destruct Hj as [H1 [H2 [H3 H4]]]. destruct (one_file c f name iv os f1 d H1 H2 H3 H4 E1) as [_ Hf].
  rewrite (IH f1 f' ds' p Hjs E).
  - apply Hf. intros sat _. exact (Hp 0 name iv os d sat eq_refl eq_refl).
  - intros i n' iv' os' d' sat G1 G2. exact (Hp (S i) n' iv' os' d' sat G1 G2).
Qed.
Lemma all_files c js : forall f f' ds, Forall2 job_ok js ds -> write_files c f js = Ok f' ->
  (forall i j ji jj di dj, nth_error js i = Some ji -> nth_error js j = Some jj -> nth_error ds i = Some di -> nth_error ds j = Some dj ->
     i <> j -> marker_of (fst (fst ji)) <> marker_of (fst (fst jj)) \/ di <> dj) ->
  forall i name iv os d sat, nth_error js i = Some (name, iv, os) -> nth_error ds i = Some d -> rows_of sat os <> [] ->
    exists content, fs_get (result_file (oc_dir c) (marker_of name) sat d) f' = Some content /\ file_of_rows c iv (rows_of sat os) content.
Proof.
  induction js as [|[[name0 iv0] os0] js IH]; intros f f' ds H E Hdis i name iv os d sat Hi Hdi Hr; [destruct i; discriminate|].
  inversion H as [|j0 d0 js' ds' Hj Hjs]; subst. cbn [write_files] in E. destruct (write_file c f name0 iv0 os0) as [f1|] eqn:E1; [|discriminate]. cbn [bind] in E.
  destruct i as [|i]; cbn in Hi, Hdi.
  - injection Hi as -> -> ->. injection Hdi as ->. destruct Hj as [H1 [H2 [H3 H4]]].
    destruct (one_file c f name iv os f1 d H1 H2 H3 H4 E1) as [Hf _]. destruct (Hf sat Hr) as [content [G1 G2]]. exists content. split; [|exact G2].
    rewrite <- G1. apply (other_jobs c js f1 f' ds' _ Hjs E). intros i n' iv' os' d' sat' K1 K2 Eq.
    assert (Hd' : date_ok d').
    { clear -K1 K2 Hjs. revert i K1 K2. induction Hjs; intros [|i] K1 K2; try discriminate; cbn in *; [|now apply (IHHjs i)]. injection K1 as ->. injection K2 as ->. now destruct H. }
    apply result_file_inj in Eq; [|assumption|assumption|apply marker_no_slash|apply marker_no_slash].
    destruct (Hdis 0 (S i) _ _ d d' eq_refl K1 eq_refl K2 ltac:(lia)) as [G|G]; cbn in G; [now apply G|now apply G].
  - apply (IH f1 f' ds' Hjs E) with (i := i); try assumption.
    intros i' j' ji jj di dj K1 K2 K3 K4 Hne. apply (Hdis (S i') (S j') ji jj di dj K1 K2 K3 K4). lia.
Qed.

(** ** writing succeeds *)
Definition rows_ok (c : out_cfg) (iv : pynum) (os : list wop) : Prop :=
  forall s sd nav t q, In (WRow s sd nav t q) os -> exists r, row_text (oc_format c) (oc_strftime c) iv t q = Ok r.
Lemma latest_total d : d <> [] -> exists p, latest d = Ok p.
Proof. destruct d as [|[t p] d]; [congruence|]. intros _. eexists. reflexivity. Qed.
Lemma dict_set_nonnil {K V} (eqb : K -> K -> bool) k (v : V) d : dict_set eqb k v d <> [].
Proof. destruct d as [|[k' v'] d]; cbn; [discriminate|]. destruct (eqb k k'); discriminate. Qed.
Lemma do_ops_total c iv os : forall f w, w_interval w = iv -> w_xyz w <> [] -> w_lbh w <> [] -> rows_ok c iv os ->
  exists st, do_ops c (f, w) os = Ok st.
Proof.
  induction os as [|o os IH]; intros f w Hi Hx Hl Hr; cbn [do_ops]; [eexists; reflexivity|].
  assert (Hr' : rows_ok c iv os) by (intros s sd nav t q Hin; apply (Hr s sd nav t q); now right).
  destruct o as [t p l|sat sd nav t q].
  - cbn [do_op bind]. apply IH; try assumption; unfold update_lbh, update_xyz; cbn [w_interval w_xyz w_lbh]; try apply dict_set_nonnil.
  - destruct (Hr sat sd nav t q (or_introl eq_refl)) as [row Er]. cbn [do_op].
    set (w1 := match dict_get seqb sat (w_sats w) with Some _ => w | None => _ end).
    assert (H1 : w_interval w1 = iv /\ w_xyz w1 <> [] /\ w_lbh w1 <> [] /\ exists s, dict_get seqb sat (w_sats w1) = Some s).
    { unfold w1. destruct (dict_get seqb sat (w_sats w)) as [s|] eqn:Es.
      - repeat split; try assumption. eauto.
      - unfold update_satellite. cbn [w_interval w_xyz w_lbh w_sats]. repeat split; try assumption. rewrite sget_same. eauto. }
    clearbody w1. destruct H1 as [H1 [H2 [H3 [s Hs]]]]. unfold write_data. cbv zeta. cbn [w_sats w_obs w_interval w_xyz w_lbh w_path]. rewrite Hs. cbn [of_option bind].
    destruct (s_fout s) as [out|].
    + cbn [bind w_interval]. rewrite H1, Er. cbn [bind]. apply IH; cbn [w_interval w_xyz w_lbh]; try assumption; reflexivity.
    + unfold header_text at 1. cbn [w_xyz w_lbh]. destruct (latest_total _ H2) as [p ->]. destruct (latest_total _ H3) as [l ->]. cbn [bind w_interval].
      rewrite H1, Er. cbn [bind]. apply IH; cbn [w_interval w_xyz w_lbh]; try assumption; reflexivity.
Qed.
Lemma write_file_total c f name iv t p l os : rows_ok c iv os -> exists f', write_file c f name iv (WPos t p l :: os) = Ok f'.
Proof.
  intros Hr. unfold write_file. cbn [do_ops do_op bind].
  destruct (do_ops_total c iv os f (update_lbh (update_xyz (new_writer name iv) t p) t l)) as [[f' w'] ->]; try assumption; try reflexivity; try discriminate.
  cbn [bind]. eexists. reflexivity.
Qed.
