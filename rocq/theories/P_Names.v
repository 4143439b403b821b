(** Proofs about file names. *)
From Coq Require Import Reals.
From Verif Require Import Base PyStr PyFloat PyDate PyPath PyRegex P_Str P_Regex S_Text S_Time M_Header M_Names S_Names P_Out.
Open Scope nat_scope.

Lemma lower_c_fix c x : is_upper c = false -> is_lower c = false -> (lower_c x = c <-> x = c).
Proof.
  intros H1 H2. split.
  - unfold lower_c. destruct (is_upper x) eqn:E; [|auto]. intros <-. exfalso.
    unfold is_lower, is_upper, code in *. revert E H2. destruct x as [[] [] [] [] [] [] [] []]; vm_compute; congruence.
  - intros ->. unfold lower_c. now rewrite H1.
Qed.
Lemma ci_fix c x : is_upper c = false -> is_lower c = false -> (ci c x = true <-> x = c).
Proof.
  intros H1 H2. rewrite ci_eq. assert (E : lower_c c = c) by (unfold lower_c; now rewrite H1). rewrite E. now apply lower_c_fix.
Qed.
Lemma one_of_in cs x : existsb (fun c => ci c x) cs = true <-> In (lower_c x) (lower cs).
Proof.
  rewrite existsb_exists. unfold lower. rewrite in_map_iff. split.
  - intros [c [Hc Hx]]. apply ci_eq in Hx. exists c. auto.
  - intros [c [Hx Hc]]. exists c. split; [assumption|]. now apply ci_eq.
Qed.
Lemma digits_class s : digits s <-> Forall (fun c => is_digit c = true) s.
Proof. unfold digits. split; intros H; eapply Forall_impl; try exact H; intros c; apply digit_is_digit. Qed.
Lemma same_ci_digits a b : digits b -> (same_ci a b <-> a = b).
Proof.
  intros Hb. unfold same_ci. assert (E : lower b = b).
  { unfold lower. induction Hb as [|c b Hc Hb IH]; [reflexivity|]. cbn. rewrite lower_c_digit by now apply digit_is_digit. now rewrite IH. }
  split; [|now intros ->]. rewrite E. clear E. revert a. induction Hb as [|c b Hc Hb IH]; intros a H.
  - destruct a; [reflexivity|discriminate].
  - destruct a as [|x a]; [discriminate|]. cbn in H. injection H as H1 H2. f_equal; [|now apply IH].
    apply (lower_c_fix c x); [| |exact H1]; apply digit_is_digit in Hc; revert Hc; clear; destruct c as [[] [] [] [] [] [] [] []]; vm_compute; congruence.
Qed.
Lemma same_ci_text a b pos r : lang (text b) pos a r <-> same_ci a b.
Proof. apply lang_text. Qed.

Ltac und := unfold w_, d_, chr, one_of, opt in *.
Ltac split_lang := repeat match goal with
  | H : _ /\ _ |- _ => destruct H
  | H : exists _, _ |- _ => destruct H
  | H : lang (rep _ _) _ _ _ |- _ => apply lang_rep_chr in H
  | H : lang (text _) _ _ _ |- _ => apply lang_text in H
  | H : lang _ _ _ _ |- _ => progress cbn [cats lang] in H
  end; subst.
Ltac fixc := repeat match goal with
  | H : ci "."%char _ = true |- _ => apply ci_fix in H; [|reflexivity|reflexivity]; subst
  | H : ci "_"%char _ = true |- _ => apply ci_fix in H; [|reflexivity|reflexivity]; subst
  | H : existsb (fun c => ci c _) _ = true |- _ => apply one_of_in in H
  | H : ci _ _ = true |- _ => apply ci_eq in H
  end.

Lemma arch_lang a b pos : ~ In newline_c b -> (lang arch_ext pos a b <-> b = [] /\ exists p, arch a p).
Proof.
  intros Hb. unfold arch_ext. cbn [cats lang]. split.
  - intros [a1 [a2 [-> [H [-> [Hb2|Hb2]]]]]]; [|subst b; destruct Hb; now left]. split; [assumption|]. rewrite app_nil_r.
    destruct H as [H|[H|H]].
    + apply lang_text in H. exists true. now left.
    + apply lang_text in H. exists true. now right.
    + exists false. assumption.
  - intros [-> [p H]]. exists a, []. rewrite app_nil_r. split; [reflexivity|]. split.
    + destruct p; [destruct H as [H|H]|]; [left; now apply lang_text|right; left; now apply lang_text|right; right; exact H].
    + split; [reflexivity|now left].
Qed.

Lemma mm_digits s : In s [lit "00"; lit "15"; lit "30"; lit "45"] -> digits s.
Proof. intros H. apply digits_forallb. cbn in H. repeat (destruct H as [<-|H]; [reflexivity|]). destruct H. Qed.
Lemma mm_lang pos s r : lang (RAlt (text (lit "00")) (RAlt (text (lit "15")) (RAlt (text (lit "30")) (text (lit "45"))))) pos s r <->
  In s [lit "00"; lit "15"; lit "30"; lit "45"].
Proof.
  cbn [lang]. rewrite !lang_text. change (lower s = lower (lit "00")) with (same_ci s (lit "00")).
  change (lower s = lower (lit "15")) with (same_ci s (lit "15")). change (lower s = lower (lit "30")) with (same_ci s (lit "30")).
  change (lower s = lower (lit "45")) with (same_ci s (lit "45")).
  rewrite !same_ci_digits by (apply digits_forallb; reflexivity). cbn [In]. intuition congruence.
Qed.

Lemma od_letter x : In (lower_c x) (lower (lit "od")) <-> exists hat : bool, lower_c x = (if hat then "d"%char else "o"%char).
Proof.
  cbn. split.
  - intros [H|[H|[]]]; [exists false|exists true]; auto.
  - intros [[] H]; auto.
Qed.

Lemma fnmin_lang a b : lang fnmin_obs 0 a b <-> exists site ddd h mm yy t, a = site ++ ddd ++ (h :: mm) ++ lit "." ++ yy ++ [t] /\
  chars 4 site /\ word site /\ chars 3 ddd /\ digits ddd /\ In (lower_c h) (lit "abcdefghijklmnopqrstuvwx") /\
  In mm [lit "00"; lit "15"; lit "30"; lit "45"] /\ chars 2 yy /\ digits yy /\ exists hat : bool, lower_c t = (if hat then "d"%char else "o"%char).
Proof.
  unfold fnmin_obs. und. cbn [cats]. split.
  - cbn [lang]. intros H.
    destruct H as [a0 [? [-> [[-> _] [site [? [-> [H1 [ddd [? [-> [H2 [? [? [-> [[h [-> Hh]] [mm [? [-> [Hm H]]]]]]]]]]]]]]]]]]]].
    destruct H as [? [? [-> [[dot [-> Hd]] [yy [? [-> [Hy [t [-> Ht]]]]]]]]]].
    apply lang_rep_chr in H1. apply lang_rep_chr in H2. apply lang_rep_chr in Hy. apply mm_lang in Hm. fixc.
    exists site, ddd, h, mm, yy, t. rewrite !digits_class. destruct H1, H2, Hy. repeat split; try assumption.
    apply od_letter. assumption.
  - intros [site [ddd [h [mm [yy [t [-> [H1 [H2 [H3 [H4 [H5 [H6 [H7 [H8 H9]]]]]]]]]]]]]]].
    cbn [lang]. exists [], (site ++ ddd ++ (h :: mm) ++ lit "." ++ yy ++ [t]). split; [reflexivity|]. split; [auto|].
    eexists site, _. split; [reflexivity|]. split; [apply lang_rep_chr; auto|].
    eexists ddd, _. split; [reflexivity|]. split; [apply lang_rep_chr; split; [auto|now apply digits_class]|].
    exists [h], (mm ++ lit "." ++ yy ++ [t]). split; [reflexivity|]. split; [exists h; split; [reflexivity|now apply one_of_in]|].
    eexists mm, _. split; [reflexivity|]. split; [now apply mm_lang|].
    exists ["."%char], (yy ++ [t]). split; [reflexivity|]. split; [eexists; split; reflexivity|].
    exists yy, [t]. split; [reflexivity|]. split; [apply lang_rep_chr; split; [auto|now apply digits_class]|].
    exists t. split; [reflexivity|]. apply one_of_in. now apply od_letter.
Qed.

Lemma daily_lang a b : lang daily_obs 0 a b <-> exists site ddd h yy t, a = site ++ ddd ++ [h] ++ lit "." ++ yy ++ [t] /\
  chars 4 site /\ word site /\ chars 3 ddd /\ digits ddd /\ is_word h = true /\
  chars 2 yy /\ digits yy /\ exists hat : bool, lower_c t = (if hat then "d"%char else "o"%char).
Proof.
  unfold daily_obs. und. cbn [cats]. split.
  - cbn [lang]. intros H.
    destruct H as [a0 [? [-> [[-> _] [site [? [-> [H1 [ddd [? [-> [H2 [? [? [-> [[h [-> Hh]] H]]]]]]]]]]]]]]]].
    destruct H as [? [? [-> [[dot [-> Hd]] [yy [? [-> [Hy [t [-> Ht]]]]]]]]]].
    apply lang_rep_chr in H1. apply lang_rep_chr in H2. apply lang_rep_chr in Hy. fixc.
    exists site, ddd, h, yy, t. rewrite !digits_class. destruct H1, H2, Hy. repeat split; try assumption.
    apply od_letter. assumption.
  - intros [site [ddd [h [yy [t [-> [H1 [H2 [H3 [H4 [H5 [H7 [H8 H9]]]]]]]]]]]]].
    cbn [lang]. exists [], (site ++ ddd ++ [h] ++ lit "." ++ yy ++ [t]). split; [reflexivity|]. split; [auto|].
    eexists site, _. split; [reflexivity|]. split; [apply lang_rep_chr; auto|].
    eexists ddd, _. split; [reflexivity|]. split; [apply lang_rep_chr; split; [auto|now apply digits_class]|].
    exists [h], (lit "." ++ yy ++ [t]). split; [reflexivity|]. split; [exists h; auto|].
    exists ["."%char], (yy ++ [t]). split; [reflexivity|]. split; [eexists; split; reflexivity|].
    exists yy, [t]. split; [reflexivity|]. split; [apply lang_rep_chr; split; [auto|now apply digits_class]|].
    exists t. split; [reflexivity|]. apply one_of_in. now apply od_letter.
Qed.

Lemma modern_obs_lang a b : lang modern_obs 0 a b <-> exists site src start period freq sys o ext,
  a = site ++ lit "_" ++ [src] ++ lit "_" ++ start ++ lit "_" ++ period ++ lit "_" ++ freq ++ lit "_" ++ [sys] ++ [o] ++ lit "." ++ ext /\
  chars 9 site /\ word site /\ In (lower_c src) (lit "rsu") /\ chars 11 start /\ digits start /\
  chars 3 period /\ word period /\ chars 3 freq /\ word freq /\ is_word sys = true /\ lower_c o = "o"%char /\
  exists hat : bool, same_ci ext (if hat then lit "crx" else lit "rnx").
Proof.
  unfold modern_obs. und. cbn [cats]. split.
  - cbn [lang]. intros H.
    destruct H as [site [? [-> [H1 [? [? [-> [[u1 [-> U1]] [? [? [-> [[src [-> H2]] [? [? [-> [[u2 [-> U2]] H]]]]]]]]]]]]]]]].
    destruct H as [start [? [-> [H3 [? [? [-> [[u3 [-> U3]] [period [? [-> [H4 [? [? [-> [[u4 [-> U4]] H]]]]]]]]]]]]]]]].
    destruct H as [freq [? [-> [H5 [? [? [-> [[u5 [-> U5]] [? [? [-> [[sys [-> H6]] H]]]]]]]]]]]].
    destruct H as [? [? [-> [[o [-> H7]] [? [ext [-> [[dot [-> U6]] H8]]]]]]]].
    apply lang_rep_chr in H1. apply lang_rep_chr in H3. apply lang_rep_chr in H4. apply lang_rep_chr in H5.
    rewrite !lang_text in H8. fixc.
    exists site, src, start, period, freq, sys, o, ext. rewrite !digits_class. destruct H1, H3, H4, H5. repeat split; try assumption.
    destruct H8 as [H8|H8]; [exists true|exists false]; exact H8.
  - intros [site [src [start [period [freq [sys [o [ext [-> [H1 [H2 [H3 [H4 [H5 [H6 [H7 [H8 [H9 [H10 [H11 [hat H12]]]]]]]]]]]]]]]]]]]]].
    cbn [lang].
    eexists site, _. split; [reflexivity|]. split; [apply lang_rep_chr; auto|].
    eexists ["_"%char], _. split; [reflexivity|]. split; [eexists; split; reflexivity|].
    eexists [src], _. split; [reflexivity|]. split; [exists src; split; [reflexivity|now apply one_of_in]|].
    eexists ["_"%char], _. split; [reflexivity|]. split; [eexists; split; reflexivity|].
    eexists start, _. split; [reflexivity|]. split; [apply lang_rep_chr; split; [auto|now apply digits_class]|].
    eexists ["_"%char], _. split; [reflexivity|]. split; [eexists; split; reflexivity|].
    eexists period, _. split; [reflexivity|]. split; [apply lang_rep_chr; auto|].
    eexists ["_"%char], _. split; [reflexivity|]. split; [eexists; split; reflexivity|].
    eexists freq, _. split; [reflexivity|]. split; [apply lang_rep_chr; auto|].
    eexists ["_"%char], _. split; [reflexivity|]. split; [eexists; split; reflexivity|].
    eexists [sys], _. split; [reflexivity|]. split; [exists sys; auto|].
    eexists [o], _. split; [reflexivity|]. split; [exists o; split; [reflexivity|now apply ci_eq]|].
    eexists ["."%char], _. split; [reflexivity|]. split; [eexists; split; reflexivity|].
    rewrite !lang_text. destruct hat; [left|right]; exact H12.
Qed.

Lemma base_lang a : (exists hat, obs_base a hat) <-> forall b, lang fnmin_obs 0 a b \/ lang daily_obs 0 a b \/ lang modern_obs 0 a b.
Proof.
  split.
  - intros [hat H] b. rewrite fnmin_lang, daily_lang, modern_obs_lang. destruct H as [site ddd h yy t hat H1 H2 H3 H4 H5 H6 H7 H8|site src start period freq sys o ext hat H1 H2 H3 H4 H5 H6 H7 H8 H9 H10 H11 H12].
    + destruct H5 as [[H5 H5']|[h0 [mm [-> [Hh Hm]]]]].
      * right. left. destruct h as [|h0 [|? ?]]; try discriminate. inversion H5'; subst. exists site, ddd, h0, yy, t. repeat split; try assumption. exists hat; assumption.
      * left. exists site, ddd, h0, mm, yy, t. repeat split; try assumption. exists hat; assumption.
    + right. right. exists site, src, start, period, freq, sys, o, ext. repeat split; try assumption. exists hat; assumption.
  - intros H. specialize (H []). rewrite fnmin_lang, daily_lang, modern_obs_lang in H. destruct H as [H|[H|H]].
    + destruct H as [site [ddd [h [mm [yy [t [-> [H1 [H2 [H3 [H4 [H5 [H6 [H7 [H8 [hat H9]]]]]]]]]]]]]]]].
      exists hat. constructor; try assumption. right. exists h, mm. auto.
    + destruct H as [site [ddd [h [yy [t [-> [H1 [H2 [H3 [H4 [H5 [H7 [H8 [hat H9]]]]]]]]]]]]]].
      exists hat. constructor; try assumption. left. split; [reflexivity|]. repeat constructor. assumption.
    + destruct H as [site [src [start [period [freq [sys [o [ext [-> [H1 [H2 [H3 [H4 [H5 [H6 [H7 [H8 [H9 [H10 [H11 [hat H12]]]]]]]]]]]]]]]]]]]]].
      exists hat. constructor; assumption.
Qed.
Lemma base_lang_any a b : lang fnmin_obs 0 a b \/ lang daily_obs 0 a b \/ lang modern_obs 0 a b -> exists hat, obs_base a hat.
Proof. intros H. apply base_lang. intros b'. rewrite fnmin_lang, daily_lang, modern_obs_lang in *. exact H. Qed.

(** RE_OBS *)
Lemma re_obs_ok name : ~ In newline_c name ->
  (re_test RE_OBS name = true <-> exists base ext hat packed, name = base ++ ext /\ obs_base base hat /\ arch ext packed).
Proof.
  intros Hn. rewrite re_test_lang. unfold RE_OBS. split.
  - intros [a [b [-> H]]]. assert (Hb : ~ In newline_c b) by (intros HI; apply Hn, in_or_app; auto). cbn [lang] in H.
    assert (H' : exists a1 a2, a = a1 ++ a2 /\ (lang fnmin_obs 0 a1 (a2 ++ b) \/ lang daily_obs 0 a1 (a2 ++ b) \/ lang modern_obs 0 a1 (a2 ++ b)) /\ lang arch_ext (0 + List.length a1) a2 b).
    { destruct H as [H|[H|H]]; destruct H as [a1 [a2 [-> [L1 L2]]]]; exists a1, a2; auto. }
    destruct H' as [a1 [a2 [-> [L1 L2]]]]. apply arch_lang in L2; [|assumption]. destruct L2 as [-> [p Hp]].
    rewrite app_nil_r in *. apply base_lang_any in L1. destruct L1 as [hat L1]. exists a1, a2, hat, p. auto.
  - intros [base [ext [hat [packed [-> [H1 H2]]]]]]. exists (base ++ ext), []. rewrite app_nil_r. split; [reflexivity|].
    assert (HA : lang arch_ext (0 + List.length base) ext []) by (apply arch_lang; [intros []|eauto]).
    cbn [lang]. destruct (proj1 (base_lang base) (ex_intro _ hat H1) (ext ++ [])) as [L|[L|L]]; [left|right; left|right; right]; exists base, ext; auto.
Qed.
