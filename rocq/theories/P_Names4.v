(** Proofs about navigation file names and decoding. *)
From Coq Require Import Reals.
From Verif Require Import Base PyStr PyFloat PyDate PyPath PyRegex P_Str P_Float P_Regex S_Text S_Time P_Date M_Header M_Names S_Names S_Out P_Out P_Names P_Names2 P_Names3.
Open Scope nat_scope.

Lemma dec_value_inj a : forall b, digits a -> digits b -> List.length a = List.length b -> dec_value a = dec_value b -> a = b.
Proof.
  induction a as [|c a IH]; intros [|c' b] Da Db L E; try discriminate; [reflexivity|].
  inversion Da; subst. inversion Db; subst. cbn in L. injection L as L. cbn [dec_value] in E. rewrite L in E.
  pose proof (dec_value_nonneg a ltac:(assumption)). pose proof (dec_value_bound a ltac:(assumption)) as Ba. rewrite L in Ba.
  pose proof (dec_value_nonneg b ltac:(assumption)). pose proof (dec_value_bound b ltac:(assumption)).
  assert (E1 : dig c = dig c') by nia. assert (E2 : dec_value a = dec_value b) by nia.
  rewrite (IH b) by assumption. f_equal. unfold dig in E1. 
  assert (H6 : nat_of_ascii c = nat_of_ascii c') by lia.
  rewrite <- (ascii_nat_embedding c), <- (ascii_nat_embedding c'). now rewrite H6.
Qed.
Lemma text_num k n pos a b : (0 <= n < 10 ^ Z.of_nat k)%Z -> 0 < k ->
  (lang (text (fmt_0d k n)) pos a b <-> chars k a /\ digits a /\ dec_value a = n).
Proof.
  intros Hn Hk. rewrite lang_text. fold (same_ci a (fmt_0d k n)). unfold fmt_0d. replace (n <? 0)%Z with false by lia.
  destruct (pad_left_digits k n Hn Hk) as [H1 [H2 H3]]. rewrite same_ci_digits by exact H1. unfold chars. split.
  - intros ->. auto.
  - intros [L [D V]]. apply dec_value_inj; try assumption; congruence.
Qed.
Lemma year_text_num y pos a b : (1000 <= y <= 9999)%Z ->
  (lang (text (z_str y)) pos a b <-> chars 4 a /\ digits a /\ dec_value a = y).
Proof.
  intros Hy. rewrite z_str_nat by lia. rewrite <- (text_num 4 y pos a b); [|cbn; lia|lia].
  replace (fmt_0d 4 y) with (nat_str y); [reflexivity|]. unfold fmt_0d. replace (y <? 0)%Z with false by lia.
  unfold pad_left. destruct (nat_str_spec y) as [H1 [H2 [H3 H4]]]; [lia|].
  assert (L : 4 <= List.length (nat_str y)).
  { destruct (le_lt_dec 4 (List.length (nat_str y))) as [L|L]; [exact L|exfalso].
    pose proof (dec_value_bound _ H1) as B. rewrite H3 in B.
    assert (10 ^ Z.of_nat (List.length (nat_str y)) <= 10 ^ 3)%Z by (apply Z.pow_le_mono_r; lia). lia. }
  replace (4 - List.length (nat_str y)) with 0 by lia. reflexivity.
Qed.
Ltac flat_app := repeat first [progress cbn [app] | rewrite <- app_assoc]; reflexivity.
Lemma doy_ok t : epoch_ok t -> (0 <= day_of_year (dy t) (dmo t) (dd t) < 10 ^ Z.of_nat 3)%Z.
Proof. intros [_ H]. apply doy_range in H. cbn. lia. Qed.

Lemma classic_nav_lang t l name : epoch_ok t -> (re_test (classic_nav t l) name = true <->
  exists site ddd h yy x rest, name = site ++ ddd ++ [h] ++ lit "." ++ yy ++ [x] ++ rest /\
    chars 4 site /\ word site /\ chars 3 ddd /\ digits ddd /\ dec_value ddd = day_of_year (dy t) (dmo t) (dd t) /\ is_word h = true /\
    chars 2 yy /\ digits yy /\ dec_value yy = (dy t mod 100)%Z /\ lower_c x = lower_c l).
Proof.
  intros Ht. pose proof (doy_ok t Ht) as Hj. assert (Hy : (0 <= dy t mod 100 < 10 ^ Z.of_nat 2)%Z) by (cbn; apply Z.mod_pos_bound; lia).
  rewrite re_test_lang. unfold classic_nav, strf_j, strf_y. und. cbn [cats lang]. split.
  - intros [a [b [-> H]]].
    destruct H as [? [? [-> [[-> _] H]]]].
    destruct H as [site [? [-> [H1 H]]]].
    destruct H as [ddd [? [-> [H2 H]]]].
    destruct H as [? [? [-> [[h [-> H3]] H]]]].
    destruct H as [? [? [-> [[dot [-> H4]] H]]]].
    destruct H as [yy [? [-> [H5 [x [-> H6]]]]]].
    apply lang_rep_chr in H1. rewrite text_num in H2 by (try assumption; lia). rewrite text_num in H5 by (try assumption; lia).
    apply ci_eq in H6. apply ci_fix in H4; [|reflexivity|reflexivity]. subst dot.
    exists site, ddd, h, yy, x, b. destruct H1 as [? ?]. destruct H2 as [? [? ?]]. destruct H5 as [? [? ?]].
    repeat split; try assumption. cbn [app]. rewrite <- !app_assoc. cbn [app]. rewrite <- !app_assoc. reflexivity.
  - intros [site [ddd [h [yy [x [rest [-> [H1 [H2 [H3 [H4 [H5 [H6 [H7 [H8 [H9 H10]]]]]]]]]]]]]]]].
    exists (site ++ ddd ++ [h] ++ lit "." ++ yy ++ [x]), rest. split; [now rewrite <- !app_assoc|].
    exists [], (site ++ ddd ++ [h] ++ lit "." ++ yy ++ [x]). split; [reflexivity|]. split; [auto|].
    eexists site, _. split; [reflexivity|]. split; [apply lang_rep_chr; auto|].
    eexists ddd, _. split; [reflexivity|]. split; [apply text_num; auto|].
    eexists [h], _. split; [reflexivity|]. split; [eauto|].
    eexists (lit "."), _. split; [reflexivity|]. split; [eexists; split; reflexivity|].
    eexists yy, [x]. split; [reflexivity|]. split; [apply text_num; auto|]. exists x. split; [reflexivity|]. now apply ci_eq.
Qed.
Lemma modern_nav_lang t sys name : epoch_ok t -> (re_test (modern_nav t sys) name = true <-> modern_nav_name name (dy t) (day_of_year (dy t) (dmo t) (dd t)) sys).
Proof.
  intros Ht. pose proof (doy_ok t Ht) as Hj. pose proof (proj1 Ht) as Hy.
  rewrite re_test_lang. unfold modern_nav, strf_j, strf_Y, modern_nav_name. und. cbn [cats lang]. split.
  - intros [a [b [-> H]]].
    destruct H as [? [? [-> [[-> _] H]]]].
    destruct H as [s1 [? [-> [H1 H]]]].
    destruct H as [s2 [? [-> [H2 H]]]].
    destruct H as [? [? [-> [[u1 [-> H3]] H]]]].
    destruct H as [? [? [-> [[src [-> H4]] H]]]].
    destruct H as [? [? [-> [[u2 [-> H5]] H]]]].
    destruct H as [yyyy [? [-> [H6 H]]]].
    destruct H as [ddd [? [-> [H7 H]]]].
    destruct H as [hhmm [? [-> [H8 H]]]].
    destruct H as [? [? [-> [[u3 [-> H9]] H]]]].
    destruct H as [period [? [-> [H10 H]]]].
    destruct H as [freq [? [-> [H11 H]]]].
    destruct H as [? [? [-> [[u4 [-> H12]] H]]]].
    destruct H as [? [? [-> [[sy [-> H13]] H]]]].
    destruct H as [? [? [-> [[nn [-> H14]] H]]]].
    destruct H as [? [ext [-> [[dot [-> H15]] H16]]]].
    apply lang_rep_chr in H1, H2, H8, H10. rewrite year_text_num in H6 by assumption. rewrite text_num in H7 by (try assumption; lia).
    apply ci_fix in H3; [|reflexivity|reflexivity]. apply ci_fix in H5; [|reflexivity|reflexivity]. apply ci_fix in H9; [|reflexivity|reflexivity].
    apply ci_fix in H12; [|reflexivity|reflexivity]. apply ci_fix in H15; [|reflexivity|reflexivity]. subst u1 u2 u3 u4 dot.
    apply ci_eq in H13. apply ci_eq in H14. apply lang_text in H16.
    exists (s1 ++ s2), src, yyyy, ddd, hhmm, period, freq, sy, nn, ext, b. rewrite (digits_class hhmm).
    destruct H1, H2, H8, H10. destruct H6 as [? [? ?]]. destruct H7 as [? [? ?]]. unfold chars in *. rewrite app_length.
    repeat split; try assumption; try lia.
    + flat_app.
    + now apply word_app.
    + destruct H11 as [H11|H11]; [right|now left]. destruct H11 as [? [f [-> [[u [-> Hu]] Hf]]]]. apply lang_rep_chr in Hf.
      apply ci_fix in Hu; [|reflexivity|reflexivity]. subst u. exists f. cbn. destruct Hf. auto.
  - intros [site [src [yyyy [ddd [hhmm [period [freq [sy [nn [ext [rest [-> H]]]]]]]]]]]].
    destruct H as [H1 [H2 [H3 [H4 [H5 [H6 [H7 [H8 [H9 [H10 [H11 [H12 [H13 [H14 [H15 [H16 H17]]]]]]]]]]]]]]]].
    exists (site ++ lit "_" ++ [src] ++ lit "_" ++ yyyy ++ ddd ++ hhmm ++ lit "_" ++ period ++ freq ++ lit "_" ++ [sy] ++ [nn] ++ lit "." ++ ext), rest.
    split; [now rewrite <- !app_assoc|]. eexists [], _. split; [reflexivity|]. split; [auto|].
    unfold chars in *.
    assert (W : word (firstn 4 site) /\ word (skipn 4 site)) by (apply word_app; rewrite firstn_skipn; assumption). destruct W as [W1 W2].
    exists (firstn 4 site), (skipn 4 site ++ lit "_" ++ [src] ++ lit "_" ++ yyyy ++ ddd ++ hhmm ++ lit "_" ++ period ++ freq ++ lit "_" ++ [sy] ++ [nn] ++ lit "." ++ ext).
    split; [rewrite (app_assoc (firstn 4 site)), firstn_skipn; reflexivity|].
    split; [apply lang_rep_chr; split; [rewrite firstn_length; lia|assumption]|].
    eexists (skipn 4 site), _. split; [reflexivity|]. split; [apply lang_rep_chr; split; [rewrite skipn_length; lia|assumption]|].
    eexists (lit "_"), _. split; [reflexivity|]. split; [eexists; split; reflexivity|].
    eexists [src], _. split; [reflexivity|]. split; [eauto|].
    eexists (lit "_"), _. split; [reflexivity|]. split; [eexists; split; reflexivity|].
    eexists yyyy, _. split; [reflexivity|]. split; [apply year_text_num; auto|].
    eexists ddd, _. split; [reflexivity|]. split; [apply text_num; auto; lia|].
    eexists hhmm, _. split; [reflexivity|]. split; [apply lang_rep_chr; split; [assumption|now apply digits_class]|].
    eexists (lit "_"), _. split; [reflexivity|]. split; [eexists; split; reflexivity|].
    eexists period, _. split; [reflexivity|]. split; [apply lang_rep_chr; auto|].
    eexists freq, _. split; [reflexivity|]. split.
    { destruct H14 as [->|[f [-> [L F]]]]; [now right|left]. exists (lit "_"), f. split; [reflexivity|]. split; [eexists; split; reflexivity|]. apply lang_rep_chr; auto. }
    eexists (lit "_"), _. split; [reflexivity|]. split; [eexists; split; reflexivity|].
    eexists [sy], _. split; [reflexivity|]. split; [exists sy; split; [reflexivity|]; now apply ci_eq|].
    eexists [nn], _. split; [reflexivity|]. split; [exists nn; split; [reflexivity|]; now apply ci_eq|].
    eexists (lit "."), ext. split; [reflexivity|]. split; [eexists; split; reflexivity|]. now apply lang_text.
Qed.
Lemma re_test_alt a b name : re_test (RAlt a b) name = true <-> re_test a name = true \/ re_test b name = true.
Proof. rewrite !re_test_lang. cbn [lang]. firstorder eauto. Qed.

Lemma nav_re_ok t sys name : epoch_ok t -> supported_nav sys ->
  let n := day_of_year (dy t) (dmo t) (dd t) in
  (re_test (compose_navigation_re sys t) name = true <->
   (exists l, nav_letter sys l /\ classic_nav_name name (dy t) n l) \/ modern_nav_name name (dy t) n sys).
Proof.
  intros Ht Hs n.
  assert (K : nav_id sys = None /\ (forall l, ~ nav_letter sys l) \/ exists l, nav_id sys = Some l /\ lower_c l = l /\ forall l', nav_letter sys l' <-> l' = l).
  { unfold nav_letter. cbn in Hs. repeat (destruct Hs as [<-|Hs]; [|]); [..|destruct Hs];
    (left; split; [reflexivity|intros l Hl; cbn in Hl; intuition congruence]) || (right; eexists; split; [reflexivity|]; split; [reflexivity|]; intros l'; cbn; intuition congruence). }
  unfold compose_navigation_re. destruct K as [[-> K]|[l [-> [El K]]]].
  - rewrite modern_nav_lang by assumption. fold n. split; [auto|]. intros [[l [Hl _]]|H]; [now apply K in Hl|exact H].
  - rewrite re_test_alt, classic_nav_lang, modern_nav_lang by assumption. fold n. rewrite El. split.
    + intros [H|H]; [left; exists l; split; [now apply K|exact H]|now right].
    + intros [[l' [Hl H]]|H]; [left; apply K in Hl; subst; exact H|now right].
Qed.
Lemma find_nav_ok ls paths t sys f : epoch_ok t -> supported_nav sys ->
  let n := day_of_year (dy t) (dmo t) (dd t) in
  (In f (find_nav_files ls paths t sys) <-> exists d name, In d paths /\ In name (ls d) /\ f = path_join d name /\
   ((exists l, nav_letter sys l /\ classic_nav_name name (dy t) n l) \/ modern_nav_name name (dy t) n sys)).
Proof.
  intros Ht Hs n. unfold find_nav_files, find_files. rewrite in_flat_map. split.
  - intros [d [Hd H]]. apply in_map_iff in H. destruct H as [name [<- H]]. apply filter_In in H. destruct H as [H1 H2].
    apply nav_re_ok in H2; try assumption. exists d, name. auto.
  - intros [d [name [Hd [Hn [-> H]]]]]. exists d. split; [assumption|]. apply in_map. apply filter_In. split; [assumption|].
    apply nav_re_ok; assumption.
Qed.

(** decoding *)
Lemma byte_lines_concat s : forall cur, concat (byte_lines_acc cur s) = rev cur ++ s.
Proof.
  induction s as [|c s IH]; intros cur; cbn [byte_lines_acc].
  - destruct cur; cbn [concat]; now rewrite ?app_nil_r.
  - destruct (ceqb c newline_c).
    + cbn [concat]. rewrite IH. cbn [rev app]. now rewrite <- app_assoc.
    + rewrite IH. cbn [rev]. now rewrite <- app_assoc.
Qed.
Lemma decode_concat ls : concat (map decode_ignore ls) = decode_ignore (concat ls).
Proof. induction ls as [|l ls IH]; [reflexivity|]. cbn. unfold decode_ignore in *. rewrite filter_app. now rewrite IH. Qed.
Lemma write_ascii_ok s : write_ascii_lines (byte_lines s) = filter is_ascii s.
Proof. unfold write_ascii_lines, byte_lines. rewrite decode_concat, byte_lines_concat. reflexivity. Qed.
