(** Proofs about decompression and file dates. *)
From Coq Require Import Reals.
From Verif Require Import Base PyStr PyFloat PyDate PyPath PyRegex P_Str P_Regex S_Text S_Time P_Date M_Header M_Names S_Names S_Out P_Out P_Names.
Open Scope nat_scope.

Lemma app_cut {A} (a u : list A) x b v : a ++ x :: b = u ++ v ->
  (exists b', u = a ++ x :: b' /\ b = b' ++ v) \/ (exists a', a = u ++ a' /\ v = a' ++ x :: b).
Proof.
  revert u. induction a as [|c a IH]; intros u E.
  - destruct u as [|y u]; [right; exists []; auto|]. cbn in E. injection E as -> ->. left. exists u. auto.
  - destruct u as [|y u]; [right; exists (c :: a); auto|]. cbn in E. injection E as -> E. apply IH in E.
    destruct E as [[b' [-> ->]]|[a' [-> ->]]]; [left; exists b'; auto|right; exists a'; auto].
Qed.

Definition ext3 (x : str) (hat : bool) : Prop :=
  same_ci x (if hat then lit "crx" else lit "rnx") \/
  exists a b c, x = [a; b; c] /\ digit a /\ digit b /\ lower_c c = (if hat then "d"%char else "o"%char).

Lemma word_no c s : word s -> is_word c = false -> ~ In c s.
Proof. intros H Hc HI. unfold word in H. rewrite Forall_forall in H. apply H in HI. congruence. Qed.
Lemma digit_word c : digit c -> is_word c = true.
Proof. intros H. apply digit_is_digit in H. unfold is_word. rewrite H. now rewrite ?orb_true_r. Qed.
Lemma digits_word s : digits s -> word s.
Proof. intros H. eapply Forall_impl; [|exact H]. intros c. apply digit_word. Qed.
Lemma lower_word c : is_word (lower_c c) = is_word c.
Proof. destruct c as [[] [] [] [] [] [] [] []]; reflexivity. Qed.
Lemma lower_word_s s : word (lower s) <-> word s.
Proof.
  unfold word, lower. rewrite Forall_map. split; intros H; eapply Forall_impl; try exact H; intros c; cbn; rewrite lower_word; auto.
Qed.
Lemma same_ci_word a b : same_ci a b -> word b -> word a.
Proof. intros H Hb. apply lower_word_s. unfold same_ci in H. rewrite H. now apply lower_word_s. Qed.
Lemma same_ci_len a b : same_ci a b -> List.length a = List.length b.
Proof. intros H. apply (f_equal (@List.length ascii)) in H. unfold lower in H. now rewrite !map_length in H. Qed.
Lemma lit_word (s : str) : forallb is_word s = true -> word s.
Proof. intros H. apply Forall_forall. apply forallb_forall. exact H. Qed.
Lemma In_lower_word c l : In (lower_c c) l -> word l -> is_word c = true.
Proof. intros H Hl. rewrite <- lower_word. unfold word in Hl. rewrite Forall_forall in Hl. now apply Hl. Qed.
Lemma word_app a b : word (a ++ b) <-> word a /\ word b.
Proof. apply Forall_app. Qed.

Lemma ext3_word x hat : ext3 x hat -> word x /\ List.length x = 3.
Proof.
  intros [H|[a [b [c [-> [Ha [Hb Hc]]]]]]].
  - split; [|destruct hat; now apply same_ci_len in H].
    eapply same_ci_word; [exact H|]. destruct hat; now apply lit_word.
  - split; [|reflexivity]. constructor; [now apply digit_word|]. constructor; [now apply digit_word|]. constructor; [|constructor].
    rewrite <- lower_word, Hc. now destruct hat.
Qed.
Lemma ext3_excl x : ext3 x true -> ext3 x false -> False.
Proof.
  intros [H1|[a [b [c [-> [Ha [Hb Hc]]]]]]] [H2|[a' [b' [c' [E [Ha' [Hb' Hc']]]]]]].
  - unfold same_ci in *. rewrite H1 in H2. discriminate.
  - subst x. unfold same_ci in H1. cbn in H1. injection H1 as H1 _ _. rewrite lower_c_digit in H1 by now apply digit_is_digit.
    subst a'. apply digit_is_digit in Ha'. discriminate.
  - unfold same_ci in H2. cbn in H2. injection H2 as H1 _ _. rewrite lower_c_digit in H1 by now apply digit_is_digit.
    subst a. apply digit_is_digit in Ha. discriminate.
  - injection E as <- <- <-. rewrite Hc in Hc'. discriminate.
Qed.

Lemma obs_base_parts base hat : obs_base base hat ->
  exists stem x, base = stem ++ "."%char :: x /\ word stem /\ ext3 x hat.
Proof.
  intros H. destruct H as [site ddd h yy t hat H1 H2 H3 H4 H5 H6 H7 H8|site src start period freq sys o ext hat H1 H2 H3 H4 H5 H6 H7 H8 H9 H10 H11 H12].
  - exists (site ++ ddd ++ h), (yy ++ [t]). split; [rewrite <- !app_assoc; reflexivity|]. split.
    + apply word_app. split; [assumption|]. apply word_app. split; [now apply digits_word|].
      destruct H5 as [[_ H5]|[h0 [mm [-> [Hh Hm]]]]]; [assumption|]. constructor.
      * eapply In_lower_word; [exact Hh|]. now apply lit_word.
      * apply digits_word. now apply mm_digits.
    + right. destruct yy as [|a [|b [|? ?]]]; try discriminate. inversion H7 as [|? ? Ha Hr]; subst. inversion Hr; subst.
      exists a, b, t. auto.
  - exists (site ++ lit "_" ++ [src] ++ lit "_" ++ start ++ lit "_" ++ period ++ lit "_" ++ freq ++ lit "_" ++ [sys] ++ [o]), ext.
    split; [rewrite <- !app_assoc; reflexivity|]. split; [|now left].
    assert (U : word (lit "_")) by now apply lit_word.
    assert (S1 : word [src]) by (constructor; [eapply In_lower_word; [exact H3|now apply lit_word]|constructor]).
    assert (S2 : word [sys]) by (constructor; [assumption|constructor]).
    assert (S3 : word [o]) by (constructor; [rewrite <- lower_word, H11; reflexivity|constructor]).
    repeat (apply word_app; split); try assumption. now apply digits_word.
Qed.

Lemma arch_parts ext packed : arch ext packed -> ext = [] /\ packed = false \/
  (packed = true /\ exists z, ext = "."%char :: z /\ word z /\ List.length z <= 2 /\ (same_ci z (lit "z") \/ same_ci z (lit "gz"))).
Proof.
  destruct packed; cbn [arch].
  - intros H. right. split; [reflexivity|].
    assert (D : exists z, ext = "."%char :: z /\ (same_ci z (lit "z") \/ same_ci z (lit "gz"))).
    { destruct H as [H|H]; destruct ext as [|c z]; try discriminate; unfold same_ci in H; cbn [lower map lit list_ascii_of_string] in H;
        injection H as Hc Hz; apply (lower_c_fix "."%char c) in Hc; try reflexivity; subst c; exists z; (split; [reflexivity|]); [left|right]; exact Hz. }
    destruct D as [z [-> D]]. exists z. repeat split; try assumption.
    + destruct D as [D|D]; (eapply same_ci_word; [exact D|now apply lit_word]).
    + destruct D as [D|D]; apply same_ci_len in D; rewrite D; cbn; lia.
  - intros ->. now left.
Qed.

(** where the pattern of an extension occurs in a path *)

Lemma ext_in_path dir base ext hat packed path p y q h : obs_base base hat -> arch ext packed ->
  path_of dir (base ++ ext) path -> clean_dir dir ->
  path = p ++ "."%char :: y ++ q -> ext3 y h -> h = hat.
Proof.
  intros Hb Ha Hp Hd E Hy. destruct (obs_base_parts base hat Hb) as [stem [x [-> [Hs Hx]]]].
  destruct (ext3_word y h Hy) as [Wy Ly]. destruct (ext3_word x hat Hx) as [Wx Lx].
  assert (Hname : forall p0, (stem ++ "."%char :: x) ++ ext = p0 ++ "."%char :: y ++ q -> h = hat).
  { intros p0 E0. rewrite <- app_assoc in E0. symmetry in E0. apply app_cut in E0. destruct E0 as [[b' [E1 _]]|[a' [E1 E2]]].
    - exfalso. apply (word_no "."%char stem Hs eq_refl). rewrite E1. apply in_or_app. right. now left.
    - destruct a' as [|c a']; cbn in E2.
      + injection E2 as E2. assert (y = x /\ q = ext) as [-> ->].
        { clear - E2 Ly Lx. revert E2. destruct y as [|y1 [|y2 [|y3 [|? ?]]]]; try discriminate. destruct x as [|x1 [|x2 [|x3 [|? ?]]]]; try discriminate.
          cbn. intros [= -> -> -> ->]. auto. }
        destruct h, hat; try reflexivity; exfalso; eapply ext3_excl; eassumption.
      + injection E2 as <- E2. exfalso. symmetry in E2.
        apply app_cut in E2. destruct E2 as [[b' [E3 _]]|[a2 [-> E3]]].
        * apply (word_no "."%char x Wx eq_refl). rewrite E3. apply in_or_app. right. now left.
        * destruct (arch_parts ext packed Ha) as [[-> _]|[_ [z [-> [Wz [Lz _]]]]]]; [destruct a2; discriminate|].
          destruct a2 as [|c a2]; cbn in E3.
          -- injection E3 as E3. apply (f_equal (@List.length ascii)) in E3. rewrite app_length in E3. unfold str in *. lia.
          -- injection E3 as <- E3. apply (word_no "."%char z Wz eq_refl). rewrite E3. apply in_or_app. right. now left. }
  destruct Hp as [->| ->]; [now apply (Hname p)|].
  symmetry in E. apply app_cut in E. destruct E as [[b' [-> E2]]|[a' [-> E2]]].
  - exfalso. assert (exists v, b' = y ++ v) as [v ->].
    {
      assert (L : List.length y <= List.length b' \/ List.length b' < List.length y) by lia. destruct L as [L|L].
      - exists (skipn (List.length y) b'). rewrite <- (firstn_skipn (List.length y) b') at 1. f_equal.
        apply (f_equal (firstn (List.length y))) in E2. rewrite firstn_app_exact in E2 by reflexivity. symmetry. etransitivity; [exact E2|].
        rewrite firstn_app. replace (List.length y - List.length b') with 0 by lia. cbn. now rewrite app_nil_r.
      - exfalso. apply (word_no "/"%char y Wy eq_refl).
        apply (f_equal (fun l => nth_error l (List.length b'))) in E2. rewrite nth_error_app1 in E2 by lia.
        rewrite nth_error_app2 in E2 by lia. rewrite Nat.sub_diag in E2. cbn in E2. now apply nth_error_In in E2. }
    destruct (Hd p y v eq_refl) as [D1 [D2 D3]]. destruct Hy as [Hy|[a [b [c [-> [Da [Db Dc]]]]]]].
    + destruct h; contradiction.
    + destruct (D3 a b c eq_refl Da Db) as [N1 N2]. destruct h; contradiction.
  - destruct a' as [|c a']; cbn in E2; [discriminate|]. injection E2 as <- E2. now apply (Hname a').
Qed.

Definition RE_EXT (hat : bool) : re := if hat then RE_CRX else RE_RNX.
Lemma re_ext_lang h path : re_test (RE_EXT h) path = true <->
  exists p y q, path = p ++ "."%char :: y ++ q /\ ext3 y h /\ ~ In newline_c p.
Proof.
  assert (Hany : forall p, Forall (fun c => any c = true) p <-> ~ In newline_c p).
  { intros p. rewrite Forall_forall. unfold any. split.
    - intros H HI. apply H in HI. now rewrite ceqb_refl in HI.
    - intros H x Hx. apply negb_true_iff. destruct (ceqb x newline_c) eqn:E; [apply ceqb_eq in E; subst; contradiction|reflexivity]. }
  rewrite re_test_lang. destruct h; cbn [RE_EXT]; unfold RE_CRX, RE_RNX; und; cbn [cats lang]; split.
  - intros [a [b [-> H]]]. destruct H as [p [? [-> [Hp [? [y [-> [[dot [-> Hdot]] H]]]]]]]]. fixc. apply Hany in Hp.
    exists p, y, b. rewrite <- !app_assoc. split; [reflexivity|]. split; [|assumption]. destruct H as [H|H].
    + destruct H as [? [? [-> [[d1 [-> H1]] [? [? [-> [[d2 [-> H2]] [c [-> H3]]]]]]]]]]. right. exists d1, d2, c. apply ci_eq in H3.
      repeat split; try assumption; now apply digit_is_digit.
    + left. now apply lang_text in H.
  - intros [p [y [q [-> [H Hp]]]]]. exists (p ++ "."%char :: y), q. split; [rewrite <- app_assoc; reflexivity|].
    exists p, ("."%char :: y). split; [reflexivity|]. split; [now apply Hany|]. exists ["."%char], y. split; [reflexivity|].
    split; [eexists; split; reflexivity|]. destruct H as [H|[a [b [c [-> [H1 [H2 H3]]]]]]].
    + right. now apply lang_text.
    + left. exists [a], [b; c]. split; [reflexivity|]. split; [exists a; split; [reflexivity|now apply digit_is_digit]|].
      exists [b], [c]. split; [reflexivity|]. split; [exists b; split; [reflexivity|now apply digit_is_digit]|]. exists c. split; [reflexivity|now apply ci_eq].
  - intros [a [b [-> H]]]. destruct H as [p [? [-> [Hp [? [y [-> [[dot [-> Hdot]] H]]]]]]]]. fixc. apply Hany in Hp.
    exists p, y, b. rewrite <- !app_assoc. split; [reflexivity|]. split; [|assumption]. destruct H as [H|H].
    + destruct H as [? [? [-> [[d1 [-> H1]] [? [? [-> [[d2 [-> H2]] [c [-> H3]]]]]]]]]]. right. exists d1, d2, c. apply ci_eq in H3.
      repeat split; try assumption; now apply digit_is_digit.
    + left. now apply lang_text in H.
  - intros [p [y [q [-> [H Hp]]]]]. exists (p ++ "."%char :: y), q. split; [rewrite <- app_assoc; reflexivity|].
    exists p, ("."%char :: y). split; [reflexivity|]. split; [now apply Hany|]. exists ["."%char], y. split; [reflexivity|].
    split; [eexists; split; reflexivity|]. destruct H as [H|[a [b [c [-> [H1 [H2 H3]]]]]]].
    + right. now apply lang_text.
    + left. exists [a], [b; c]. split; [reflexivity|]. split; [exists a; split; [reflexivity|now apply digit_is_digit]|].
      exists [b], [c]. split; [reflexivity|]. split; [exists b; split; [reflexivity|now apply digit_is_digit]|]. exists c. split; [reflexivity|now apply ci_eq].
Qed.

Lemma re_ext_path dir base ext hat packed path h : obs_base base hat -> arch ext packed ->
  path_of dir (base ++ ext) path -> clean_dir dir -> ~ In newline_c path ->
  re_test (RE_EXT h) path = Bool.eqb h hat.
Proof.
  intros Hb Ha Hp Hd Hn. destruct (Bool.eqb h hat) eqn:E.
  - apply eqb_prop in E. subst h. apply re_ext_lang. destruct (obs_base_parts base hat Hb) as [stem [x [-> [Hs Hx]]]].
    assert (exists D, path = (D ++ stem) ++ "."%char :: x ++ ext) as [D ED].
    { destruct Hp as [->| ->]; [exists []|exists (dir ++ lit "/")]; cbn [app]; rewrite <- ?app_assoc; reflexivity. }
    exists (D ++ stem), x, ext. repeat split; try assumption. intros HI. apply Hn. rewrite ED. apply in_or_app. now left.
  - destruct (re_test (RE_EXT h) path) eqn:T; [|reflexivity]. apply re_ext_lang in T. destruct T as [p [y [q [E1 [E2 _]]]]].
    rewrite (ext_in_path dir base ext hat packed path p y q h) in E; try assumption. now rewrite eqb_reflx in E.
Qed.

Lemma re_z_lang path : ~ In newline_c path -> (re_test RE_Z path = true <->
  exists p z, path = p ++ "."%char :: z /\ (same_ci z (lit "z") \/ same_ci z (lit "gz"))).
Proof.
  intros Hn. rewrite re_test_lang. unfold RE_Z. und. cbn [cats lang]. split.
  - intros [a [b [E H]]]. destruct H as [p [? [-> [Hp [? [? [-> [[dot [-> Hdot]] [z [e [-> [Hz [-> He]]]]]]]]]]]]].
    apply ci_fix in Hdot; [|reflexivity|reflexivity]. rewrite Hdot in E. rewrite !lang_text in Hz. rewrite app_nil_r in E.
    destruct He as [He|He]; rewrite He in E.
    + rewrite app_nil_r in E. exists p, z. split; [exact E|]. exact Hz.
    + exfalso. apply Hn. rewrite E. apply in_or_app. right. now left.
  - intros [p [z [-> H]]]. exists (p ++ "."%char :: z), []. split; [now rewrite app_nil_r|]. exists p, ("."%char :: z). split; [reflexivity|].
    split.
    + apply Forall_forall. intros x Hx. unfold any. apply negb_true_iff. destruct (ceqb x newline_c) eqn:E; [|reflexivity].
      apply ceqb_eq in E. subst. exfalso. apply Hn. apply in_or_app. now left.
    + exists ["."%char], z. split; [reflexivity|]. split; [eexists; split; reflexivity|]. exists z, []. split; [now rewrite app_nil_r|].
      rewrite !lang_text. split; [exact H|]. split; [reflexivity|now left].
Qed.

Lemma last_eq {A} (u v : list A) x y : u ++ [x] = v ++ [y] -> x = y.
Proof. intros H. apply app_inj_tail in H. apply H. Qed.

Lemma re_z_path dir base ext hat packed path : obs_base base hat -> arch ext packed ->
  path_of dir (base ++ ext) path -> ~ In newline_c path -> re_test RE_Z path = packed.
Proof.
  intros Hb Ha Hp Hn. destruct (arch_parts ext packed Ha) as [[-> ->]|[-> [z [-> [Wz [Lz Hz]]]]]].
  - rewrite app_nil_r in Hp. destruct (re_test RE_Z path) eqn:T; [|reflexivity]. exfalso.
    apply re_z_lang in T; [|assumption]. destruct T as [p [z [E Hz]]].
    assert (exists u c, path = u ++ [c] /\ lower_c c = "z"%char) as [u [c [E1 Hc]]].
    { destruct Hz as [Hz|Hz]; unfold same_ci in Hz; cbn in Hz.
      - destruct z as [|c [|? ?]]; try discriminate. exists (p ++ lit "."), c. cbn in Hz. injection Hz as Hz. split; [rewrite <- app_assoc; exact E|assumption].
      - destruct z as [|c0 [|c [|? ?]]]; try discriminate. exists (p ++ ["."%char; c0]), c. cbn in Hz. injection Hz as Hz0 Hz. split; [rewrite <- app_assoc; exact E|assumption]. }
    destruct (obs_base_parts base hat Hb) as [stem [x [-> [Hs Hx]]]].
    assert (exists u c, path = u ++ [c] /\ lower_c c <> "z"%char) as [u' [c' [E1' Hc']]].
    { assert (exists D, path = D ++ x) as [D ED]. { destruct Hp as [->| ->]; [exists (stem ++ lit ".")|exists (dir ++ lit "/" ++ stem ++ lit ".")]; rewrite <- ?app_assoc; reflexivity. }
      destruct Hx as [Hx|[a [b [c' [-> [_ [_ Hc']]]]]]].
      - assert (exists a b c, x = [a; b; c] /\ lower_c c = "x"%char) as [a [b [c' [-> Hc']]]].
        { unfold same_ci in Hx. destruct hat; destruct x as [|a [|b [|c' [|? ?]]]]; try discriminate; cbn in Hx; injection Hx as _ _ Hx; exists a, b, c'; auto. }
        exists (D ++ [a; b]), c'. rewrite <- app_assoc. split; [exact ED|]. rewrite Hc'. discriminate.
      - exists (D ++ [a; b]), c'. rewrite <- app_assoc. split; [exact ED|]. rewrite Hc'. destruct hat; discriminate. }
    rewrite E1 in E1'. apply last_eq in E1'. subst c'. contradiction.
  - apply re_z_lang; [assumption|]. destruct Hp as [->| ->].
    + exists base, z. auto.
    + exists (dir ++ "/"%char :: base), z. rewrite <- app_assoc. auto.
Qed.

Lemma basename_acc_app p : forall cur name, no_slash name -> basename_acc cur (p ++ "/"%char :: name) = name.
Proof.
  assert (H0 : forall name cur, no_slash name -> basename_acc cur name = rev cur ++ name).
  { induction name as [|c name IH]; intros cur H; cbn; [now rewrite app_nil_r|].
    destruct (ceqb c slash) eqn:E; [apply ceqb_eq in E; subst; exfalso; apply H; now left|].
    rewrite IH by (intros HI; apply H; now right). cbn. now rewrite <- app_assoc. }
  induction p as [|c p IH]; intros cur name H; cbn.
  - rewrite H0 by assumption. reflexivity.
  - destruct (ceqb c slash); now apply IH.
Qed.
Lemma basename_path dir name path : path_of dir name path -> no_slash name -> basename path = name.
Proof.
  intros [->| ->] H; unfold basename; [|now apply basename_acc_app].
  assert (H0 : forall name cur, no_slash name -> basename_acc cur name = rev cur ++ name).
  { clear. induction name as [|c name IH]; intros cur H; cbn; [now rewrite app_nil_r|].
    destruct (ceqb c slash) eqn:E; [apply ceqb_eq in E; subst; exfalso; apply H; now left|].
    rewrite IH by (intros HI; apply H; now right). cbn. now rewrite <- app_assoc. }
  now rewrite H0.
Qed.
Lemma obs_name_no_slash base ext hat packed : obs_base base hat -> arch ext packed -> no_slash (base ++ ext).
Proof.
  intros Hb Ha HI. apply in_app_or in HI. destruct HI as [HI|HI].
  - destruct (obs_base_parts base hat Hb) as [stem [x [-> [Hs Hx]]]]. apply in_app_or in HI. destruct HI as [HI|[HI|HI]]; [|discriminate|].
    + revert HI. now apply word_no.
    + revert HI. apply ext3_word in Hx. now apply word_no.
  - destruct (arch_parts ext packed Ha) as [[-> _]|[_ [z [-> [Wz _]]]]]; [destruct HI|]. destruct HI as [HI|HI]; [discriminate|].
    revert HI. now apply word_no.
Qed.
Lemma in_basename c p : forall cur, In c (basename_acc cur p) -> In c cur \/ In c p.
Proof.
  induction p as [|x p IH]; intros cur H; cbn in H.
  - left. now apply in_rev.
  - destruct (ceqb x slash).
    + apply IH in H. destruct H as [[]|H]. right. now right.
    + apply IH in H. destruct H as [[->|H]|H]; [right; now left|now left|right; now right].
Qed.

Lemma expand_plan_ok dir base ext hat packed path : obs_base base hat -> arch ext packed ->
  path_of dir (base ++ ext) path -> clean_dir dir -> ~ In newline_c path ->
  expand_plan path = Ok (plan_for hat packed).
Proof.
  intros Hb Ha Hp Hd Hn. unfold expand_plan. rewrite (basename_path dir (base ++ ext) path Hp (obs_name_no_slash _ _ _ _ Hb Ha)).
  replace (re_test RE_OBS (base ++ ext)) with true.
  2:{ symmetry. apply re_obs_ok; [|exists base, ext, hat, packed; auto].
      intros HI. apply Hn. destruct Hp as [->| ->]; [assumption|]. apply in_or_app. right. now right. }
  cbn [negb]. rewrite (re_z_path dir base ext hat packed path) by assumption.
  change RE_RNX with (RE_EXT false). change RE_CRX with (RE_EXT true).
  rewrite !(re_ext_path dir base ext hat packed path) by assumption. destruct hat, packed; reflexivity.
Qed.
Lemma expand_plan_not path : ~ In newline_c (basename path) ->
  (forall base ext hat packed, basename path = base ++ ext -> obs_base base hat -> ~ arch ext packed) ->
  expand_plan path = Err UncompressError.
Proof.
  intros Hn H. unfold expand_plan. destruct (re_test RE_OBS (basename path)) eqn:E; [|reflexivity].
  apply re_obs_ok in E; [|assumption]. destruct E as [base [ext [hat [packed [E [Hb Ha]]]]]]. exfalso. exact (H _ _ _ _ E Hb Ha).
Qed.
