(** Proofs about versions. *)
From Coq Require Import Reals Lra ZifyBool ZifyNat.
From Flocq Require Import Core.Core IEEE754.BinarySingleNaN.
From Verif Require Import Base PyStr PyFloat PyDate PyPath PyRegex P_Str P_Float P_Sec P_Div P_Tsn P_Regex S_Text S_Time M_Header M_Names S_Names P_Names P_Names2 S_Cfg P_Cfg P_Cfg2.
Open Scope nat_scope.

Lemma feqb_correct x y : good x -> good y -> feqb x y = Req_bool (f2r x) (f2r y).
Proof.
  intros Hx Hy. destruct (good_B x Hx) as [bx [<- [Fx Rx]]]. destruct (good_B y Hy) as [b_ [<- [Fy Ry]]].
  rewrite <- Rx, <- Ry. rewrite <- Beqb_correct by assumption. reflexivity.
Qed.

Lemma rnd4 y : (Rabs y < 4)%R -> (Rabs (rnd64 y - y) <= / 1000000000)%R.
Proof.
  intros H. eapply Rle_trans; [apply (rnd_error y 2); [lia|exact H]|].
  rewrite (bpow_num (2 - 54) 4503599627370496%Z) by lia. lra.
Qed.
Lemma ver_eq m k c : (0 <= m <= 2 ^ 1000)%Z -> k <= 6 -> (100 <= c < 399)%Z ->
  feqb (b64_of_dec false m (- Z.of_nat k)) (b64_of_dec false c (-2)) = true <-> (m * 10 ^ (6 - Z.of_nat k) = c * 10000)%Z.
Proof.
  intros Hm Hk Hc. destruct (b64_of_dec_nearest false m k Hm) as [H1 [H2 H3]].
  assert (Hc2 : (0 <= c <= 2 ^ 1000)%Z) by (split; [lia|]; apply Z.le_trans with 400%Z; [lia|]; change 400%Z with (400 * 1)%Z; vm_compute; congruence).
  destruct (b64_of_dec_nearest false c 2 Hc2) as [H4 [H5 H6]]. change (- Z.of_nat 2)%Z with (-2)%Z in *.
  rewrite feqb_correct by (split; assumption). rewrite H3, H6. unfold dec_real. rewrite !Rmult_1_l.
  assert (Ex : (IZR m / 10 ^ k = IZR (m * 10 ^ (6 - Z.of_nat k)) / 1000000)%R).
  { rewrite mult_IZR. replace (IZR (10 ^ (6 - Z.of_nat k))) with (1000000 / 10 ^ k)%R.
    - field. apply pow_nonzero. lra.
    - assert (K : k = 0 \/ k = 1 \/ k = 2 \/ k = 3 \/ k = 4 \/ k = 5 \/ k = 6) by lia.
      repeat (destruct K as [->|K]); [..|subst k]; cbn; lra. }
  assert (Ey : (IZR c / 10 ^ 2 = IZR (c * 10000) / 1000000)%R).
  { rewrite mult_IZR. cbn. lra. }
  rewrite Ex, Ey. set (M := (m * 10 ^ (6 - Z.of_nat k))%Z) in *. set (N := (c * 10000)%Z) in *.
  split; [|now intros ->; apply Req_bool_true].
  intros E. assert (E' : rnd64 (IZR M / 1000000) = rnd64 (IZR N / 1000000)) by (revert E; case Req_bool_spec; [auto|discriminate]). clear E.
  assert (HN : (1000000 <= N < 3990000)%Z) by lia.
  assert (HM : (0 <= M)%Z) by (apply Z.mul_nonneg_nonneg; [lia|apply Z.pow_nonneg; lia]).
  assert (RN : (1 <= IZR N / 1000000 < 3.99)%R).
  { destruct HN as [A B]. apply IZR_le in A. apply IZR_lt in B. lra. }
  pose proof (rnd4 (IZR N / 1000000)) as BN. rewrite Rabs_pos_eq in BN by lra. specialize (BN ltac:(lra)). apply Rabs_le_inv in BN.
  destruct (Z_lt_le_dec M 4000000) as [L|L].
  - assert (RM : (0 <= IZR M / 1000000 < 4)%R).
    { apply IZR_le in HM. apply IZR_lt in L. lra. }
    pose proof (rnd4 (IZR M / 1000000)) as BM. rewrite Rabs_pos_eq in BM by lra. specialize (BM ltac:(lra)). apply Rabs_le_inv in BM.
    rewrite E' in BM. assert (D : (Rabs (IZR M - IZR N) < 1)%R) by (apply Rabs_def1; lra). rewrite <- minus_IZR, <- abs_IZR in D. apply lt_IZR in D. lia.
  - exfalso. assert (4 <= rnd64 (IZR M / 1000000))%R.
    { rewrite <- (rnd_IZR 4) by lia. apply round_le; try typeclasses eauto. apply IZR_le in L. lra. }
    rewrite E' in H. lra.
Qed.

Lemma feqb_ver m k c micro : (0 <= m <= 2 ^ 1000)%Z -> k <= 6 -> (100 <= c < 399)%Z -> (micro = m * 10 ^ (6 - Z.of_nat k))%Z ->
  feqb (b64_of_dec false m (- Z.of_nat k)) (b64_of_dec false c (-2)) = (micro =? c * 10000)%Z.
Proof.
  intros Hm Hk Hc ->. apply Bool.eq_iff_eq_true. rewrite ver_eq by assumption. symmetry. apply Z.eqb_eq.
Qed.
Lemma version_value s micro : version_text s micro -> exists m k, float_lit s = Some (LDec false m (- Z.of_nat k)) /\
  (0 <= m <= 2 ^ 1000)%Z /\ k <= 6 /\ (micro = m * 10 ^ (6 - Z.of_nat k))%Z.
Proof.
  intros [ip [fp [H1 [H2 [H3 [H4 [H5 [H6 ->]]]]]]]]. exists (dec_value (ip ++ fp)), (List.length fp).
  assert (B : (0 <= dec_value (ip ++ fp) <= 2 ^ 1000)%Z).
  { assert (D : digits (ip ++ fp)) by (apply digits_app; auto). split; [now apply dec_value_nonneg|].
    apply dec_value_bound in D. assert (10 ^ Z.of_nat (List.length (ip ++ fp)) <= 10 ^ 26)%Z by (apply Z.pow_le_mono_r; rewrite ?app_length; lia).
    apply Z.le_trans with (10 ^ 26)%Z; [lia|]. vm_compute. congruence. }
  split; [|auto]. destruct H6 as [[-> ->]| ->].
  - rewrite app_nil_r. cbn. now apply float_lit_digits.
  - pose proof (float_lit_dec [] false ip fp [] [] 0) as F. cbn [app sign_str] in F. rewrite !app_nil_r in F. apply F; auto; try constructor.
    + destruct ip; [congruence|discriminate].
    + congruence.
    + congruence.
Qed.
Lemma lookup_ver {V} (tbl : list (Z * V)) m k micro : (0 <= m <= 2 ^ 1000)%Z -> k <= 6 -> (micro = m * 10 ^ (6 - Z.of_nat k))%Z ->
  Forall (fun e => (100 <= fst e < 399)%Z) tbl ->
  dict_get feqb (b64_of_dec false m (- Z.of_nat k)) (map (fun e => (b64_of_dec false (fst e) (-2), snd e)) tbl) =
  dict_get Z.eqb micro (map (fun e => ((fst e * 10000)%Z, snd e)) tbl).
Proof.
  intros Hm Hk E H. induction H as [|[c v] tbl Hc H IH]; [reflexivity|]. cbn [map dict_get fst snd].
  rewrite (feqb_ver m k c micro) by assumption. rewrite IH. reflexivity.
Qed.
Lemma obs_lookup m k micro : (0 <= m <= 2 ^ 1000)%Z -> k <= 6 -> (micro = m * 10 ^ (6 - Z.of_nat k))%Z ->
  dict_get feqb (b64_of_dec false m (- Z.of_nat k)) obs_table = dict_get Z.eqb micro obs_versions.
Proof.
  intros Hm Hk E. pose proof (lookup_ver [(200, V20); (210, V21); (211, V211); (300, V300); (301, V301); (302, V302); (303, V303)]%Z m k micro Hm Hk E) as L.
  apply L. repeat constructor; cbn; lia.
Qed.
Lemma nav_lookup m k micro : (0 <= m <= 2 ^ 1000)%Z -> k <= 6 -> (micro = m * 10 ^ (6 - Z.of_nat k))%Z ->
  dict_get feqb (b64_of_dec false m (- Z.of_nat k)) nav_table = dict_get Z.eqb micro nav_versions.
Proof.
  intros Hm Hk E. pose proof (lookup_ver [(200, V20); (201, V20); (210, V21); (211, V211); (300, V300); (301, V301); (302, V302); (303, V303); (304, V303)]%Z m k micro Hm Hk E) as L.
  apply L. repeat constructor; cbn; lia.
Qed.

(** the first way of the matcher *)
Definition first (r : re) (m m' : mstate) : Prop := hd_error (run r m) = Some m'.
Lemma first_cat a b m m1 m2 : first a m m1 -> first b m1 m2 -> first (RCat a b) m m2.
Proof.
  unfold first. destruct m as [[pos s] g]. cbn [run]. intros H1 H2.
  destruct (run a (pos, s, g)) as [|x l]; [discriminate|]. cbn in H1. injection H1 as ->. cbn [flat_map].
  destruct (run b m1) as [|y l2]; [discriminate|]. exact H2.
Qed.
Lemma first_star p a b pos g : Forall (fun c => p c = true) a -> (forall c r, b = c :: r -> p c = false) ->
  first (RStar p) (pos, a ++ b, g) (pos + List.length a, b, g).
Proof.
  unfold first. cbn [run]. intros H Hb. revert pos. induction H as [|c a Hc H IH]; intros pos; cbn [star_ways app].
  - rewrite Nat.add_0_r. destruct b as [|c r]; [reflexivity|]. cbn [star_ways]. now rewrite (Hb c r eq_refl).
  - rewrite Hc. specialize (IH (S pos)). destruct (star_ways p (S pos) (a ++ b) g); [discriminate|]. cbn in IH |- *. rewrite IH.
    repeat f_equal. lia.
Qed.
Lemma first_chr p c s pos g : p c = true -> first (RChr p) (pos, c :: s, g) (S pos, s, g).
Proof. unfold first. cbn. now intros ->. Qed.
Lemma first_opt_yes p c s pos g : p c = true -> first (opt (RChr p)) (pos, c :: s, g) (S pos, s, g).
Proof. unfold first. cbn. now intros ->. Qed.
Lemma first_opt_no p s pos g : (forall c r, s = c :: r -> p c = false) -> first (opt (RChr p)) (pos, s, g) (pos, s, g).
Proof. unfold first. cbn. intros H. destruct s as [|c r]; [reflexivity|]. now rewrite (H c r eq_refl). Qed.
Lemma first_group n r pos a b g g' : first r (pos, a ++ b, g) (pos + List.length a, b, g') ->
  first (RGroup n r) (pos, a ++ b, g) (pos + List.length a, b, (n, a) :: g').
Proof.
  unfold first. cbn [run]. destruct (run r (pos, a ++ b, g)) as [|x l]; [discriminate|]. cbn [hd_error]. intros H. injection H as ->.
  cbn [map hd_error]. replace (pos + List.length a - pos) with (List.length a) by lia. now rewrite firstn_app_exact.
Qed.
Lemma is_digit_nd c : is_digit c = false <-> ~ digit c.
Proof. rewrite digit_is_digit. destruct (is_digit c); intuition congruence. Qed.

Lemma first_ver s micro mid pos g : version_text s micro -> (forall c r, mid = c :: r -> ~ digit c /\ c <> "."%char) ->
  first (RGroup 1 re_ver_num) (pos, s ++ mid, g) (pos + List.length s, mid, (1, s) :: g).
Proof.
  intros [ip [fp [H1 [H2 [H3 [H4 [H5 [H6 _]]]]]]]] Hm. apply first_group. unfold re_ver_num. cbn [cats].
  destruct ip as [|c ip]; [congruence|]. inversion H1; subst.
  destruct H6 as [[-> ->]| ->].
  - cbn [app List.length]. eapply first_cat; [apply first_chr; now apply digit_is_digit|].
    eapply first_cat; [apply first_star; [now apply digits_class|intros; subst; apply is_digit_nd; now apply (Hm c0 r)]|].
    eapply first_cat. { apply first_opt_no. intros c' r' ->. destruct (ci "." c') eqn:E; [|reflexivity]. apply ci_fix in E; try reflexivity. subst. exfalso. destruct (Hm "."%char r' eq_refl). congruence. }
    pose proof (first_star is_digit [] mid (S pos + List.length ip) g) as F. cbn in F. replace (pos + S (List.length ip)) with (S (pos + List.length ip + 0)) by lia. apply F; [constructor|].
    intros c' r' ->. apply is_digit_nd. now apply (Hm c' r').
  - rewrite <- app_assoc. cbn [app List.length]. eapply first_cat; [apply first_chr; now apply digit_is_digit|].
    eapply first_cat; [apply first_star; [now apply digits_class|]|].
    { intros c' r' E. injection E as <- _. reflexivity. }
    eapply first_cat; [apply first_opt_yes; reflexivity|].
    pose proof (first_star is_digit fp mid (S (S pos + List.length ip)) g) as F. replace (pos + S (List.length (ip ++ "."%char :: fp))) with (S (S pos + List.length ip) + List.length fp).
    + apply F; [now apply digits_class|]. intros c' r' ->. apply is_digit_nd. now apply (Hm c' r').
    + rewrite app_length. cbn. lia.
Qed.

Definition re_ver_tail : re := cats [RStar any; text (lit "RINEX VERSION / TYPE"); REol].
Lemma glang_text s : forall pos a b g g', glang (text s) pos a b g g' -> g' = g.
Proof.
  induction s as [|c s IH]; intros pos a b g g'; cbn [text glang].
  - now intros [_ ->].
  - intros [a1 [a2 [g1 [_ [[_ ->] H]]]]]. now apply IH in H.
Qed.
Lemma tail_groups pos a b g g' : glang re_ver_tail pos a b g g' -> g' = g.
Proof.
  unfold re_ver_tail. cbn [cats glang]. intros [a1 [a2 [g1 [_ [[_ ->] H]]]]]. destruct H as [a3 [a4 [g2 [_ [H [_ ->]]]]]]. now apply glang_text in H.
Qed.
Lemma first_tail pos s g : (exists mid label, s = mid ++ label /\ same_ci label (lit "RINEX VERSION / TYPE") /\ ~ In newline_c mid) ->
  exists m, first re_ver_tail (pos, s, g) m /\ snd m = g.
Proof.
  intros [mid [label [-> [Hl Hm]]]].
  assert (L : lang re_ver_tail pos (mid ++ label) []).
  { unfold re_ver_tail. cbn [cats lang]. exists mid, label. split; [reflexivity|]. split.
    - apply Forall_forall. intros c Hc. unfold any. destruct (ceqb c newline_c) eqn:E; [|reflexivity]. apply ceqb_eq in E. now subst.
    - exists label, []. split; [now rewrite app_nil_r|]. split; [now apply lang_text|auto]. }
  apply (lang_run _ _ _ _ g) in L. rewrite app_nil_r in L. destruct L as [g' L]. unfold first.
  destruct (run re_ver_tail (pos, mid ++ label, g)) as [|m l] eqn:E; [destruct L|]. exists m. split; [reflexivity|].
  assert (I : In m (run re_ver_tail (pos, mid ++ label, g))) by (rewrite E; now left).
  apply run_glang in I. destruct I as [a [b [g2 [_ [G ->]]]]]. cbn. now apply tail_groups in G.
Qed.
Lemma label_last label : same_ci label (lit "RINEX VERSION / TYPE") -> exists l c, label = l ++ [c] /\ is_space c = false.
Proof.
  intros H. destruct (nonempty_last label) as [l [c ->]]; [intros ->; discriminate|]. exists l, c. split; [reflexivity|].
  unfold same_ci, lower in H. rewrite map_app in H. cbn [map] in H.
  change (map lower_c (lit "RINEX VERSION / TYPE")) with (lit "rinex version / typ" ++ ["e"%char]) in H.
  apply last_eq in H. destruct (is_space c) eqn:E; [|reflexivity]. exfalso. revert E H. clear. destruct c as [[] [] [] [] [] [] [] []]; vm_compute; congruence.
Qed.
Lemma obs_class_ok line s micro : version_line line s -> version_text s micro ->
  obs_class line = of_option RinexError (dict_get Z.eqb micro obs_versions).
Proof.
  intros [w1 [mid [label [w2 [-> [Hw1 [Hw2 [Hl [Hm Hd]]]]]]]]] Hs.
  assert (Er : rstrip (w1 ++ s ++ mid ++ label ++ w2) = w1 ++ s ++ mid ++ label).
  { destruct (label_last label Hl) as [l [c [-> Hc]]].
    replace (w1 ++ s ++ mid ++ (l ++ [c]) ++ w2) with ((w1 ++ s ++ mid ++ l ++ [c]) ++ w2) by (now rewrite <- !app_assoc).
    rewrite rstrip_app_white by assumption. replace (w1 ++ s ++ mid ++ l ++ [c]) with ((w1 ++ s ++ mid ++ l) ++ [c]) by (now rewrite <- !app_assoc).
    now rewrite rstrip_nonspace_end by assumption. }
  unfold obs_class. rewrite Er.
  destruct (first_tail (List.length w1 + List.length s) (mid ++ label) [(1, s)]) as [m [F G]]; [eauto|].
  assert (M : re_match RE_VER (w1 ++ s ++ mid ++ label) = Some m).
  { change (first RE_VER (0, w1 ++ s ++ mid ++ label, []) m). unfold RE_VER. cbn [cats].
    eapply first_cat; [reflexivity|]. eapply first_cat.
    { apply (first_star is_space w1); [exact Hw1|]. intros c r E. destruct Hs as [ip [fp [H1 [_ [H3 [_ [_ [H6 _]]]]]]]].
      destruct ip as [|c0 ip]; [congruence|]. inversion H1; subst. destruct H6 as [[-> _]| ->]; injection E as <- _; now apply digit_not_space. }
    eapply first_cat.
    { eapply first_ver; [exact Hs|]. intros c r E. destruct mid as [|c' r']; [|apply (Hd c' r' eq_refl) || (injection E as <- _; now apply (Hd c' r'))].
      cbn in E. subst label. unfold same_ci in Hl. cbn in Hl. injection Hl as Hl _. split.
      - intros D. rewrite lower_c_digit in Hl by now apply digit_is_digit. subst. unfold digit in D. cbn in D. lia.
      - intros ->. discriminate. }
    cbn [Nat.add]. exact F. }
  rewrite M. destruct m as [[p t] g]. cbn in G. subst g. unfold group. cbn [dict_get Nat.eqb].
  destruct (version_value s micro Hs) as [m [k [Ef [B [Hk Em]]]]]. unfold py_float, py_float_opt. rewrite Ef. cbn [option_map of_option bind float_of_lit].
  now rewrite (obs_lookup m k micro).
Qed.
(** no version: no digit first, or another label *)
Lemma obs_class_none line : (forall w1 c r, line = w1 ++ c :: r -> white w1 -> digit c ->
    ~ exists pre label w2, r = pre ++ label ++ w2 /\ same_ci label (lit "RINEX VERSION / TYPE") /\ white w2) ->
  obs_class line = Err RinexError.
Proof.
  intros H. unfold obs_class. destruct (re_match RE_VER (rstrip line)) as [m|] eqn:M; [exfalso|reflexivity].
  assert (T : re_test RE_VER (rstrip line) = true) by (unfold re_test; now rewrite M). apply re_test_lang in T. destruct T as [a [b [E L]]].
  unfold RE_VER, re_ver_num in L. und. cbn [cats] in L. cbn [lang] in L.
  destruct L as [? [? [-> [[-> _] L]]]].
  destruct L as [w1 [? [-> [Hw L]]]].
  destruct L as [num [? [-> [[? [n2 [-> [[c [-> Hc]] Ln]]]] L]]]].
  destruct L as [mid [? [-> [_ L]]]].
  destruct L as [label [? [-> [L1 [-> Lb]]]]].
  apply lang_text in L1. destruct (rstrip_decomp line) as [w [El Hw2]]. 
  cbn [app] in E. apply (H w1 c (n2 ++ mid ++ label ++ b ++ w)).
  - rewrite El, E. rewrite app_nil_r. repeat first [progress cbn [app] | rewrite <- app_assoc]. reflexivity.
  - exact Hw.
  - now apply digit_is_digit.
  - exists (n2 ++ mid), label, (b ++ w). split; [now rewrite <- !app_assoc|]. split; [exact L1|].
    apply Forall_app. split; [|exact Hw2]. destruct Lb as [->| ->]; repeat constructor.
Qed.
(** navigation files: the first nine columns *)
Lemma float_lit_strip a b : strip a = strip b -> float_lit a = float_lit b.
Proof. intros H. unfold float_lit. now rewrite H. Qed.
Lemma nonspace_trimmed s : Forall (fun c => is_space c = false) s -> trimmed s.
Proof.
  intros H. split.
  - intros c r ->. now inversion H.
  - intros r c ->. apply Forall_app in H. destruct H as [_ H]. now inversion H.
Qed.
Lemma digits_nonspace s : digits s -> Forall (fun c => is_space c = false) s.
Proof. intros H. eapply Forall_impl; [|exact H]. intros c. apply digit_not_space. Qed.
Lemma version_trimmed s micro : version_text s micro -> trimmed s.
Proof.
  intros [ip [fp [H1 [H2 [H3 [_ [_ [H6 _]]]]]]]]. apply nonspace_trimmed. destruct H6 as [[-> _]| ->].
  - now apply digits_nonspace.
  - apply Forall_app. split; [now apply digits_nonspace|]. constructor; [reflexivity|now apply digits_nonspace].
Qed.
Lemma nav_class_ok line w1 s w2 micro : slice 0 9 line = w1 ++ s ++ w2 -> white w1 -> white w2 -> version_text s micro ->
  nav_class line = of_option RinexError (dict_get Z.eqb micro nav_versions).
Proof.
  intros E H1 H2 Hs. unfold nav_class. rewrite E. pose proof (version_trimmed s micro Hs) as T.
  destruct (version_value s micro Hs) as [m [k [Ef [B [Hk Em]]]]]. unfold py_float, py_float_opt.
  rewrite (float_lit_strip (w1 ++ s ++ w2) s).
  - rewrite Ef. cbn [option_map of_option bind float_of_lit catch]. now rewrite (nav_lookup m k micro).
  - rewrite strip_padded by assumption. pose proof (strip_padded [] s []) as P. cbn [app] in P. rewrite app_nil_r in P.
    symmetry. apply P; try constructor. exact (proj1 T). exact (proj2 T).
Qed.
Lemma nav_class_total line : (exists v, nav_class line = Ok v) \/ nav_class line = Err RinexError.
Proof.
  unfold nav_class, py_float. destruct (py_float_opt (slice 0 9 line)) as [f|]; cbn [of_option bind catch].
  - destruct (dict_get feqb f nav_table); cbn [of_option]; eauto.
  - now right.
Qed.
Lemma nav_class_blank line : white (slice 0 9 line) -> nav_class line = Err RinexError.
Proof.
  intros H. unfold nav_class, py_float, py_float_opt. rewrite (float_lit_strip _ []); [reflexivity|].
  pose proof (strip_padded (slice 0 9 line) [] []) as P. rewrite !app_nil_r in P. rewrite P; [reflexivity|exact H|constructor|apply nonspace_trimmed; constructor].
Qed.
Lemma obs_class_total line : (exists v, obs_class line = Ok v) \/ obs_class line = Err RinexError.
Proof.
  unfold obs_class. destruct (re_match RE_VER (rstrip line)) as [m|] eqn:M; [|now right].
  unfold re_match in M. apply hd_in in M. apply run_glang in M. destruct M as [a [b [g [_ [L ->]]]]].
  unfold RE_VER, re_ver_num in L. und. cbn [cats] in L. cbn [glang] in L.
  destruct L as [? [? [? [_ [[_ ->] L]]]]].
  destruct L as [? [? [? [_ [[_ ->] L]]]]].
  destruct L as [num [? [? [_ [[g1 [Ln ->]] L]]]]].
  apply (tail_groups _ _ _ _ _) in L. subst g. unfold group. cbn [dict_get Nat.eqb].
  assert (F : exists l, float_lit num = Some l).
  { destruct Ln as [? [? [? [-> [[[c [-> Hc]] ->] L]]]]].
    destruct L as [d1 [? [? [-> [[D1 ->] L]]]]].
    destruct L as [dot [d2 [? [-> [Ld [D2 ->]]]]]].
    assert (Dc : digits (c :: d1)) by (constructor; [now apply digit_is_digit|now apply digits_class]).
    apply digits_class in D2.
    destruct Ld as [[[c2 [-> H2]] _]|[-> _]].
    - apply ci_fix in H2; [|reflexivity|reflexivity]. subst c2.
      pose proof (float_lit_dec [] false (c :: d1) d2 [] [] 0) as F. cbn [app sign_str] in F. rewrite !app_nil_r in F. cbn [app].
      eexists. apply F; auto; try constructor; try congruence; try discriminate; try assumption.
    - cbn [app]. eexists. apply float_lit_digits; [|discriminate]. apply (proj2 (digits_app (c :: d1) d2)). auto. }
  destruct F as [l F]. unfold py_float, py_float_opt. rewrite F. cbn [option_map of_option bind].
  destruct (dict_get feqb (float_of_lit l) obs_table); cbn [of_option]; eauto.
Qed.
