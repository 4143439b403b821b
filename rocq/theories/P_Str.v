(** Lemmas about the text functions. *)
From Coq Require Import ZifyBool ZifyNat ZifyN.
From Verif Require Import Base PyStr S_Text.
Open Scope nat_scope.

Lemma white_app a b : white (a ++ b) <-> white a /\ white b.
Proof. unfold white. apply Forall_app. Qed.
Lemma blank_is_space : is_space " "%char = true.
Proof. reflexivity. Qed.
Lemma blanks_white s : blanks s -> white s.
Proof. unfold blanks, white. intros H. eapply Forall_impl; [|exact H]. intros c ->. reflexivity. Qed.
Lemma blanks_spaces s : blanks s -> s = spaces (List.length s).
Proof.
  unfold blanks, spaces, repeat_c. induction 1 as [|c r Hc Hr IH]; cbn; [reflexivity|].
  subst c. f_equal. exact IH.
Qed.
Lemma spaces_blanks n : blanks (spaces n).
Proof. unfold blanks, spaces, repeat_c. apply Forall_forall. intros c H. apply repeat_spec in H. exact H. Qed.

Lemma digit_is_digit c : digit c <-> is_digit c = true.
Proof.
  unfold digit, is_digit, code. rewrite <- (N_ascii_embedding (N_of_ascii c)).
  2:{ destruct c as [[] [] [] [] [] [] [] []]; cbn; lia. }
  rewrite ascii_N_embedding.
  unfold nat_of_ascii. split; intros H; lia.
Qed.
Lemma dig_digit_val c : dig c = digit_val c.
Proof. unfold dig, digit_val, code, nat_of_ascii. rewrite N_nat_Z. reflexivity. Qed.
Lemma digit_not_space c : digit c -> is_space c = false.
Proof. unfold digit, is_space, code, nat_of_ascii. intros H. lia. Qed.
Lemma digit_range c : digit c -> (0 <= dig c <= 9)%Z.
Proof. unfold digit, dig. lia. Qed.
Lemma is_digit_not_underscore c : is_digit c = true -> ceqb c "_"%char = false.
Proof. unfold ceqb. intros H. destruct (Ascii.eqb_spec c "_"); [subst; discriminate|reflexivity]. Qed.
Lemma is_digit_not_minus c : is_digit c = true -> ceqb c "-"%char = false.
Proof. unfold ceqb. intros H. destruct (Ascii.eqb_spec c "-"); [subst; discriminate|reflexivity]. Qed.
Lemma is_digit_not_plus c : is_digit c = true -> ceqb c "+"%char = false.
Proof. unfold ceqb. intros H. destruct (Ascii.eqb_spec c "+"); [subst; discriminate|reflexivity]. Qed.
Lemma ceqb_eq a b : ceqb a b = true <-> a = b.
Proof. apply Ascii.eqb_eq. Qed.
Lemma ceqb_refl a : ceqb a a = true.
Proof. apply Ascii.eqb_refl. Qed.

Lemma digits_forallb s : digits s <-> all_digits s = true.
Proof.
  unfold digits, all_digits. rewrite forallb_forall, Forall_forall.
  split; intros H c Hc; specialize (H c Hc); now apply digit_is_digit.
Qed.
Lemma digits_app a b : digits (a ++ b) <-> digits a /\ digits b.
Proof. apply Forall_app. Qed.

Lemma dec_value_nonneg s : digits s -> (0 <= dec_value s)%Z.
Proof.
  induction 1 as [|c r Hc Hr IH]; cbn [dec_value]; [lia|].
  pose proof (digit_range c Hc). assert (0 <= 10 ^ Z.of_nat (List.length r))%Z by (apply Z.pow_nonneg; lia). nia.
Qed.
Lemma dec_value_bound s : digits s -> (dec_value s < 10 ^ Z.of_nat (List.length s))%Z.
Proof.
  induction 1 as [|c r Hc Hr IH]; cbn [dec_value List.length]; [cbn; lia|].
  pose proof (digit_range c Hc). rewrite Nat2Z.inj_succ, Z.pow_succ_r by lia. nia.
Qed.
Lemma dec_value_app a b : dec_value (a ++ b) = (dec_value a * 10 ^ Z.of_nat (List.length b) + dec_value b)%Z.
Proof.
  induction a as [|c r IH]; cbn [dec_value app]; [lia|].
  rewrite IH, app_length, Nat2Z.inj_add, Z.pow_add_r by lia. ring.
Qed.

Lemma digits_val_acc s : forall a,
  fold_left (fun a c => (a * 10 + digit_val c)%Z) s a = (a * 10 ^ Z.of_nat (List.length s) + dec_value s)%Z.
Proof.
  induction s as [|c r IH]; intros a; cbn [fold_left dec_value List.length].
  - cbn. lia.
  - rewrite IH, dig_digit_val, Nat2Z.inj_succ, Z.pow_succ_r by lia. ring.
Qed.
Lemma digits_val_dec s : digits_val s = dec_value s.
Proof. unfold digits_val. rewrite digits_val_acc. lia. Qed.

(** ** rstrip, lstrip, strip *)
Lemma rstrip_white_nil s : white s -> rstrip s = [].
Proof. induction 1 as [|c r Hc Hr IH]; cbn; [reflexivity|]. rewrite IH, Hc. reflexivity. Qed.
Lemma rstrip_app_white a w : white w -> rstrip (a ++ w) = rstrip a.
Proof.
  intros Hw. induction a as [|c r IH]; cbn; [now apply rstrip_white_nil|]. rewrite IH. reflexivity.
Qed.
Lemma rstrip_app_nonnil a b : rstrip b <> [] -> rstrip (a ++ b) = a ++ rstrip b.
Proof.
  intros Hb. induction a as [|c r IH]; cbn; [reflexivity|]. rewrite IH.
  destruct (r ++ rstrip b) eqn:E; [|reflexivity].
  apply app_eq_nil in E. tauto.
Qed.
Lemma rstrip_snoc_nonspace a c b : is_space c = false -> rstrip (a ++ c :: b) = a ++ c :: rstrip b.
Proof.
  intros Hc. assert (Hr : rstrip (c :: b) = c :: rstrip b).
  { cbn. rewrite Hc. destruct (rstrip b); reflexivity. }
  rewrite rstrip_app_nonnil; rewrite Hr; [reflexivity|discriminate].
Qed.
Lemma rstrip_decomp s : exists w, s = rstrip s ++ w /\ white w.
Proof.
  induction s as [|c r [w [Hw1 Hw2]]]; [exists []; split; [reflexivity|constructor]|].
  cbn. destruct (rstrip r) as [|x xs] eqn:E.
  - destruct (is_space c) eqn:Ec.
    + exists (c :: r). split; [reflexivity|]. constructor; [exact Ec|]. now rewrite Hw1.
    + exists w. split; [|exact Hw2]. cbn. now rewrite Hw1 at 1.
  - exists w. split; [|exact Hw2]. cbn. now rewrite Hw1 at 1.
Qed.
Lemma rstrip_idem s : rstrip (rstrip s) = rstrip s.
Proof.
  destruct (rstrip_decomp s) as [w [H1 H2]]. rewrite H1 at 2. rewrite rstrip_app_white by exact H2. reflexivity.
Qed.
Lemma rstrip_last_nonspace s c r : rstrip s = r ++ [c] -> is_space c = false.
Proof.
  intros H. destruct (is_space c) eqn:E; [|reflexivity]. exfalso.
  pose proof (rstrip_idem s) as Hi. rewrite H in Hi.
  rewrite rstrip_app_white in Hi by (constructor; [exact E|constructor]).
  destruct (rstrip_decomp r) as [w [Hw _]].
  assert (List.length r = List.length (rstrip r) + List.length w) by (rewrite Hw at 1; apply app_length).
  rewrite Hi, app_length in H0. cbn in H0. lia.
Qed.
Lemma rstrip_nonspace_end s c : is_space c = false -> rstrip (s ++ [c]) = s ++ [c].
Proof. intros H. now rewrite rstrip_snoc_nonspace. Qed.
Lemma lstrip_white_app w s : white w -> lstrip (w ++ s) = lstrip s.
Proof. induction 1 as [|c r Hc Hr IH]; cbn; [reflexivity|]. now rewrite Hc. Qed.
Lemma lstrip_nonspace c s : is_space c = false -> lstrip (c :: s) = c :: s.
Proof. intros H. cbn. now rewrite H. Qed.

Lemma nonempty_last {A} (s : list A) : s <> [] -> exists r c, s = r ++ [c].
Proof. intros H. destruct (exists_last H) as [r [c E]]. eauto. Qed.

(** strip of white ++ core ++ white, core delimited by non-white characters *)
Lemma strip_core w1 s w2 c0 s0 s1 c1 :
  white w1 -> white w2 -> s = c0 :: s0 -> s = s1 ++ [c1] -> is_space c0 = false -> is_space c1 = false ->
  strip (w1 ++ s ++ w2) = s.
Proof.
  intros H1 H2 E0 E1 Hc0 Hc1. unfold strip.
  rewrite lstrip_white_app by exact H1. rewrite E0 at 1. cbn [app]. rewrite lstrip_nonspace by exact Hc0.
  change (c0 :: s0 ++ w2) with ((c0 :: s0) ++ w2). rewrite <- E0, rstrip_app_white by exact H2.
  rewrite E1. now apply rstrip_nonspace_end.
Qed.

Lemma drop_underscores_none prev s : Forall (fun c => ceqb c "_"%char = false) s ->
  drop_underscores prev s = Some s.
Proof.
  intros H. revert prev. induction H as [|c r Hc Hr IH]; intros prev; [reflexivity|].
  cbn [drop_underscores]. rewrite Hc, IH. reflexivity.
Qed.

Lemma digits_no_underscore s : digits s -> Forall (fun c => ceqb c "_"%char = false) s.
Proof. apply Forall_impl. intros c H. apply is_digit_not_underscore. now apply digit_is_digit. Qed.

Lemma take_sign_digits s : digits s -> s <> [] -> take_sign s = (false, s).
Proof.
  intros H Hn. destruct s as [|c r]; [congruence|]. inversion H as [|x y Hc Hr]; subst.
  apply digit_is_digit in Hc. cbn. now rewrite is_digit_not_minus, is_digit_not_plus.
Qed.

Lemma py_int_digits w1 ds w2 : white w1 -> white w2 -> digits ds -> ds <> [] ->
  py_int_opt (w1 ++ ds ++ w2) = Some (dec_value ds).
Proof.
  intros H1 H2 Hd Hn. unfold py_int_opt.
  destruct ds as [|c0 s0] eqn:E; [congruence|]. rewrite <- E in *.
  destruct (nonempty_last ds Hn) as [s1 [c1 E1]].
  assert (Hc0 : is_space c0 = false). { apply digit_not_space. rewrite E in Hd. inversion Hd; assumption. }
  assert (Hc1 : is_space c1 = false).
  { apply digit_not_space. rewrite E1 in Hd. apply digits_app in Hd. destruct Hd as [_ Hd]. inversion Hd; assumption. }
  rewrite (strip_core w1 ds w2 c0 s0 s1 c1) by assumption.
  rewrite drop_underscores_none by now apply digits_no_underscore.
  rewrite take_sign_digits by assumption. rewrite E at 1.
  apply digits_forallb in Hd. rewrite Hd, digits_val_dec. reflexivity.
Qed.

Lemma py_int_field w s n : int_field w s n -> py_int s = Ok n.
Proof.
  intros [Hl [b [ds [-> [Hb [Hd [Hn ->]]]]]]]. unfold py_int.
  rewrite <- (app_nil_r ds) at 1. rewrite py_int_digits; try assumption; [reflexivity| |constructor].
  now apply blanks_white.
Qed.
Lemma int_field_last w s n : int_field w s n -> exists r c, s = r ++ [c] /\ is_space c = false.
Proof.
  intros [Hl [b [ds [-> [Hb [Hd [Hn ->]]]]]]]. destruct (nonempty_last ds Hn) as [r [c E]]. subst ds.
  exists (b ++ r), c. split; [now rewrite app_assoc|].
  apply digits_app in Hd. destruct Hd as [_ Hd]. inversion Hd. now apply digit_not_space.
Qed.
Lemma int_field_nonneg w s n : int_field w s n -> (0 <= n)%Z.
Proof. intros [Hl [b [ds [-> [Hb [Hd [Hn ->]]]]]]]. now apply dec_value_nonneg. Qed.
Lemma int_field_bound w s n : int_field w s n -> (n < 10 ^ Z.of_nat w)%Z.
Proof.
  intros [Hl [b [ds [-> [Hb [Hd [Hn ->]]]]]]]. pose proof (dec_value_bound ds Hd).
  rewrite app_length in Hl.
  assert (10 ^ Z.of_nat (List.length ds) <= 10 ^ Z.of_nat w)%Z by (apply Z.pow_le_mono_r; lia). lia.
Qed.

(** ** slices *)
Lemma skipn_app_exact {A} (a b : list A) n : List.length a = n -> skipn n (a ++ b) = b.
Proof. intros <-. rewrite skipn_app, skipn_all, Nat.sub_diag. reflexivity. Qed.
Lemma firstn_app_exact {A} (a b : list A) n : List.length a = n -> firstn n (a ++ b) = a.
Proof. intros <-. rewrite firstn_app, firstn_all, Nat.sub_diag. cbn. apply app_nil_r. Qed.

Lemma slice_piece i j a p b : List.length a = i -> j = i + List.length p -> slice i j (a ++ p ++ b) = p.
Proof.
  intros Ha ->. unfold slice. rewrite skipn_app_exact by exact Ha.
  apply firstn_app_exact. lia.
Qed.
Lemma slice_0 j p b : List.length p = j -> slice 0 j (p ++ b) = p.
Proof. intros H. unfold slice. cbn [skipn]. rewrite Nat.sub_0_r. now apply firstn_app_exact. Qed.
Lemma slice_app_skip i j n a b : List.length a = n -> n <= i -> slice i j (a ++ b) = slice (i - n) (j - n) b.
Proof.
  intros Ha Hi. unfold slice. rewrite skipn_app, (skipn_all2 a) by lia. cbn [app].
  rewrite Ha. f_equal. lia.
Qed.
Lemma slice_app_keep i j a b : j <= List.length a -> slice i j (a ++ b) = slice i j a.
Proof.
  intros H. unfold slice. rewrite skipn_app, firstn_app, skipn_length.
  replace (j - i - (List.length a - i)) with 0 by lia. cbn. now rewrite app_nil_r.
Qed.
Lemma slice_prefix i j a b : exists t, slice i j (a ++ b) = slice i j a ++ t /\ (exists u v, b = u ++ t ++ v).
Proof.
  unfold slice. rewrite skipn_app, firstn_app.
  exists (firstn (j - i - List.length (skipn i a)) (skipn (i - List.length a) b)). split; [reflexivity|].
  exists (firstn (i - List.length a) b), (skipn (j - i - List.length (skipn i a)) (skipn (i - List.length a) b)).
  rewrite firstn_skipn, firstn_skipn. reflexivity.
Qed.
Lemma slice_rstrip i j s : exists w, slice i j s = slice i j (rstrip s) ++ w /\ white w.
Proof.
  destruct (rstrip_decomp s) as [w [H1 H2]].
  destruct (slice_prefix i j (rstrip s) w) as [t [Ht [u [v Huv]]]]. rewrite <- H1 in Ht.
  exists t. split; [exact Ht|]. rewrite Huv in H2. apply white_app in H2. destruct H2 as [_ H2].
  apply white_app in H2. tauto.
Qed.

Lemma seqb_eq a : forall b, seqb a b = true <-> a = b.
Proof.
  induction a as [|x a IH]; intros [|y b]; cbn; split; intros H; try congruence; try reflexivity.
  - apply andb_prop in H. destruct H as [H1 H2]. apply ceqb_eq in H1. apply IH in H2. congruence.
  - inversion H. subst. rewrite ceqb_refl. cbn. now apply IH.
Qed.
Lemma seqb_refl a : seqb a a = true.
Proof. now apply seqb_eq. Qed.
Lemma seqb_neq a b : seqb a b = false <-> a <> b.
Proof. rewrite <- Bool.not_true_iff_false, seqb_eq. reflexivity. Qed.

(** ** float text *)
Lemma span_digits_app ds r : digits ds -> (match r with [] => True | c :: _ => is_digit c = false end) ->
  span_digits (ds ++ r) = (ds, r).
Proof.
  intros Hd Hr. induction Hd as [|c s Hc Hs IH]; cbn [span_digits app].
  - destruct r as [|c r]; [reflexivity|]. cbn. now rewrite Hr.
  - apply digit_is_digit in Hc. rewrite Hc, IH. reflexivity.
Qed.

Lemma lower_c_digit c : is_digit c = true -> lower_c c = c.
Proof.
  unfold lower_c. destruct (is_upper c) eqn:E; [|reflexivity]. unfold is_upper, is_digit in *. lia.
Qed.

Lemma float_word_no u p : (exists c r, u = c :: r /\ (is_digit c = true \/ c = "."%char)) ->
  (exists c r, p = c :: r /\ is_lower c = true) -> seqb (lower u) p = false.
Proof.
  intros [c [r [-> Hc]]] [d [q [-> Hd]]]. cbn [lower map seqb].
  replace (ceqb (lower_c c) d) with false; [reflexivity|]. symmetry.
  unfold ceqb. apply Ascii.eqb_neq. intros E. subst d.
  destruct Hc as [Hc| ->]; [|discriminate].
  rewrite lower_c_digit in Hd by exact Hc. unfold is_lower, is_digit in *. lia.
Qed.

Definition sign_str (neg : bool) : str := if neg then ["-"%char] else [].

(** text  [white] [-] ip . fp [exponent] [white] *)
Lemma float_lit_dec w1 neg ip fp ex w2 x :
  white w1 -> white w2 -> digits ip -> digits fp -> ip ++ fp <> [] ->
  Forall (fun c => ceqb c "_"%char = false) ex ->
  (match ex with [] => True | c :: _ => is_digit c = false end) ->
  (ex = [] -> x = 0%Z) ->
  (ex <> [] -> float_exponent ex = Some x /\ exists r c, ex = r ++ [c] /\ is_space c = false) ->
  float_lit (w1 ++ (sign_str neg ++ ip ++ ["."%char] ++ fp ++ ex) ++ w2)
  = Some (LDec neg (dec_value (ip ++ fp)) (x - Z.of_nat (List.length fp))).
Proof.
  intros H1 H2 Hi Hf Hn Hu Hx Hx0 Hx1. unfold float_lit.
  set (core := sign_str neg ++ ip ++ ["."%char] ++ fp ++ ex).
  assert (Hcore1 : exists c0 s0, core = c0 :: s0 /\ is_space c0 = false).
  { unfold core, sign_str. destruct neg; [cbn; eauto|]. destruct ip as [|c r]; [cbn; eauto|].
    cbn. exists c. eexists. split; [reflexivity|]. inversion Hi. now apply digit_not_space. }
  assert (Hcore2 : exists s1 c1, core = s1 ++ [c1] /\ is_space c1 = false).
  { unfold core. destruct ex as [|e0 e1] eqn:Eex.
    - destruct fp as [|c r] eqn:Ef.
      + exists (sign_str neg ++ ip), "."%char. split; [now rewrite <- app_assoc|reflexivity].
      + rewrite <- Ef in *. destruct (nonempty_last fp) as [s1 [c1 E]]; [now rewrite Ef|].
        exists (sign_str neg ++ ip ++ ["."%char] ++ s1), c1. split.
        * rewrite E. rewrite <- !app_assoc. cbn. rewrite ?app_nil_r. reflexivity.
        * rewrite E in Hf. apply digits_app in Hf. destruct Hf as [_ Hf]. inversion Hf. now apply digit_not_space.
    - rewrite <- Eex in *. destruct Hx1 as [_ [r [c [E Hc]]]]; [now rewrite Eex|].
      exists (sign_str neg ++ ip ++ ["."%char] ++ fp ++ r), c. split; [|exact Hc].
      rewrite E. rewrite <- !app_assoc. reflexivity. }
  destruct Hcore1 as [c0 [s0 [E0 Hc0]]]. destruct Hcore2 as [s1 [c1 [E1 Hc1]]].
  rewrite (strip_core w1 core w2 c0 s0 s1 c1) by assumption.
  rewrite drop_underscores_none.
  2:{ unfold core. apply Forall_app. split; [destruct neg; repeat constructor|].
      apply Forall_app. split; [now apply digits_no_underscore|].
      apply Forall_app. split; [repeat constructor|]. apply Forall_app.
      split; [now apply digits_no_underscore|exact Hu]. }
  assert (Hs : take_sign core = (neg, ip ++ ["."%char] ++ fp ++ ex)).
  { unfold core. destruct neg; [reflexivity|]. cbn [sign_str app].
    destruct ip as [|c r]; [reflexivity|]. inversion Hi as [|c' r' Hc Hr]; subst. apply digit_is_digit in Hc.
    cbn. now rewrite is_digit_not_minus, is_digit_not_plus. }
  rewrite Hs. set (u := ip ++ ["."%char] ++ fp ++ ex).
  assert (Hu0 : exists c r, u = c :: r /\ (is_digit c = true \/ c = "."%char)).
  { unfold u. destruct ip as [|c r]; cbn; [eauto|]. exists c. eexists. split; [reflexivity|].
    left. inversion Hi. now apply digit_is_digit. }
  rewrite !float_word_no; try exact Hu0; try (eexists; eexists; split; [reflexivity|reflexivity]).
  cbn [orb]. unfold u.
  rewrite (span_digits_app ip) by (try exact Hi; reflexivity).
  cbn [app]. rewrite ceqb_refl.
  rewrite (span_digits_app fp) by assumption.
  destruct (ip ++ fp) as [|d0 ds] eqn:Ed; [congruence|]. rewrite <- Ed in *.
  destruct ex as [|e0 e1].
  - cbn [float_exponent]. rewrite digits_val_dec, Hx0 by reflexivity. reflexivity.
  - destruct Hx1 as [Hx1 _]; [discriminate|]. rewrite Hx1, digits_val_dec. reflexivity.
Qed.

Lemma float_lit_fix w k s neg m : fix_field w k s neg m ->
  float_lit s = Some (LDec neg m (- Z.of_nat k)).
Proof.
  intros [Hl [b [ip [fp [-> [Hb [Hi [Hf [Hk [Hn ->]]]]]]]]]].
  pose proof (float_lit_dec b neg ip fp [] [] 0 (blanks_white _ Hb)) as H.
  rewrite !app_nil_r in H. unfold sign_str in H.
  eapply eq_trans; [apply H|]; try assumption; try constructor; try reflexivity; try congruence.
  rewrite Hk. reflexivity.
Qed.
Lemma fix_field_last w k s neg m : fix_field w k s neg m -> exists r c, s = r ++ [c] /\ is_space c = false.
Proof.
  intros [Hl [b [ip [fp [-> [Hb [Hi [Hf [Hk [Hn ->]]]]]]]]]].
  destruct fp as [|c r] eqn:Ef.
  - exists (b ++ (if neg then ["-"%char] else []) ++ ip), "."%char. split; [now rewrite <- !app_assoc|reflexivity].
  - rewrite <- Ef in *. destruct (nonempty_last fp) as [s1 [c1 E]]; [now rewrite Ef|].
    exists (b ++ (if neg then ["-"%char] else []) ++ ip ++ ["."%char] ++ s1), c1. split.
    + rewrite E, <- !app_assoc. reflexivity.
    + rewrite E in Hf. apply digits_app in Hf. destruct Hf as [_ Hf]. inversion Hf. now apply digit_not_space.
Qed.
