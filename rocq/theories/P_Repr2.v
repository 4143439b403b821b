(** The text of a float reads back as that float. *)
From Coq Require Import Reals Lra ZifyBool ZifyNat.
From Flocq Require Import Core.Core IEEE754.BinarySingleNaN.
From Verif Require Import Base PyStr PyFloat PyRepr S_Text P_Str P_Float P_Repr1.
Open Scope Z_scope.

Lemma sf_eqb_eq x y : sf_eqb x y = true -> x = y.
Proof.
  destruct x as [s|s| |s m e], y as [t|t| |t n f]; cbn; try discriminate; try reflexivity; intros H.
  - apply Bool.eqb_prop in H. now subst.
  - apply Bool.eqb_prop in H. now subst.
  - apply andb_prop in H. destruct H as [H H3]. apply andb_prop in H. destruct H as [H1 H2].
    apply Bool.eqb_prop in H1. apply Pos.eqb_eq in H2. apply Z.eqb_eq in H3. now subst.
Qed.
Lemma ratio_real m e n d : ratio m e = (n, d) -> 0 < n /\ 0 < d /\ (IZR n / IZR d = IZR (Zpos m) * bpow radix2 e)%R.
Proof.
  unfold ratio. destruct (Z.leb_spec 0 e) as [He|He]; intros H; pose proof (f_equal fst H) as H1; pose proof (f_equal snd H) as H2; cbn [fst snd] in H1, H2; clear H; subst n d.
  - split; [apply Z.mul_pos_pos; [lia|apply Z.pow_pos_nonneg; lia]|]. split; [lia|]. rewrite mult_IZR. change 2 with (radix2 : Z). rewrite IZR_Zpower by exact He. field.
  - split; [lia|]. split; [apply Z.pow_pos_nonneg; lia|]. change 2 with (radix2 : Z). rewrite IZR_Zpower by lia. rewrite bpow_opp.
    pose proof (bpow_gt_0 radix2 e). field. lra.
Qed.

Section Digits.
Variables (neg : bool) (m : positive) (e : Z) (n d : Z).
Notation x := (S754_finite neg m e).
Hypothesis Hv : valid_binary 53 1024 x = true.
Hypothesis Hr : ratio m e = (n, d).
Notation k := (dec_exp n d).

Lemma x_good : good x. Proof. split; [exact Hv|reflexivity]. Qed.
Lemma x_real : f2r x = (sgn neg * (IZR n / IZR d))%R.
Proof.
  destruct (ratio_real m e n d Hr) as [_ [_ ->]]. cbn [SF2R]. unfold F2R. cbn [Fnum Fexp]. rewrite cond_Zopp_sgn. ring.
Qed.
Lemma x_format : generic_format radix2 fexp64 (IZR n / IZR d) /\ (IZR n / IZR d < bpow radix2 1024)%R /\ (0 < IZR n / IZR d)%R.
Proof.
  destruct (ratio_real m e n d Hr) as [Hn [Hd E]]. assert (Hp : (0 < IZR n / IZR d)%R) by (apply Rdiv_lt_0_compat; apply IZR_lt; lia).
  destruct (good_B x x_good) as [b [Eb [Fb Rb]]]. pose proof (generic_format_B2R 53 1024 b) as Hg. pose proof (abs_B2R_lt_emax 53 1024 b) as Hl.
  rewrite Rb, x_real in Hg, Hl. rewrite sgn_abs, Rabs_pos_eq in Hl by lra. split; [|split; [exact Hl|exact Hp]].
  destruct neg; unfold sgn in Hg; [|now rewrite Rmult_1_l in Hg]. replace (-1 * (IZR n / IZR d))%R with (- (IZR n / IZR d))%R in Hg by ring.
  apply generic_format_opp in Hg. now rewrite Ropp_involutive in Hg.
Qed.

Lemma seventeen : 0 < fst (beside n d (17 - 1 - k)) /\ b64_of_dec neg (fst (beside n d (17 - 1 - k))) (- (17 - 1 - k)) = x.
Proof.
  destruct (ratio_real m e n d Hr) as [Hn [Hd E]]. destruct x_format as [Hg [Hl Hp]]. destruct (dec_exp_spec n d Hn Hd) as [Hk _].
  set (s := 17 - 1 - k). pose proof (beside_near n d s Hn Hd) as Hb. set (c := fst (beside n d s)) in *. set (r := (IZR n / IZR d)%R) in *.
  assert (E16 : bpow r10 (- s) = (bpow r10 (-16) * bpow r10 k)%R) by (rewrite <- bpow_plus; f_equal; lia).
  assert (H16 : (bpow r10 (-16) < 1)%R). { change 1%R with (bpow r10 0). apply bpow_lt. lia. }
  pose proof (bpow_gt_0 r10 (-16)) as P16. pose proof (bpow_gt_0 r10 k) as Pk. pose proof (bpow_gt_0 r10 (- s)) as Ps.
  assert (Hnear : (Rabs (IZR c * bpow r10 (- s) - r) <= / 2 * bpow r10 (-16) * r)%R).
  { eapply Rle_trans; [exact Hb|]. rewrite E16, Rmult_assoc. apply Rmult_le_compat_l; [lra|]. apply Rmult_le_compat_l; [lra|exact Hk]. }
  assert (Hc : 0 < c).
  { apply lt_IZR. apply Rmult_lt_reg_r with (bpow r10 (- s)); [exact Ps|]. rewrite Rmult_0_l. apply Rabs_le_inv in Hnear.
    assert (/ 2 * bpow r10 (-16) * r < r)%R; [|lra]. rewrite <- (Rmult_1_l r) at 2. apply Rmult_lt_compat_r; [exact Hp|lra]. }
  split; [exact Hc|]. destruct c as [|p|p] eqn:Ec; [lia| |lia]. pose proof (rounds_back r _ Hg Hp Hnear) as Hrnd.
  pose proof (dec_flocq neg p (- s)) as HF. cbv zeta in HF. rewrite Hrnd in HF. rewrite Rlt_bool_true in HF by (rewrite Rabs_pos_eq by lra; exact Hl).
  destruct HF as [G [F S]]. apply good_inj; [exact G|exact x_good| |exact S]. rewrite F, x_real. fold r.
  destruct neg; unfold sgn; [|rewrite !Rmult_1_l; exact Hrnd]. match goal with |- rnd64 ?a = _ => replace a with (- (IZR (Z.pos p) * bpow r10 (- s)))%R by ring end.
  rewrite round_NE_opp, Hrnd. ring.
Qed.
Lemma back_positive c s : b64_of_dec neg c s = x -> 0 < c.
Proof. destruct c as [|p|p]; cbn; [discriminate|lia|discriminate]. Qed.
Lemma fewest_ok f : forall i, i + Z.of_nat f = 17 -> let '(c, s) := fewest f neg x n d k i in 0 < c /\ b64_of_dec neg c (- s) = x.
Proof.
  induction f as [|f IH]; intros i Hi; cbn [fewest].
  - replace i with 17 by lia. exact seventeen.
  - destruct (reads_back neg x n d (i - 1 - k)) as [c|] eqn:E; [|apply IH; lia].
    assert (H : b64_of_dec neg c (- (i - 1 - k)) = x).
    { unfold reads_back in E. destruct (beside n d (i - 1 - k)) as [c1 c2].
      destruct (sf_eqb (b64_of_dec neg c1 (- (i - 1 - k))) x) eqn:E1; [injection E as <-; now apply sf_eqb_eq|].
      destruct (sf_eqb (b64_of_dec neg c2 (- (i - 1 - k))) x) eqn:E2; [injection E as <-; now apply sf_eqb_eq|discriminate]. }
    split; [exact (back_positive _ _ H)|exact H].
Qed.
End Digits.

(** ** the text *)
Lemma drop_zeros_spec s : exists z, s = drop_zeros s ++ repeat "0"%char z.
Proof.
  induction s as [|c r [z IH]]; [exists 0%nat; reflexivity|]. cbn [drop_zeros]. destruct (drop_zeros r) as [|a b] eqn:E.
  - destruct (ceqb c "0"%char) eqn:Ec.
    + apply Ascii.eqb_eq in Ec. exists (S z). rewrite Ec. cbn in *. now f_equal.
    + exists z. cbn in *. now f_equal.
  - exists z. rewrite IH at 1. reflexivity.
Qed.
(** text  [-] digits exponent, without a point *)
Lemma float_lit_exp neg ip ex x : digits ip -> ip <> [] -> Forall (fun c => ceqb c "_"%char = false) ex ->
  (match ex with [] => False | c :: _ => is_digit c = false /\ ceqb c "."%char = false end) ->
  float_exponent ex = Some x -> (exists r c, ex = r ++ [c] /\ is_space c = false) ->
  float_lit (sign_str neg ++ ip ++ ex) = Some (LDec neg (dec_value ip) x).
Proof.
  intros Hi Hn Hu Hx Hx1 [r [c1 [Er Hc1]]]. unfold float_lit. set (core := sign_str neg ++ ip ++ ex).
  assert (Hcore1 : exists c0 s0, core = c0 :: s0 /\ is_space c0 = false).
  { unfold core, sign_str. destruct neg; [cbn; eauto|]. destruct ip as [|c q]; [congruence|]. cbn. exists c. eexists. split; [reflexivity|]. inversion Hi. now apply digit_not_space. }
  assert (Hcore2 : exists s1, core = s1 ++ [c1]).
  { exists (sign_str neg ++ ip ++ r). unfold core. rewrite Er, <- !app_assoc. reflexivity. }
  destruct Hcore1 as [c0 [s0 [E0 Hc0]]]. destruct Hcore2 as [s1 E1].
  pose proof (strip_core [] core [] c0 s0 s1 c1) as HS. cbn [app] in HS. rewrite app_nil_r in HS. rewrite HS; try assumption; try constructor.
  rewrite drop_underscores_none.
  2:{ unfold core. apply Forall_app. split; [destruct neg; repeat constructor|]. apply Forall_app. split; [now apply digits_no_underscore|exact Hu]. }
  assert (Hs : take_sign core = (neg, ip ++ ex)).
  { unfold core. destruct neg; [reflexivity|]. cbn [sign_str app]. destruct ip as [|c q]; [congruence|]. inversion Hi as [|c' r' Hc Hr]; subst. apply digit_is_digit in Hc.
    cbn. now rewrite is_digit_not_minus, is_digit_not_plus. }
  rewrite Hs. set (u := ip ++ ex).
  assert (Hu0 : exists c r, u = c :: r /\ (is_digit c = true \/ c = "."%char)).
  { unfold u. destruct ip as [|c q]; [congruence|]. cbn. exists c. eexists. split; [reflexivity|]. left. inversion Hi. now apply digit_is_digit. }
  rewrite !float_word_no; try exact Hu0; try (eexists; eexists; split; [reflexivity|reflexivity]).
  cbn [orb]. unfold u. destruct ex as [|e0 e1]; [contradiction|]. destruct Hx as [Hx Hp].
  rewrite (span_digits_app ip) by (try exact Hi; exact Hx). rewrite Hp. rewrite app_nil_r. destruct ip as [|i0 i1] eqn:Ei; [congruence|]. rewrite <- Ei. rewrite Hx1, digits_val_dec.
  cbn [List.length Z.of_nat]. rewrite Z.sub_0_r. reflexivity.
Qed.

Lemma zeros_digits z : digits (repeat "0"%char z).
Proof. apply Forall_forall. intros c Hc. apply repeat_spec in Hc. subst. unfold digit; cbn; lia. Qed.
Lemma dec_value_repeat z : dec_value (repeat "0"%char z) = 0.
Proof. rewrite <- (app_nil_r (repeat _ z)). now rewrite dec_value_zeros. Qed.
Lemma IZR_pow10 z : IZR (10 ^ Z.of_nat z) = bpow r10 (Z.of_nat z).
Proof. apply (IZR_Zpower r10). lia. Qed.

Lemma place_point_lit neg ds p : digits ds -> ds <> [] ->
  exists m' e', float_lit (sign_str neg ++ place_point ds p) = Some (LDec neg m' e') /\ (IZR m' * bpow r10 e' = IZR (dec_value ds) * bpow r10 (p - Z.of_nat (List.length ds)))%R.
Proof.
  intros Hd Hn. unfold place_point. destruct ((-4 <? p) && (p <=? 16))%bool.
  - destruct (Z.leb_spec p 0) as [Hp|Hp]; [|destruct (Z.leb_spec (Z.of_nat (List.length ds)) p) as [Hl|Hl]].
    + pose proof (float_lit_dec [] neg (lit "0") (repeat "0"%char (Z.to_nat (- p)) ++ ds) [] [] 0) as F. cbn [app] in F. rewrite !app_nil_r in F.
      eexists. eexists. split; [apply F; try constructor; try congruence|].
      * unfold digit; cbn; lia.
      * constructor.
      * apply digits_app. split; [apply zeros_digits|exact Hd].
      * discriminate.
      * rewrite app_length, repeat_length. cbn [lit list_ascii_of_string app]. change ("0"%char :: repeat "0"%char (Z.to_nat (- p)) ++ ds) with (repeat "0"%char (S (Z.to_nat (- p))) ++ ds). rewrite dec_value_zeros.
        f_equal. f_equal. lia.
    + pose proof (float_lit_dec [] neg (ds ++ repeat "0"%char (Z.to_nat p - List.length ds)) (lit "0") [] [] 0) as F. cbn [app] in F. rewrite !app_nil_r in F.
      eexists. eexists. split.
      * rewrite (app_assoc ds). apply F; try constructor; try congruence.
        -- apply digits_app. split; [exact Hd|apply zeros_digits].
        -- unfold digit; cbn; lia.
        -- constructor.
        -- destruct ds; [congruence|discriminate].
      * rewrite (dec_value_app _ (lit "0")), dec_value_app, dec_value_repeat, repeat_length. change (dec_value (lit "0")) with 0. rewrite !Z.add_0_r, !mult_IZR. change (Z.of_nat (List.length (lit "0"))) with 1.
        rewrite IZR_pow10. change (IZR (10 ^ 1)) with (bpow r10 1). rewrite !Rmult_assoc, <- !bpow_plus. f_equal. f_equal. lia.
    + pose proof (float_lit_dec [] neg (firstn (Z.to_nat p) ds) (skipn (Z.to_nat p) ds) [] [] 0) as F. cbn [app] in F. rewrite !app_nil_r in F. rewrite firstn_skipn in F.
      assert (Hd2 : digits (firstn (Z.to_nat p) ds ++ skipn (Z.to_nat p) ds)) by (rewrite firstn_skipn; exact Hd). apply digits_app in Hd2. destruct Hd2 as [D1 D2].
      eexists. eexists. split; [apply F; try constructor; try congruence; assumption|]. f_equal. f_equal. rewrite skipn_length. lia.
  - set (ed := pad_left "0"%char 2 (nat_str (Z.abs (p - 1)))). destruct (nat_str_spec (Z.abs (p - 1)) ltac:(lia)) as [N1 [N2 [N3 _]]].
    assert (De : digits ed) by (unfold ed, pad_left, repeat_c; apply digits_app; split; [apply zeros_digits|exact N1]).
    assert (Ve : dec_value ed = Z.abs (p - 1)) by (unfold ed, pad_left, repeat_c; rewrite dec_value_zeros; exact N3).
    assert (Ne : ed <> []) by (unfold ed, pad_left, repeat_c; intros E; apply app_eq_nil in E; tauto).
    set (ex := (if p - 1 <? 0 then lit "e-" else lit "e+") ++ ed).
    assert (X1 : float_exponent ex = Some (p - 1)).
    { unfold ex. destruct (Z.ltb_spec (p - 1) 0); cbn [lit list_ascii_of_string app float_exponent]; change (ceqb (lower_c "e"%char) "e"%char) with true; cbv iota; cbn [take_sign];
        [change (ceqb "-"%char "-"%char) with true|change (ceqb "+"%char "-"%char) with false; change (ceqb "+"%char "+"%char) with true]; cbv iota beta;
        (destruct ed as [|a b] eqn:E; [congruence|]); rewrite <- E in *; rewrite (proj1 (digits_forallb ed) De), digits_val_dec, Ve; f_equal; lia. }
    assert (X2 : Forall (fun c => ceqb c "_"%char = false) ex).
    { unfold ex. apply Forall_app. split; [destruct (p - 1 <? 0); repeat constructor|now apply digits_no_underscore]. }
    assert (X3 : exists r c, ex = r ++ [c] /\ is_space c = false).
    { destruct (nonempty_last ed Ne) as [r [c E]]. exists ((if p - 1 <? 0 then lit "e-" else lit "e+") ++ r), c. split; [unfold ex; rewrite E, app_assoc; reflexivity|].
      rewrite E in De. apply digits_app in De. destruct De as [_ De]. inversion De. now apply digit_not_space. }
    destruct ds as [|d0 dr]; [congruence|]. inversion Hd as [|? ? H0 Hr']; subst. cbn [firstn skipn]. assert (D0 : digits [d0]) by (constructor; [exact H0|constructor]).
    destruct dr as [|d1 dr'] eqn:Edr.
    + pose proof (float_lit_exp neg [d0] ex (p - 1) D0 ltac:(discriminate) X2) as F. cbn [app] in *. eexists. eexists. split.
      * apply F; [unfold ex; destruct (p - 1 <? 0); split; reflexivity|exact X1|exact X3].
      * f_equal.
    + rewrite <- Edr in *. pose proof (float_lit_dec [] neg [d0] dr ex [] (p - 1)) as F. cbn [app] in F. rewrite app_nil_r in F. eexists. eexists. split.
      * cbn [app]. apply F; [constructor|constructor|exact D0|assumption|discriminate|exact X2|unfold ex; destruct (p - 1 <? 0); reflexivity| |].
        -- intros E. exfalso. revert E. unfold ex. destruct (p - 1 <? 0); discriminate.
        -- intros _. split; [exact X1|exact X3].
      * cbn [List.length]. f_equal. f_equal. lia.
Qed.

Lemma repr_reads x : valid_binary fprec femax x = true -> py_float (repr_float x) = Ok x.
Proof.
  intros Hv. destruct x as [s|s| |s m e]; [destruct s; reflexivity|destruct s; reflexivity|reflexivity|].
  unfold repr_float. destruct (ratio m e) as [n d] eqn:Er. pose proof (fewest_ok s m e n d Hv Er 16 1 eq_refl) as HF.
  destruct (fewest 16 s (S754_finite s m e) n d (dec_exp n d) 1) as [c sc]. destruct HF as [Hc HF]. cbv zeta.
  destruct (nat_str_spec c ltac:(lia)) as [N1 [N2 [N3 _]]]. destruct (drop_zeros_spec (nat_str c)) as [z Hz]. set (ds := drop_zeros (nat_str c)) in *.
  assert (Hd : digits ds) by (rewrite Hz in N1; apply digits_app in N1; apply N1).
  assert (Hval : c = dec_value ds * 10 ^ Z.of_nat z).
  { rewrite <- N3, Hz, dec_value_app, dec_value_repeat, repeat_length. lia. }
  assert (Hn : ds <> []) by (intros E; rewrite E in Hval; cbn in Hval; lia).
  destruct (place_point_lit s ds (Z.of_nat (List.length (nat_str c)) - sc) Hd Hn) as [m' [e' [HL HE]]].
  unfold py_float, py_float_opt. transitivity (of_option ValueError (option_map float_of_lit (Some (LDec s m' e')))); [rewrite <- HL; destruct s; reflexivity|]. cbn [option_map of_option float_of_lit]. f_equal. rewrite <- HF.
  assert (HR : (IZR m' * bpow r10 e' = IZR c * bpow r10 (- sc))%R).
  { assert (Ec : IZR c = (IZR (dec_value ds) * bpow r10 (Z.of_nat z))%R) by (rewrite <- IZR_pow10, <- mult_IZR; f_equal; exact Hval).
    assert (El : Z.of_nat (List.length (nat_str c)) = Z.of_nat (List.length ds) + Z.of_nat z) by (rewrite Hz at 1; rewrite app_length, repeat_length; lia).
    rewrite HE, Ec, El, Rmult_assoc, <- bpow_plus. f_equal. f_equal. lia. }
  assert (Hm : 0 < m').
  { apply lt_IZR. apply Rmult_lt_reg_r with (bpow r10 e'); [apply bpow_gt_0|]. rewrite Rmult_0_l, HR. apply Rmult_lt_0_compat; [apply IZR_lt; exact Hc|apply bpow_gt_0]. }
  destruct m' as [|p|p]; [lia| |lia]. destruct c as [|q|q]; [lia| |lia]. apply dec_same. exact HR.
Qed.
