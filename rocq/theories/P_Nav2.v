(** Navigation files: numbers and lines of well-formed files. *)
From Coq Require Import Reals Lra.
From Flocq Require Import Core.Core IEEE754.BinarySingleNaN.
From Verif Require Import Base PyStr PyFloat PyDate PyPath M_Common M_Header M_Names M_Nav S_Text S_Time S_Obs2 S_Nav P_Str P_Float P_Sec P_Date P_Common P_Obs2 P_Xyz P_Nav.
Open Scope nat_scope.

Lemma lower_digits s : digits s -> lower s = s.
Proof.
  intros H. induction H as [|c s Hc Hs IH]; [reflexivity|]. cbn. rewrite lower_c_digit by now apply digit_is_digit. f_equal. exact IH.
Qed.
Lemma d_to_e_app a b : d_to_e (a ++ b) = d_to_e a ++ d_to_e b.
Proof. unfold d_to_e, lower, replace_c. now rewrite !map_app. Qed.
Lemma d_to_e_digits s : digits s -> d_to_e s = s.
Proof.
  intros H. unfold d_to_e. rewrite lower_digits by exact H. unfold replace_c.
  induction H as [|c s Hc Hs IH]; [reflexivity|]. cbn. f_equal; [|exact IH].
  destruct (ceqb c "d"%char) eqn:E; [|reflexivity]. apply ceqb_eq in E. subst c. unfold digit in Hc. cbn in Hc. lia.
Qed.
Lemma d_to_e_blanks s : blanks s -> d_to_e s = s.
Proof. intros H. unfold d_to_e, lower, replace_c. rewrite map_map. induction H as [|c s Hc Hs IH]; [reflexivity|]. subst c. cbn. now rewrite IH. Qed.

Lemma powerRZ_neg10 k : (powerRZ 10 (- Z.of_nat k) = / 10 ^ k)%R.
Proof. rewrite powerRZ_neg', <- pow_powerRZ. reflexivity. Qed.
Lemma powerRZ_IZR10 e : (0 <= e)%Z -> (powerRZ 10 e = IZR (10 ^ e))%R.
Proof.
  intros H. rewrite <- (Z2Nat.id e) by exact H. rewrite <- pow_powerRZ, (pow_IZR 10). reflexivity.
Qed.

Lemma b64_of_dec_exp neg m e : (0 <= m < 10 ^ 19)%Z -> (-200 <= e <= 200)%Z ->
  nearest64 (b64_of_dec neg m e) (nfield_real (NNum neg m e)).
Proof.
  intros Hm He. cbn [nfield_real].
  destruct (Z_lt_dec e 0) as [Hneg|Hpos].
  - replace e with (- Z.of_nat (Z.to_nat (- e)))%Z by lia. rewrite powerRZ_neg10.
    apply b64_of_dec_nearest. split; [lia|]. apply Z.le_trans with (2 ^ 64)%Z; [lia|apply Z.pow_le_mono_r; lia].
  - rewrite powerRZ_IZR10 by lia. destruct m as [|p|p]; [| |lia].
    + unfold nearest64. cbn [b64_of_dec valid_binary is_finite_SF SF2R]. repeat split.
      replace ((if neg then -1 else 1) * 0 * IZR (10 ^ e))%R with 0%R by ring. now rewrite round_0 by typeclasses eauto.
    + destruct (b64_of_dec_pos_exp neg p e) as [[H1 H2] [H3 _]]; [lia| |].
      { rewrite Rabs_pos_eq by (apply IZR_le, Z.mul_nonneg_nonneg; [lia|apply Z.pow_nonneg; lia]). apply big_IZR.
        apply Z.le_trans with (2 ^ 64 * 2 ^ 800)%Z; [|rewrite <- Z.pow_add_r by lia; apply Z.pow_le_mono_r; lia].
        apply Z.mul_le_mono_nonneg; [lia|lia|apply Z.pow_nonneg; lia|].
        apply Z.le_trans with (10 ^ 200)%Z; [apply Z.pow_le_mono_r; lia|].
        apply Z.le_trans with (16 ^ 200)%Z; [apply Z.pow_le_mono_l; lia|]. change 16%Z with (2 ^ 4)%Z. rewrite <- Z.pow_mul_r by lia. reflexivity. }
      repeat split; try assumption. rewrite H3. f_equal. rewrite mult_IZR. unfold sgn. ring.
Qed.

(** the conversion of a field *)
Lemma exponent_text c es eneg ed : In c (lit "DdEe") -> sign_text es eneg -> digits ed -> ed <> [] ->
  d_to_e (c :: es ++ ed) = "e"%char :: es ++ ed /\
  float_exponent ("e"%char :: es ++ ed) = Some (if eneg then - dec_value ed else dec_value ed)%Z /\
  Forall (fun c => ceqb c "_"%char = false) ("e"%char :: es ++ ed) /\
  exists r c1, "e"%char :: es ++ ed = r ++ [c1] /\ is_space c1 = false.
Proof.
  intros Hc Hs Hd Hn.
  assert (E1 : d_to_e (c :: es ++ ed) = "e"%char :: es ++ ed).
  { change (c :: es ++ ed) with ([c] ++ es ++ ed). rewrite !d_to_e_app, (d_to_e_digits ed) by exact Hd.
    change ("e"%char :: es ++ ed) with (["e"%char] ++ es ++ ed). f_equal; [|f_equal].
    - cbn in Hc. destruct Hc as [<-|[<-|[<-|[<-|[]]]]]; reflexivity.
    - destruct Hs as [[-> _]|[[-> _]|[-> _]]]; reflexivity. }
  split; [exact E1|]. split; [|split].
  - unfold float_exponent. change (ceqb (lower_c "e"%char) "e"%char) with true. cbv iota.
    assert (Et : take_sign (es ++ ed) = (eneg, ed)).
    { destruct Hs as [[-> ->]|[[-> ->]|[-> ->]]]; [now apply take_sign_digits|reflexivity|reflexivity]. }
    rewrite Et. destruct ed as [|x y] eqn:E; [congruence|]. rewrite <- E in *.
    rewrite (proj1 (digits_forallb ed) Hd), digits_val_dec. reflexivity.
  - constructor; [reflexivity|]. apply Forall_app. split; [|now apply digits_no_underscore].
    destruct Hs as [[-> _]|[[-> _]|[-> _]]]; repeat constructor.
  - destruct (nonempty_last ed Hn) as [r [c1 ->]]. exists ("e"%char :: es ++ r), c1. split; [now rewrite app_assoc|].
    apply digits_app in Hd. destruct Hd as [_ Hd]. inversion Hd. now apply digit_not_space.
Qed.

Lemma nfield_num t neg m e : nfield_text t (NNum neg m e) ->
  ends_black t /\ List.length t = 19 /\ exists x, py_float (d_to_e t) = Ok x /\ nearest64 x (nfield_real (NNum neg m e)).
Proof.
  intros H. inversion H as [|b ip fp es ed neg' c eneg Hb Hi Hf Hn Hc Hs Hd Hl Hlen E1 E2]; subst.
  assert (Hed : ed <> []) by (destruct ed; cbn in Hl; [lia|discriminate]).
  destruct (exponent_text c es eneg ed Hc Hs Hd Hed) as [X1 [X2 [X3 X4]]].
  split; [|split; [exact Hlen|]].
  - destruct (nonempty_last ed Hed) as [r [c1 ->]].
    exists (b ++ (if neg then ["-"%char] else []) ++ ip ++ "."%char :: fp ++ c :: es ++ r), c1. split.
    + rewrite <- !app_assoc. cbn. rewrite <- !app_assoc. cbn. rewrite <- !app_assoc. cbn. rewrite <- ?app_assoc. reflexivity.
    + apply digits_app in Hd. destruct Hd as [_ Hd]. inversion Hd. now apply digit_not_space.
  - set (ex := if eneg then (- dec_value ed)%Z else dec_value ed) in *.
    assert (Ef : float_lit (d_to_e (b ++ (if neg then ["-"%char] else []) ++ ip ++ "."%char :: fp ++ c :: es ++ ed))
       = Some (LDec neg (dec_value (ip ++ fp)) (ex - Z.of_nat (List.length fp)))).
    { pose proof (float_lit_dec b neg ip fp ("e"%char :: es ++ ed) [] ex (blanks_white _ Hb)) as HL.
      rewrite <- HL; try assumption; try constructor; try reflexivity; try discriminate; try (inversion X3; assumption).
      - f_equal. rewrite app_nil_r, !d_to_e_app. rewrite d_to_e_blanks, (d_to_e_digits ip) by assumption. f_equal.
        unfold sign_str. f_equal; [destruct neg; reflexivity|]. f_equal.
        change ("."%char :: fp ++ c :: es ++ ed) with (["."%char] ++ fp ++ c :: es ++ ed). rewrite !d_to_e_app, X1, (d_to_e_digits fp) by assumption. reflexivity.
    }
    unfold py_float, py_float_opt. rewrite Ef. cbn [option_map of_option float_of_lit]. eexists. split; [reflexivity|].
    rewrite !app_length in Hlen. cbn in Hlen. rewrite !app_length in Hlen. cbn in Hlen.
    apply b64_of_dec_exp.
    + split; [apply dec_value_nonneg, digits_app; auto|].
      eapply Z.lt_le_trans; [apply dec_value_bound, digits_app; auto|]. apply Z.pow_le_mono_r; [lia|]. rewrite app_length. lia.
    + assert (0 <= dec_value ed < 100)%Z.
      { split; [now apply dec_value_nonneg|]. eapply Z.lt_le_trans; [now apply dec_value_bound|]. change 100%Z with (10 ^ 2)%Z. apply Z.pow_le_mono_r; lia. }
      unfold ex. destruct eneg; lia.
Qed.

Lemma fzero_nearest x r : ftruth x = false -> nearest64 x r -> nearest64 fzero r.
Proof.
  intros Hx [_ [_ H]]. unfold ftruth, fis_zero in Hx. destruct x; try discriminate. split; [reflexivity|split; [reflexivity|]]. rewrite <- H. reflexivity.
Qed.
Lemma orbit_value_field t f : nfield_text t f -> exists x, orbit_value (d_to_e (rstrip t)) = Ok x /\ nearest64 x (nfield_real f).
Proof.
  intros H. destruct f as [|neg m e].
  - inversion H; subst. rewrite rstrip_white_nil by now apply blanks_white. exists fzero. split; [reflexivity|].
    split; [reflexivity|split; [reflexivity|]]. cbn. now rewrite round_0 by typeclasses eauto.
  - destruct (nfield_num _ _ _ _ H) as [[r [c [Et Hc]]] [_ [x [Hx Hn]]]].
    assert (Er : rstrip t = t) by (rewrite Et; now apply rstrip_nonspace_end). rewrite Er. unfold orbit_value.
    destruct (d_to_e t) as [|c0 s0] eqn:E; [subst t; rewrite d_to_e_app in E; now destruct (d_to_e r)|].
    rewrite Hx. cbn [bind]. destruct (ftruth x) eqn:Ex; [exists x; auto|]. exists fzero. split; [reflexivity|]. eapply fzero_nearest; eassumption.
Qed.
Lemma nfield_len t f : nfield_text t f -> List.length t = 19.
Proof. destruct 1; assumption. Qed.

Lemma orbit_line_values v n fs line : n <= 4 -> orbit_line v n fs line ->
  blank_start v line /\ exists vals, orbit_values v n line = Ok vals /\ Forall2 (fun f x => nearest64 x (nfield_real f)) fs vals.
Proof.
  intros Hn4 [texts [rest [Hn [HF [Hne Hsl]]]]].
  assert (Hlen : Forall (fun t => List.length t = 19) texts).
  { clear -HF. induction HF; constructor; [now apply nfield_len in H|assumption]. }
  pose proof (F2_length _ _ _ HF) as Hlt.
  set (k := if ver_lt3 v then 3 else 4) in *.
  split.
  - (* the first columns are blank *)
    destruct Hsl as [c [w1 [w2 [Ea [-> [Hw1 Hw2]]]]]]. unfold blank_start.
    assert (Hk : nav_spaces v <= k) by (unfold nav_spaces, k; destruct (ver_lt3 v); lia).
    assert (Hall : white (slice 0 (nav_spaces v) (c ++ w2))).
    { unfold slice. cbn [skipn]. rewrite Nat.sub_0_r, firstn_app. apply white_app. split.
      - assert (Hc : firstn (nav_spaces v) c = firstn (List.length (firstn (nav_spaces v) c)) (spaces k ++ concat texts ++ rest)).
        { rewrite Ea, firstn_length, firstn_app.
          replace (Init.Nat.min (nav_spaces v) (List.length c) - List.length c) with 0 by lia. cbn [firstn]. rewrite app_nil_r.
          destruct (Nat.le_ge_cases (nav_spaces v) (List.length c)).
          - now rewrite Nat.min_l by lia.
          - rewrite Nat.min_r, firstn_all, firstn_all2 by lia. reflexivity. }
        rewrite Hc, firstn_app, firstn_length.
        replace (Init.Nat.min (nav_spaces v) (List.length c) - List.length (spaces k)) with 0.
        2:{ unfold spaces, repeat_c. rewrite repeat_length. lia. }
        cbn [firstn]. rewrite app_nil_r. apply blanks_white. unfold spaces, repeat_c.
        apply Forall_forall. intros x Hx. assert (Hx' : In x (repeat " "%char k)).
        { rewrite <- (firstn_skipn (Init.Nat.min (nav_spaces v) (List.length c)) (repeat " "%char k)). apply in_or_app. now left. }
        now apply repeat_spec in Hx'.
      - apply Forall_forall. intros x Hx. apply (proj1 (Forall_forall _ _) Hw2).
        rewrite <- (firstn_skipn (nav_spaces v - List.length c) w2). apply in_or_app. now left. }
    assert (Hnn : slice 0 (nav_spaces v) (c ++ w2) <> []).
    { destruct (c ++ w2) as [|x y]; [congruence|]. unfold nav_spaces. destruct (ver_lt3 v); discriminate. }
    unfold isspace. destruct (slice 0 (nav_spaces v) (c ++ w2)) as [|x y] eqn:E; [congruence|].
    rewrite forallb_forall. intros z Hz. exact (proj1 (Forall_forall _ _) Hall z Hz).
  - apply same_line_rstrip in Hsl. unfold orbit_values.
    set (A := spaces k ++ concat texts ++ rest) in *. set (L := rstrip line) in *.
    assert (Hcol : forall j t, nth_error texts j = Some t -> exists x, orbit_value (d_to_e (rstrip (slice (k + 19 * j) (k + 19 * j + 19) L))) = Ok x /\
              forall f, nth_error fs j = Some f -> nearest64 x (nfield_real f)).
    { intros j t Hj.
      assert (Esl : slice (k + 19 * j) (k + 19 * j + 19) A = t).
      { pose proof (nth_concat_slice 19 texts j t (spaces k) rest Hlen Hj) as HS. assert (El : List.length (spaces k) = k) by (unfold spaces, repeat_c; apply repeat_length). rewrite El in HS. exact HS. }
      destruct (slice_rstrip (k + 19 * j) (k + 19 * j + 19) A) as [w [Ew Hw]]. rewrite Esl in Ew.
      rewrite <- Hsl. assert (Er : rstrip (slice (k + 19 * j) (k + 19 * j + 19) (rstrip A)) = rstrip t).
      { rewrite Ew. now rewrite rstrip_app_white by exact Hw. }
      rewrite Er.
      assert (Hf : exists f, nth_error fs j = Some f /\ nfield_text t f).
      { clear -HF Hj. revert j Hj. induction HF as [|t0 f0 ts fs' H0 HF IH]; intros [|j] Hj; try discriminate; cbn in Hj |- *.
        - injection Hj as <-. eauto.
        - now apply IH. }
      destruct Hf as [f [Hf1 Hf2]]. destruct (orbit_value_field t f Hf2) as [x [Hx1 Hx2]]. exists x. split; [exact Hx1|].
      intros f' Hf'. congruence. }
    assert (Hcols : firstn n (map (fun i => d_to_e (rstrip (slice i (i + 19) L))) (orbit_cols v)) =
             map (fun j => d_to_e (rstrip (slice (k + 19 * j) (k + 19 * j + 19) L))) (seq 0 n)).
    { unfold orbit_cols, k. destruct (ver_lt3 v); destruct n as [|[|[|[|[|n]]]]]; try lia; reflexivity. }
    rewrite Hcols.
    assert (Hgen : forall m s, s + m = List.length texts -> exists vals,
       mapM orbit_value (map (fun j => d_to_e (rstrip (slice (k + 19 * j) (k + 19 * j + 19) L))) (seq s m)) = Ok vals /\
       Forall2 (fun f x => nearest64 x (nfield_real f)) (skipn s fs) vals).
    { induction m as [|m IH]; intros s Hs.
      - exists []. split; [reflexivity|]. rewrite skipn_all2 by lia. constructor.
      - destruct (nth_error texts s) as [t|] eqn:Et; [|apply nth_error_None in Et; lia].
        destruct (Hcol s t Et) as [x [Hx1 Hx2]]. destruct (IH (S s) ltac:(lia)) as [vals [Hv1 Hv2]].
        exists (x :: vals). cbn [seq map mapM]. rewrite Hx1. cbn [bind]. rewrite Hv1. cbn [bind]. split; [reflexivity|].
        destruct (nth_error fs s) as [f|] eqn:Ef; [|apply nth_error_None in Ef; lia].
        assert (Esk : skipn s fs = f :: skipn (S s) fs).
        { clear -Ef. revert s Ef. induction fs as [|g gs IHg]; intros [|s] Ef; try discriminate; cbn in Ef |- *; [now injection Ef as ->|now apply IHg]. }
        rewrite Esk. constructor; [now apply Hx2|exact Hv2]. }
    destruct (Hgen n 0 ltac:(lia)) as [vals [Hv1 Hv2]]. exists vals. auto.
Qed.
