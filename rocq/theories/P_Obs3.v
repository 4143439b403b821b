(** Proofs about the RINEX 3 reader: fields, satellite lines, epoch lines. *)
From Coq Require Import ZifyBool ZifyNat.
From Verif Require Import Base PyStr PyFloat PyDate M_Common M_Header M_Obs2 M_Obs3.
From Verif Require Import S_Text S_Time S_Obs2 S_Errors2 S_Obs3 P_Str P_Float P_Sec P_Date P_Common P_Obs2 P_Obs2b P_Obs2c P_Errors2.
Open Scope nat_scope.

Lemma isspace_white s : s <> [] -> (isspace s = true <-> white s).
Proof.
  intros H. unfold isspace, white. destruct s as [|c r]; [congruence|]. rewrite forallb_forall, Forall_forall. tauto.
Qed.
Lemma digit_at_white k s : white (skipn k s) -> digit_at k s = 0%Z.
Proof.
  intros H. unfold digit_at. destruct (nth_error s k) as [c|] eqn:E; [|reflexivity].
  assert (Hin : In c (skipn k s)).
  { apply nth_error_split in E. destruct E as [a [b [-> Hl]]]. rewrite skipn_app_exact by exact Hl. now left. }
  unfold white in H. rewrite Forall_forall in H. specialize (H c Hin).
  destruct (is_digit c) eqn:Ed; [|reflexivity]. apply digit_is_digit, digit_not_space in Ed. congruence.
Qed.

Lemma get_val3_field t fld chunk p x1 x2 : field_text t fld -> t = p ++ x1 -> chunk = p ++ x2 -> white x1 -> white x2 ->
  length chunk <= 16 -> field_value3 fld (get_val3 chunk).
Proof.
  intros Ht Et Ec W1 W2 Hlen. inversion Ht as [s Hl Hb|s neg m cl cs l k Hfix Hl Hk]; subst.
  - assert (Hw : white (p ++ x2)).
    { apply white_app. split; [|exact W2]. apply blanks_white. unfold blanks in *. apply Forall_app in Hb. tauto. }
    unfold get_val3. destruct (p ++ x2) as [|c r] eqn:E; [constructor|].
    rewrite (proj2 (isspace_white (c :: r) ltac:(discriminate)) Hw). constructor.
  - destruct (py_float_fix _ _ _ _ _ Hfix ltac:(lia)) as [f [Hf [_ Hn]]].
    assert (Hls : length s = 14) by apply Hfix.
    destruct (fix_field_last _ _ _ _ _ Hfix) as [sr [sc [Es Hsc]]].
    assert (Hlp : length s <= length p).
    { destruct (le_lt_dec (length s) (length p)) as [|Hlt]; [assumption|exfalso].
      assert (Hx : nth_error (p ++ x1) (length sr) = Some sc).
      { rewrite <- H, Es, <- app_assoc. rewrite nth_error_app2 by lia. now rewrite Nat.sub_diag. }
      rewrite Es, app_length in Hlt. cbn [length] in Hlt. rewrite nth_error_app2 in Hx by lia.
      apply nth_error_In in Hx. unfold white in W1. rewrite Forall_forall in W1. specialize (W1 _ Hx). congruence. }
    assert (Hp : p = s ++ skipn (length s) p).
    { assert (E : firstn (length s) p = s).
      { assert (E : firstn (length s) (p ++ x1) = s) by (rewrite <- H; apply firstn_app_exact; reflexivity).
        rewrite firstn_app in E. replace (length s - length p) with 0 in E by lia. cbn in E. now rewrite app_nil_r in E. }
      rewrite <- E at 1. symmetry. apply firstn_skipn. }
    set (t' := skipn (length s) p) in *. clearbody t'.
    assert (Ht' : [cl; cs] = t' ++ x1).
    { rewrite Hp, <- app_assoc in H. apply app_inv_head in H. exact H. }
    clear Hlen. rewrite Hp, <- app_assoc.
    unfold get_val3. destruct (s ++ t' ++ x2) as [|c0 v0] eqn:Ev.
    { apply app_eq_nil in Ev. destruct Ev as [-> _]. discriminate. }
    rewrite <- Ev. clear c0 v0 Ev.
    assert (Hns : isspace (s ++ t' ++ x2) = false /\ isspace s = false).
    { split; [destruct (isspace (s ++ t' ++ x2)) eqn:E|destruct (isspace s) eqn:E]; try reflexivity; exfalso.
      - apply isspace_white in E; [|destruct s; [discriminate|discriminate]]. apply white_app in E. destruct E as [E _].
        rewrite Es in E. apply white_app in E. destruct E as [_ E]. inversion E. congruence.
      - apply isspace_white in E; [|destruct s; [discriminate|discriminate]].
        rewrite Es in E. apply white_app in E. destruct E as [_ E]. inversion E. congruence. }
    destruct Hns as [N1 N2]. rewrite N1. rewrite slice_0 by exact Hls. rewrite N2, Hf.
    destruct s as [|s0 sr'] eqn:Es'; [discriminate|]. rewrite <- Es' in *.
    assert (D : digit_at 14 (s ++ t' ++ x2) = l /\ digit_at 15 (s ++ t' ++ x2) = k).
    { assert (Hsk : forall j, digit_at (14 + j) (s ++ t' ++ x2) = digit_at j (t' ++ x2)).
      { intros j. unfold digit_at. rewrite nth_error_app2 by lia. replace (14 + j - length s) with j by lia. reflexivity. }
      pose proof (Hsk 0) as K0. pose proof (Hsk 1) as K1. cbn [plus] in K0, K1. rewrite K0, K1. clear K0 K1. destruct t' as [|a [|b t'']]; cbn [app] in Ht'.
      - subst x1. inversion W1 as [|x y Hx Hy]; subst. inversion Hy as [|x' y' Hx' Hy']; subst.
        rewrite !digit_at_white.
        + split; symmetry; eapply flag_white; eassumption.
        + cbn [app]. rewrite <- (firstn_skipn 1 x2) in W2. apply white_app in W2. tauto.
        + exact W2.
      - inversion Ht'; subst. inversion W1 as [|x y Hx Hy]; subst. cbn [app].
        split; [cbn; now apply flag_digit|]. rewrite digit_at_white by exact W2. symmetry. eapply flag_white; eassumption.
      - inversion Ht'; subst. cbn. split; now apply flag_digit. }
    destruct D as [-> ->]. constructor. exact Hn.
Qed.

(** the columns of two lines equal up to trailing white space *)
Lemma same_line_slice a b i j : same_line a b -> exists p x1 x2, slice i j a = p ++ x1 /\ slice i j b = p ++ x2 /\ white x1 /\ white x2.
Proof.
  intros [c [w1 [w2 [-> [-> [W1 W2]]]]]].
  destruct (slice_prefix i j c w1) as [t1 [E1 [u1 [v1 F1]]]]. destruct (slice_prefix i j c w2) as [t2 [E2 [u2 [v2 F2]]]].
  exists (slice i j c), t1, t2. split; [exact E1|]. split; [exact E2|].
  rewrite F1 in W1. rewrite F2 in W2. rewrite !white_app in W1, W2. tauto.
Qed.

Lemma F2_nth {A B} (R : A -> B -> Prop) l l' k b : Forall2 R l l' -> nth_error l' k = Some b -> exists a, nth_error l k = Some a /\ R a b.
Proof.
  intros H. revert k. induction H as [|x y l l' H0 H1 IH]; intros [|k] Hk; try discriminate; cbn in *.
  - inversion Hk; subst. eauto.
  - eauto.
Qed.

Lemma sat3_vals chunks name fs line : sat3_line name fs line -> length fs <= chunks ->
  exists vs, mapM (fun n => do ch <- chunk3 chunks n line; Ok (get_val3 ch)) (seq 0 (length fs)) = Ok vs /\ Forall2 field_value3 fs vs.
Proof.
  intros [tsat [texts [rest [Hsat [Ht Hsame]]]]] Hc.
  apply (mapM_seq_F2 field_value3). intros k f Hk. cbn [plus].
  assert (Hkl : k < length fs) by (apply nth_error_Some; congruence).
  assert (Hl : Forall (fun t => length t = 16) texts).
  { clear -Ht. induction Ht; constructor; [eapply field_text_len; eassumption|assumption]. }
  destruct (F2_nth _ _ _ _ _ Ht Hk) as [t [Htk Hft]].
  unfold chunk3. replace (k <? chunks) with true by (symmetry; apply Nat.ltb_lt; lia). cbn [bind].
  eexists. split; [reflexivity|].
  assert (Hsl : length tsat = 3) by (inversion Hsat; reflexivity).
  pose proof (nth_concat_slice 16 texts k t tsat rest Hl Htk) as Hs. rewrite Hsl in Hs.
  destruct (same_line_slice _ _ (3 + 16 * k) (3 + 16 * k + 16) Hsame) as [p [x1 [x2 [E1 [E2 [W1 W2]]]]]].
  replace (19 + 16 * k) with (3 + 16 * k + 16) by lia.
  apply (get_val3_field t f _ p x1 x2); try assumption.
  - rewrite <- E1, <- Hs. f_equal.
  - pose proof (slice_len (3 + 16 * k) (3 + 16 * k + 16) line). lia.
Qed.

Lemma sat_record3_make types fs vs : NoDup types -> length fs = length types -> Forall2 field_value3 fs vs ->
  exists r, make_record types vs [] = Ok r /\ sat_record3 types fs r.
Proof.
  intros Hn Hl Hv. exists (combine types vs). split.
  - rewrite make_record_combine; [reflexivity|exact Hn|]. apply F2_length in Hv. lia.
  - unfold sat_record3. clear Hn. revert types Hl. induction Hv as [|f v fs vs Hfv Hr IH]; intros [|t types] Hl; cbn in *; try lia; constructor.
    + split; [reflexivity|exact Hfv].
    + apply IH. lia.
Qed.

(** the first three columns of a satellite line *)
Lemma sat3_cols name fs line : sat3_line name fs line -> exists tsat, sat3_text tsat name /\ slice 0 3 line = tsat /\ exists r, line = tsat ++ r.
Proof.
  intros [tsat [texts [rest [Hsat [Ht Hsame]]]]]. exists tsat. split; [exact Hsat|].
  destruct Hsame as [c [w1 [w2 [E1 [-> [W1 W2]]]]]].
  inversion Hsat as [a d0 d1 Ha Hgt Hd1 Hd0]; subst.
  assert (Hlc : 3 <= length c).
  { destruct (le_lt_dec 3 (length c)) as [|Hlt]; [assumption|exfalso].
    assert (Hx : nth_error (c ++ w1) 2 = Some d1) by (rewrite <- E1; reflexivity).
    rewrite nth_error_app2 in Hx by lia. apply nth_error_In in Hx. unfold white in W1. rewrite Forall_forall in W1.
    specialize (W1 _ Hx). apply digit_not_space in Hd1. congruence. }
  destruct c as [|c0 [|c1 [|c2 c]]]; cbn [length] in Hlc; try lia. inversion E1; subst.
  split; [reflexivity|]. eexists. reflexivity.
Qed.

Lemma sat3_name tsat name : sat3_text tsat name -> replace_c " "%char "0"%char tsat = name.
Proof.
  intros H. inversion H as [c d0 d1 Hc Hgt Hd1 Hd0]; subst. cbn [replace_c map]. change ceqb with Ascii.eqb.
  destruct (Ascii.eqb_spec c " "); [congruence|]. destruct (Ascii.eqb_spec d1 " ") as [->|].
  { unfold digit in Hd1. cbn in Hd1. lia. }
  reflexivity.
Qed.

Definition tab_of (table : list (ascii * list str)) : obs_table := map (fun e => ([fst e], snd e)) table.
Lemma tab_of_get table c types : NoDup (map fst table) -> In (c, types) table -> dict_get seqb [c] (tab_of table) = Some types.
Proof.
  induction table as [|[a ts] table IH]; intros Hn Hin; [contradiction|]. cbn [tab_of map dict_get fst snd].
  inversion Hn as [|x y Hx Hy]; subst. destruct Hin as [E|Hin].
  - inversion E; subst. now rewrite seqb_refl.
  - destruct (seqb [c] [a]) eqn:E.
    + apply seqb_eq in E. inversion E; subst. exfalso. apply Hx. apply in_map_iff. exists (a, types). auto.
    + apply IH; assumption.
Qed.
Lemma tab_of_none table c : ~ In c (map fst table) -> dict_get seqb [c] (tab_of table) = None.
Proof.
  induction table as [|[a ts] table IH]; intros H; [reflexivity|]. cbn [tab_of map dict_get fst snd].
  destruct (seqb [c] [a]) eqn:E.
  - apply seqb_eq in E. inversion E; subst. exfalso. apply H. now left.
  - apply IH. intros Hin. apply H. now right.
Qed.

(** a satellite line is read back *)
Lemma sat3_read table chunks name fs types line : NoDup (map fst table) -> types_of table name types -> NoDup types ->
  length fs = length types -> length types <= chunks -> sat3_line name fs line ->
  exists vs r, parse_obs3 chunks (tab_of table) line = Ok (name, types, vs) /\ make_record types vs [] = Ok r /\ sat_record3 types fs r.
Proof.
  intros Hnt [c [rn [En Hin]]] Hnd Hlen Hc Hl.
  destruct (sat3_vals chunks name fs line Hl ltac:(lia)) as [vs [Hvs HF]].
  destruct (sat_record3_make types fs vs Hnd Hlen HF) as [r [Hr1 Hr2]].
  exists vs, r. split; [|split; assumption].
  destruct (sat3_cols _ _ _ Hl) as [tsat [Hsat [Hsl _]]]. unfold parse_obs3. rewrite Hsl.
  pose proof (sat3_name _ _ Hsat) as Hname. destruct tsat as [|t0 tr]; [inversion Hsat|].
  pose proof (tab_of_get table c types Hnt Hin) as G. unfold obs_table, str in *. rewrite Hname, En. rewrite G.
  rewrite <- Hlen, Hvs. reflexivity.
Qed.

(** ** epoch lines *)
Lemma sec1_field s k7 : fix_field 11 7 s false k7 -> (k7 < 1270000000)%Z ->
  exists f, py_float s = Ok f /\ sec2sec_ms f = Ok (k7 / 10000000, k7 mod 10000000 / 10)%Z.
Proof.
  intros H Hb. destruct (py_float_fix _ _ _ _ _ H ltac:(lia)) as [f [Hf [E _]]].
  exists f. split; [exact Hf|]. subst f. unfold sec2sec_ms. change (- Z.of_nat 7)%Z with (-7)%Z.
  rewrite split_sec_exact; [reflexivity|lia|]. pose proof (fix_field_bound _ _ _ _ _ H). lia.
Qed.

Lemma good_of_dec s f : py_float s = Ok f -> ~ huge_seconds f -> f = S754_nan \/ exists a b, sec2sec_ms f = Ok (a, b) /\ (Z.abs a < 2 ^ 31 /\ Z.abs b < 2 ^ 31)%Z.
Proof.
  intros Hf Hh. destruct (huge_dec f) as [H|[H|[H1 H2]]]; [contradiction|now left|right].
  apply (split_sec_total 1 f ltac:(lia) (conj (py_float_valid _ _ Hf) H1) H2).
Qed.

Lemma clock_catch tail : clock_ok tail ->
  catch (do sec <- py_float tail; do (s, us) <- sec2sec_ms sec; timedelta_ok s us) [ValueError] (Ok tt) = Ok tt.
Proof.
  intros H. destruct (py_float tail) as [f|e] eqn:E.
  - cbn [bind]. destruct (good_of_dec tail f E (H f E)) as [->|[a [b [Hab [Ha Hb]]]]]; [reflexivity|].
    rewrite Hab. cbn [bind]. unfold timedelta_ok.
    replace (Z.abs ((a * us_per_sec + b) / us_per_day) <=? 999999999)%Z with true; [reflexivity|].
    symmetry. apply Z.leb_le. unfold us_per_sec, us_per_day. lia.
  - cbn [bind]. rewrite (py_float_err _ _ E). reflexivity.
Qed.

Lemma digit_int c : digit c -> py_int [c] = Ok (dig c).
Proof.
  intros H. apply (py_int_field 1). split; [reflexivity|]. exists [], [c]. split; [reflexivity|]. split; [constructor|].
  split; [constructor; [exact H|constructor]|]. split; [discriminate|]. cbn. lia.
Qed.

(** The columns after the date. *)
Lemma epoch3_tail date gap cf tn skip clock n e : length date = 28 -> length gap = 2 -> digit cf -> int_field 3 tn n ->
  length skip <= 7 -> (clock <> [] -> length skip = 7) -> clock_ok clock ->
  epoch3_date (">"%char :: date ++ gap ++ [cf] ++ tn ++ skip ++ clock) = Ok e ->
  parse_epoch3 (">"%char :: date ++ gap ++ [cf] ++ tn ++ skip ++ clock) = Ok (e, dig cf, n).
Proof.
  intros Hd Hg Hcf Hn Hsk Hsk2 Hck He.
  set (rec := ">"%char :: date ++ gap ++ [cf] ++ tn ++ skip ++ clock) in *.
  assert (Hn31 : nth_error rec 31 = Some cf).
  { replace rec with ((">"%char :: date ++ gap) ++ cf :: tn ++ skip ++ clock) by (unfold rec; cbn [app]; now rewrite <- app_assoc).
    rewrite nth_error_app2; cbn [length]; rewrite app_length; [|lia]. replace (31 - S (length date + length gap)) with 0 by lia. reflexivity. }
  assert (Hs32 : slice 32 35 rec = tn).
  { replace rec with ((">"%char :: date ++ gap ++ [cf]) ++ tn ++ skip ++ clock) by (unfold rec; cbn [app]; now rewrite <- !app_assoc).
    destruct Hn as [Hn _]. apply slice_piece; cbn [length]; rewrite ?app_length; cbn [length]; lia. }
  assert (Hf42 : from 42 rec = clock).
  { unfold from. destruct Hn as [Hn _].
    destruct clock as [|c0 cr] eqn:Ec.
    - rewrite skipn_all2; [reflexivity|]. unfold rec. cbn [length]. rewrite !app_length. cbn [length]. lia.
    - rewrite <- Ec in *. assert (length skip = 7) by (apply Hsk2; congruence).
      replace rec with ((">"%char :: date ++ gap ++ [cf] ++ tn ++ skip) ++ clock).
      2:{ unfold rec. cbn [app]. rewrite <- !app_assoc. cbn [app]. rewrite <- ?app_assoc. now rewrite Ec. }
      apply skipn_app_exact. cbn [length]. rewrite !app_length. cbn [length]. lia. }
  unfold parse_epoch3. change (char_at 0 rec) with (Ok (A := ascii) ">"%char). cbn [bind].
  change (negb (ceqb ">" ">")) with false. cbv iota. rewrite He. cbn [bind].
  unfold char_at. rewrite Hn31. cbn [of_option bind]. rewrite (digit_int _ Hcf). cbn [catch bind].
  rewrite Hs32, (py_int_field _ _ _ Hn). cbn [catch bind]. rewrite Hf42, (clock_catch _ Hck). reflexivity.
Qed.

Lemma date28_len date ep : date28 date ep -> length date = 28.
Proof.
  intros H. destruct H as [ty tmo td th tmi tsec y mo d h mi k7 ep Hy Hmo Hd Hh Hmi Hsec Hr Hep Hi|date Hl Hb]; [|exact Hl].
  rewrite !app_length. destruct Hy as [-> _], Hmo as [-> _], Hd as [-> _], Hh as [-> _], Hmi as [-> _], Hsec as [-> _]. reflexivity.
Qed.
Lemma py_float_white s : white s -> py_float s = Err ValueError.
Proof.
  intros H. unfold py_float, py_float_opt, float_lit.
  assert (E : strip s = []).
  { unfold strip. induction H as [|c r Hc Hr IH]; [reflexivity|]. cbn [lstrip]. now rewrite Hc. }
  rewrite E. reflexivity.
Qed.

Lemma date28_read date ep rest : date28 date ep -> epoch3_date (">"%char :: date ++ rest) = Ok ep.
Proof.
  intros H. destruct H as [ty tmo td th tmi tsec y mo d h mi k7 ep Hy Hmo Hd Hh Hmi Hsec Hr Hep Hi|date Hl Hb].
  2:{ unfold epoch3_date.
      assert (E : slice 18 29 (">"%char :: date ++ rest) = slice 17 28 date).
      { unfold slice. change (skipn 18 (">"%char :: date ++ rest)) with (skipn 17 (date ++ rest)). rewrite skipn_app, firstn_app, skipn_length.
        replace (29 - 18 - (length date - 17)) with 0 by lia. replace (17 - length date) with 0 by lia. cbn [firstn skipn]. now rewrite app_nil_r. }
      rewrite E, py_float_white; [reflexivity|]. unfold slice. apply blanks_white. unfold blanks in *.
      rewrite <- (firstn_skipn 17 date) in Hb. apply Forall_app in Hb. destruct Hb as [_ Hb].
      rewrite <- (firstn_skipn (28 - 17) (skipn 17 date)) in Hb. apply Forall_app in Hb. tauto. }
  set (ps := [ty; tmo; td; th; tmi; tsec]).
  assert (E : (ty ++ tmo ++ td ++ th ++ tmi ++ tsec) ++ rest = concat ps ++ rest).
  { unfold ps. cbn [concat]. rewrite app_nil_r, <- !app_assoc. reflexivity. }
  rewrite E. clear E.
  assert (S : forall q, In q (pieces ps 1) -> slice (fst (fst q)) (snd (fst q)) (">"%char :: concat ps ++ rest) = snd q).
  { intros q Hq. apply (slice_pieces ps 1 [">"%char] rest q); [reflexivity|exact Hq]. }
  assert (Hpc : pieces ps 1 = [(1, 6, ty); (6, 9, tmo); (9, 12, td); (12, 15, th); (15, 18, tmi); (18, 29, tsec)]).
  { unfold ps. cbn [pieces]. destruct Hy as [-> _], Hmo as [-> _], Hd as [-> _], Hh as [-> _], Hmi as [-> _], Hsec as [-> _]. reflexivity. }
  rewrite Hpc in S. set (rec := ">"%char :: concat ps ++ rest) in *.
  pose proof (S (1, 6, ty) ltac:(cbn; tauto)) as S0. pose proof (S (6, 9, tmo) ltac:(cbn; tauto)) as S1.
  pose proof (S (9, 12, td) ltac:(cbn; tauto)) as S2. pose proof (S (12, 15, th) ltac:(cbn; tauto)) as S3.
  pose proof (S (15, 18, tmi) ltac:(cbn; tauto)) as S4. pose proof (S (18, 29, tsec) ltac:(cbn; tauto)) as S5.
  cbn [fst snd] in S0, S1, S2, S3, S4, S5.
  assert (Hk : (k7 < 1270000000)%Z).
  { destruct Hr as [_ [_ [_ [Hs _]]]]. pose proof (Z.div_mod k7 10000000). lia. }
  destruct (sec1_field _ _ Hsec Hk) as [f [Hf Hs]].
  unfold epoch3_date. rewrite S5, Hf. cbn [bind]. rewrite Hs. cbn [bind]. rewrite S0, (py_int_field _ _ _ Hy). cbn [bind mapM].
  cbn [plus]. rewrite S1, S2, S3, S4. rewrite (py_int_field _ _ _ Hmo), (py_int_field _ _ _ Hd), (py_int_field _ _ _ Hh), (py_int_field _ _ _ Hmi).
  cbn [bind].
  destruct (validate_epoch_ok y mo d h mi (k7 / 10000000) (k7 mod 10000000 / 10) Hr) as [t [Ht1 [Ht2 Ht3]]].
  { rewrite <- Hi. rewrite instant_eq by exact Hep. apply valid_datetime_iff in Hep. pose proof (dt_us_bounds ep Hep).
    unfold max_ordinal, us_per_day, end_of_time in *. lia. }
  rewrite Ht1. cbn [bind catch]. f_equal. f_equal. apply instant_inj; [exact Ht2|exact Hep|congruence].
Qed.

Lemma epoch3_line_read ep fl n line : epoch3_line ep fl n line -> parse_epoch3 line = Ok (ep, fl, n) /\ exists r, line = ">"%char :: r.
Proof.
  intros H. destruct H as [date gap tn skip clock cf n ep Hd Hg Hcf Hn Hsk Hsk2 Hck]. split; [|eexists; reflexivity].
  apply epoch3_tail; try assumption; [eapply date28_len; exact Hd|]. now apply date28_read.
Qed.
