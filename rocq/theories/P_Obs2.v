(** Proofs about the RINEX 2 reader: text level. *)
From Coq Require Import ZifyBool ZifyNat.
From Verif Require Import Base PyStr PyFloat PyDate M_Common M_Header M_Obs2.
From Verif Require Import S_Text S_Time S_Obs2 P_Str P_Float P_Sec P_Date P_Common.
Open Scope nat_scope.

(** ** generic list lemmas *)
Lemma mapM_seq_F2 {A B} (R : A -> B -> Prop) (f : nat -> res B) (l : list A) : forall s,
  (forall k a, nth_error l k = Some a -> exists b, f (s + k) = Ok b /\ R a b) ->
  exists bs, mapM f (seq s (length l)) = Ok bs /\ Forall2 R l bs.
Proof.
  induction l as [|a l IH]; intros s H; cbn [length seq mapM].
  - exists []. split; [reflexivity|constructor].
  - destruct (H 0 a eq_refl) as [b [Hb Rb]]. rewrite Nat.add_0_r in Hb. rewrite Hb. cbn [bind].
    destruct (IH (S s)) as [bs [Hbs Rbs]].
    { intros k a' Hk. destruct (H (S k) a' Hk) as [b' [H1 H2]]. exists b'. split; [|exact H2].
      rewrite <- H1. f_equal. lia. }
    rewrite Hbs. cbn [bind]. exists (b :: bs). split; [reflexivity|constructor; assumption].
Qed.

Lemma F2_length {A B} (R : A -> B -> Prop) l l' : Forall2 R l l' -> length l = length l'.
Proof. induction 1; cbn; congruence. Qed.

Lemma nth_concat_slice (w : nat) (ts : list str) : forall k t pre rest,
  Forall (fun t => length t = w) ts -> nth_error ts k = Some t ->
  slice (length pre + w * k) (length pre + w * k + w) (pre ++ concat ts ++ rest) = t.
Proof.
  induction ts as [|t0 ts IH]; intros k t pre rest Hl Hk; [destruct k; discriminate|].
  inversion Hl as [|x y Hl0 Hl1]; subst. destruct k as [|k]; cbn in Hk.
  - inversion Hk; subst. cbn [concat]. rewrite <- app_assoc. apply slice_piece; lia.
  - cbn [concat]. rewrite <- app_assoc, app_assoc. specialize (IH k t (pre ++ t0) rest Hl1 Hk).
    rewrite app_length in IH. rewrite <- IH. f_equal; lia.
Qed.

Definition ends_black (s : str) : Prop := exists r c, s = r ++ [c] /\ is_space c = false.
Lemma ends_black_app a b : ends_black b -> ends_black (a ++ b).
Proof. intros [r [c [-> Hc]]]. exists (a ++ r), c. split; [apply app_assoc|exact Hc]. Qed.
Lemma rstrip_ends_black a b : ends_black a -> rstrip (a ++ b) = a ++ rstrip b.
Proof. intros [r [c [-> Hc]]]. rewrite <- !app_assoc. cbn. now apply rstrip_snoc_nonspace. Qed.
Lemma ends_black_concat a ts : ends_black a -> Forall ends_black ts -> ends_black (a ++ concat ts).
Proof.
  intros Ha H. revert a Ha. induction H as [|t ts Ht Hts IH]; intros a Ha; cbn [concat]; [now rewrite app_nil_r|].
  rewrite app_assoc. apply IH. now apply ends_black_app.
Qed.
Lemma int_field_black w s n : int_field w s n -> ends_black s.
Proof. apply int_field_last. Qed.

(** ** one observation field *)
Lemma flag_white c n : flag_field c n -> is_space c = true -> n = 0%Z.
Proof. intros [[_ H]|[H _]] Hs; [exact H|]. apply digit_not_space in H. congruence. Qed.
Lemma flag_digit c n : flag_field c n -> (if is_digit c then digit_val c else 0%Z) = n.
Proof.
  intros [[-> ->]|[H ->]]; [reflexivity|]. rewrite dig_digit_val. apply digit_is_digit in H. now rewrite H.
Qed.

Lemma fix_field_bound w k s neg m : fix_field w k s neg m -> (0 <= m < 10 ^ Z.of_nat w)%Z.
Proof.
  intros [Hl [b [ip [fp [-> [Hb [Hi [Hf [Hk [Hn ->]]]]]]]]]].
  assert (Hd : digits (ip ++ fp)) by now apply digits_app.
  pose proof (dec_value_nonneg _ Hd). pose proof (dec_value_bound _ Hd).
  assert (10 ^ Z.of_nat (length (ip ++ fp)) <= 10 ^ Z.of_nat w)%Z; [|lia].
  apply Z.pow_le_mono_r; [lia|]. rewrite !app_length in *. cbn [length] in Hl. lia.
Qed.
Lemma py_float_fix w k s neg m : fix_field w k s neg m -> w <= 300 ->
  exists f, py_float s = Ok f /\ f = b64_of_dec neg m (- Z.of_nat k) /\ nearest64 f (dec_real neg m k).
Proof.
  intros H Hw. unfold py_float, py_float_opt. rewrite (float_lit_fix _ _ _ _ _ H). cbn [option_map of_option float_of_lit].
  eexists. split; [reflexivity|]. split; [reflexivity|]. apply b64_of_dec_nearest.
  pose proof (fix_field_bound _ _ _ _ _ H). split; [lia|].
  apply Z.le_trans with (10 ^ 300)%Z.
  - apply Z.le_trans with (10 ^ Z.of_nat w)%Z; [lia|]. apply Z.pow_le_mono_r; lia.
  - vm_compute. discriminate.
Qed.

Lemma get_val_field rec i t fld :
  field_text t fld -> (exists w, t = slice i (i + 16) rec ++ w /\ white w) ->
  exists v, get_val rec i = Ok v /\ field_value fld v.
Proof.
  intros Ht [w [Hw Hwhite]]. unfold get_val. set (val := slice i (i + 16) rec) in *. clearbody val.
  inversion Ht as [s Hlen Hb|s neg m cl cs l k Hfix Hl Hk]; subst.
  - exists (None, 0%Z, 0%Z). split; [|constructor].
    assert (Hbv : blanks val) by (unfold blanks in *; apply Forall_app in Hb; tauto).
    destruct val as [|c v]; [reflexivity|]. rewrite <- (blanks_spaces _ Hbv), seqb_refl. reflexivity.
  - destruct (py_float_fix _ _ _ _ _ Hfix ltac:(lia)) as [f [Hf [_ Hn]]].
    assert (Hls : length s = 14) by apply Hfix.
    destruct (fix_field_last _ _ _ _ _ Hfix) as [sr [sc [Es Hsc]]].
    (* val keeps at least the 14 columns of the value *)
    assert (Hval : exists t', val = s ++ t' /\ [cl; cs] = t' ++ w).
    { assert (Hlv : length s <= length val).
      { destruct (le_lt_dec (length s) (length val)) as [|Hlt]; [assumption|exfalso].
        assert (Hin : In sc w).
        { pose proof H as H0. rewrite Es in H0. rewrite Es, app_length in Hlt. cbn [length] in Hlt.
          assert (Hx : nth_error (val ++ w) (length sr) = Some sc).
          { rewrite <- H0, <- app_assoc. rewrite nth_error_app2 by lia. now rewrite Nat.sub_diag. }
          rewrite nth_error_app2 in Hx by lia. eapply nth_error_In. exact Hx. }
        unfold white in Hwhite. rewrite Forall_forall in Hwhite. specialize (Hwhite _ Hin). congruence. }
      exists (skipn (length s) val). split.
      - assert (Hfn : firstn (length s) val = s).
        { assert (firstn (length s) (val ++ w) = s) by (rewrite <- H; apply firstn_app_exact; reflexivity).
          rewrite firstn_app in H0. replace (length s - length val) with 0 in H0 by lia. cbn in H0. now rewrite app_nil_r in H0. }
        rewrite <- Hfn at 1. symmetry. apply firstn_skipn.
      - assert (skipn (length s) (s ++ [cl; cs]) = skipn (length s) (val ++ w)) by now rewrite H.
        rewrite skipn_app_exact in H0 by reflexivity. rewrite skipn_app in H0.
        replace (length s - length val) with 0 in H0 by lia. exact H0. }
    destruct Hval as [t' [-> Ht']].
    destruct (s ++ t') as [|c0 v0] eqn:Ev.
    { apply app_eq_nil in Ev. destruct Ev as [-> _]. discriminate. }
    rewrite <- Ev.
    assert (Hns : seqb (s ++ t') (spaces (length (s ++ t'))) = false).
    { apply seqb_neq. intros E. assert (Hin : In sc (s ++ t')) by (rewrite Es; apply in_or_app; left; apply in_or_app; right; now left).
      rewrite E in Hin. apply repeat_spec in Hin. subst sc. discriminate. }
    rewrite Hns. rewrite slice_0 by exact Hls. rewrite Hf. cbn [catch bind].
    unfold from. rewrite skipn_app_exact by exact Hls.
    eexists. split; [reflexivity|].
    assert (Hd0 : digit_at 0 t' = l /\ digit_at 1 t' = k).
    { unfold digit_at. destruct t' as [|a [|b t']]; cbn in Ht'.
      - subst w. inversion Hwhite as [|x y Hx Hy]; subst. inversion Hy as [|x' y' Hx' Hy']; subst. cbn.
        split; symmetry; eapply flag_white; eassumption.
      - inversion Ht'; subst. inversion Hwhite as [|x y Hx Hy]; subst. cbn.
        split; [now apply flag_digit|symmetry; eapply flag_white; eassumption].
      - inversion Ht'; subst. cbn. split; now apply flag_digit. }
    destruct Hd0 as [-> ->]. constructor. exact Hn.
Qed.

Lemma same_line_rstrip a b : same_line a b -> rstrip a = rstrip b.
Proof. intros [c [w1 [w2 [-> [-> [H1 H2]]]]]]. now rewrite !rstrip_app_white. Qed.

Lemma field_text_len t f : field_text t f -> length t = 16.
Proof. intros H. inversion H; subst; [assumption|]. rewrite app_length. destruct H0 as [-> _]. reflexivity. Qed.

Lemma obs_line_vals fs line : obs_line fs line ->
  exists vs, mapM (fun k => get_val (rstrip line) (16 * k)) (seq 0 (length fs)) = Ok vs /\ Forall2 field_value fs vs.
Proof.
  intros [texts [Ht Hsame]]. rewrite <- (same_line_rstrip _ _ Hsame).
  apply (mapM_seq_F2 field_value). intros k f Hk. cbn [plus].
  assert (Hl : Forall (fun t => length t = 16) texts).
  { clear -Ht. induction Ht; constructor; [eapply field_text_len; eassumption|assumption]. }
  assert (exists t, nth_error texts k = Some t /\ field_text t f) as [t [Htk Hft]].
  { clear -Ht Hk. revert k Hk. induction Ht as [|t f0 ts fs H0 H1 IH]; intros [|k] Hk; try discriminate; cbn in *.
    - inversion Hk; subst. eauto.
    - eauto. }
  apply (get_val_field _ _ t f Hft).
  pose proof (nth_concat_slice 16 texts k t [] [] Hl Htk) as Hs. cbn [length app plus] in Hs. rewrite app_nil_r in Hs.
  destruct (slice_rstrip (16 * k) (16 * k + 16) (concat texts)) as [w [Hw1 Hw2]].
  exists w. split; [|exact Hw2]. rewrite <- Hs. exact Hw1.
Qed.

(** ** lines per record *)
Lemma lines_per_rec_small n : 1 <= n <= 5 -> lines_per_rec n = [n].
Proof.
  intros H. unfold lines_per_rec. replace ((n + 4) / 5) with 1.
  2:{ apply (Nat.div_unique _ _ _ (n - 1)); lia. }
  cbn [lines_per_rec_loop]. f_equal. destruct (Z.of_nat n - 5 <? 0)%Z eqn:E; lia.
Qed.
Lemma lines_per_rec_more n : 1 <= n -> lines_per_rec (5 + n) = 5 :: lines_per_rec n.
Proof.
  intros H. unfold lines_per_rec. replace ((5 + n + 4) / 5) with (S ((n + 4) / 5)).
  2:{ replace (5 + n + 4) with (n + 4 + 1 * 5) by lia. rewrite Nat.div_add by lia. lia. }
  cbn [lines_per_rec_loop]. replace (Z.of_nat (5 + n) - 5)%Z with (Z.of_nat n) by lia.
  replace (Z.of_nat n <? 0)%Z with false by lia. reflexivity.
Qed.

Lemma obs_lines_read fs ls : obs_lines fs ls ->
  exists vs, Forall2 field_value fs vs /\ forall tail, read_obs_lines (lines_per_rec (length fs)) (ls ++ tail) = Ok (vs, tail).
Proof.
  induction 1 as [|fs l Hl Ho|fs gs l ls Hl Hg Ho Hr [ws [H4 IH]]].
  - exists []. split; [constructor|reflexivity].
  - destruct (obs_line_vals _ _ Ho) as [vs [H1 H2]]. exists vs. split; [exact H2|]. intros tail.
    rewrite lines_per_rec_small by lia. cbn [read_obs_lines app next_rec bind]. rewrite H1. cbn [bind]. now rewrite app_nil_r.
  - destruct (obs_line_vals _ _ Ho) as [vs [H1 H2]]. exists (vs ++ ws). split; [now apply Forall2_app|]. intros tail.
    rewrite app_length, Hl. rewrite lines_per_rec_more by (destruct gs; cbn; [congruence|lia]).
    cbn [read_obs_lines app next_rec bind]. rewrite Hl in H1. rewrite H1. cbn [bind].
    rewrite IH. reflexivity.
Qed.

(** ** records *)
Lemma dict_set_new (t : str) (v : obsval) acc : ~ In t (map fst acc) -> dict_set seqb t v acc = acc ++ [(t, v)].
Proof.
  induction acc as [|[t' v'] acc IH]; intros H; cbn; [reflexivity|].
  destruct (seqb t t') eqn:E; [apply seqb_eq in E; subst; exfalso; apply H; now left|].
  f_equal. apply IH. intros Hin. apply H. now right.
Qed.
Lemma make_record_combine types : forall data acc, NoDup (map fst acc ++ types) -> length data <= length types ->
  make_record types data acc = Ok (acc ++ combine types data).
Proof.
  induction types as [|t types IH]; intros data acc Hn Hl; destruct data as [|v data]; cbn in Hl |- *; try lia;
    try (now rewrite app_nil_r).
  assert (Ht : ~ In t (map fst acc)).
  { intros Hin. apply NoDup_remove_2 in Hn. apply Hn. apply in_or_app. now left. }
  rewrite dict_set_new by exact Ht. rewrite IH; [now rewrite <- app_assoc| |lia].
  rewrite map_app, <- app_assoc. exact Hn.
Qed.

Lemma sat_record_make types fs vs : NoDup types -> length fs = length types -> Forall2 field_value fs vs ->
  exists r, make_record types vs [] = Ok r /\ sat_record types fs r.
Proof.
  intros Hn Hl Hv. exists (combine types vs). split.
  - rewrite make_record_combine; [reflexivity|exact Hn|]. apply F2_length in Hv. lia.
  - unfold sat_record. clear Hn. revert types Hl. induction Hv as [|f v fs vs Hfv Hr IH]; intros [|t types] Hl; cbn in *; try lia; constructor.
    + split; [reflexivity|exact Hfv].
    + apply IH. lia.
Qed.

(** ** satellites of an epoch *)
Lemma sats_read types ep o sats : NoDup types -> forall ls, sats_lines (length types) sats ls ->
  exists rs, epoch_records types ep sats rs /\ forall tail,
    read_sats types ep (map fst sats) o (ls ++ tail) =
      ((if odt_eqb (Some ep) (o_prec o) then [] else map (fun r => (r, o)) rs), Ok tail).
Proof.
  intros Hn. induction sats as [|[name fs] sats IH]; intros ls [parts [-> Hp]]; inversion Hp as [|x p xs ps [Hl Ho] Hps]; subst.
  - exists []. split; [constructor|]. intros tail. cbn [concat app map read_sats]. now destruct (odt_eqb (Some ep) (o_prec o)).
  - cbn [snd] in Hl, Ho. destruct (obs_lines_read _ _ Ho) as [vs [H2 H1]]. rewrite Hl in H1.
    destruct (sat_record_make types fs vs Hn Hl H2) as [r [H3 H4]].
    destruct (IH (concat ps)) as [rs [H5 H6]]; [exists ps; split; [reflexivity|exact Hps]|].
    exists ((ep, name, r) :: rs). split; [constructor; [|exact H5]; cbn; auto|]. intros tail.
    cbn [map fst read_sats concat]. rewrite <- app_assoc, H1, H3, H6.
    destruct (odt_eqb (Some ep) (o_prec o)); reflexivity.
Qed.

(** ** satellite identifiers *)
Definition two_digits (n : nat) : bool :=
  seqb (fmt_0d 2 (Z.of_nat n)) [ascii_of_N (Z.to_N (48 + Z.of_nat n / 10)); ascii_of_N (Z.to_N (48 + Z.of_nat n mod 10))].
Lemma two_digits_ok : forallb two_digits (seq 0 100) = true.
Proof. vm_compute. reflexivity. Qed.
Lemma digit_ascii c : digit c -> c = ascii_of_N (Z.to_N (48 + dig c)).
Proof.
  intros H. unfold dig. replace (Z.to_N (48 + (Z.of_nat (nat_of_ascii c) - 48))) with (N_of_ascii c).
  - symmetry. apply ascii_N_embedding.
  - unfold nat_of_ascii. lia.
Qed.
Lemma fmt_02 d1 d2 : digit d1 -> digit d2 -> fmt_0d 2 (dig d1 * 10 + dig d2) = [d1; d2].
Proof.
  intros H1 H2. pose proof (digit_range _ H1). pose proof (digit_range _ H2).
  set (n := (dig d1 * 10 + dig d2)%Z). pose proof two_digits_ok as H3. rewrite forallb_forall in H3.
  specialize (H3 (Z.to_nat n)). assert (Hin : In (Z.to_nat n) (seq 0 100)) by (apply in_seq; lia).
  specialize (H3 Hin). unfold two_digits in H3. apply seqb_eq in H3. rewrite Z2Nat.id in H3 by lia.
  rewrite H3. rewrite (digit_ascii _ H1), (digit_ascii _ H2) at 1. unfold n.
  replace ((dig d1 * 10 + dig d2) / 10)%Z with (dig d1) by (apply (Z.div_unique _ _ _ (dig d2)); lia).
  replace ((dig d1 * 10 + dig d2) mod 10)%Z with (dig d2) by (apply (Z.mod_unique _ _ (dig d1)); lia).
  rewrite <- (digit_ascii _ H1), <- (digit_ascii _ H2). reflexivity.
Qed.
Lemma upper_not_blank c : c <> " "%char -> ceqb (upper_c c) " "%char = false.
Proof.
  intros H. apply Ascii.eqb_neq. intros E. apply H. revert E.
  destruct c as [[] [] [] [] [] [] [] []]; vm_compute; congruence.
Qed.

Lemma sat_text_len t n : sat_text t n -> length t = 3.
Proof. intros H. inversion H; subst. cbn. destruct H0 as [-> _]. reflexivity. Qed.
Lemma sat_text_black t n : sat_text t n -> ends_black t.
Proof. intros H. inversion H; subst. change (c :: s) with ([c] ++ s). apply ends_black_app. eapply int_field_black. eassumption. Qed.

Lemma get_prn_text rec i t name : sat_text t name -> slice i (i + 3) rec = t -> get_prn rec i = Ok name.
Proof.
  intros H Hs. unfold get_prn. rewrite Hs. inversion H as [c s n sys Hi Hsys d1 d2 H1 H2 Hn]; subst.
  rewrite (py_int_field _ _ _ Hi). cbn [catch bind]. rewrite fmt_02 by assumption. f_equal. f_equal.
  destruct Hsys as [[-> ->]|[Hc ->]]; [reflexivity|]. now rewrite upper_not_blank.
Qed.

Lemma get_prns_text pre texts names rest : length pre = 32 -> Forall2 sat_text texts names ->
  get_prns (pre ++ concat texts ++ rest) (length names) = Ok names.
Proof.
  intros Hp Ht. unfold get_prns.
  destruct (mapM_seq_F2 eq (fun k => get_prn (pre ++ concat texts ++ rest) (32 + 3 * k)) names 0) as [bs [H1 H2]].
  - intros k a Hk. exists a. split; [|reflexivity]. cbn [plus].
    assert (exists t, nth_error texts k = Some t /\ sat_text t a) as [t [Htk Hst]].
    { clear -Ht Hk. revert k Hk. induction Ht as [|t n0 ts ns H0 H1 IH]; intros [|k] Hk; try discriminate; cbn in *.
      - inversion Hk; subst. eauto.
      - eauto. }
    apply (get_prn_text _ _ t a Hst).
    assert (Hl : Forall (fun t => length t = 3) texts).
    { clear -Ht. induction Ht; constructor; [eapply sat_text_len; eassumption|assumption]. }
    pose proof (nth_concat_slice 3 texts k t pre rest Hl Htk) as Hs. rewrite Hp in Hs. exact Hs.
  - rewrite H1. f_equal. clear -H2. induction H2; congruence.
Qed.
Lemma texts_black texts names : Forall2 sat_text texts names -> Forall ends_black texts.
Proof. induction 1; constructor; [eapply sat_text_black; eassumption|assumption]. Qed.
Lemma rstrip_sat_line pre texts names rest : Forall2 sat_text texts names -> ends_black pre \/ texts <> [] ->
  rstrip (pre ++ concat texts ++ rest) = pre ++ concat texts ++ rstrip rest.
Proof.
  intros Ht Hc. assert (Hb : ends_black (pre ++ concat texts)).
  { pose proof (texts_black _ _ Ht) as Hbl. destruct Hc as [Hpre|Hne].
    - now apply ends_black_concat.
    - apply ends_black_app. inversion Hbl as [|t ts Hbt Hbts]; subst; [congruence|]. cbn [concat]. now apply ends_black_concat. }
  rewrite app_assoc, rstrip_ends_black by exact Hb. now rewrite <- app_assoc.
Qed.

(** the continuation part of read_prns *)
Definition cont_read (L : nat) (lines : list str) : res (list str * list str) :=
  do (qs, r) <- get_prn_lines (L / 12) lines;
  if L mod 12 =? 0 then Ok (qs, r)
  else do (rec, r') <- next_rec r; do ts <- get_prns rec (L mod 12); Ok (qs ++ ts, r').

Lemma cont_lines_read names ls : cont_lines names ls -> forall tail, cont_read (length names) (ls ++ tail) = Ok (names, tail).
Proof.
  induction 1 as [|names texts pre rest Hl Hp Ht|names more texts pre rest ls Hl Hm Hp Ht Hc IH]; intros tail.
  - reflexivity.
  - unfold cont_read.
    assert (Hne : texts <> []) by (intros ->; inversion Ht; subst; cbn in Hl; lia).
    destruct (Nat.eq_dec (length names) 12) as [E|E].
    + rewrite E. change (12 / 12) with 1. change (12 mod 12) with 0. cbn [get_prn_lines app next_rec bind].
      rewrite (rstrip_sat_line pre texts names rest Ht) by now right.
      pose proof (get_prns_text pre texts names (rstrip rest) Hp Ht) as Hg. rewrite E in Hg. rewrite Hg. cbn. now rewrite app_nil_r.
    + rewrite Nat.div_small, Nat.mod_small by lia. cbn [get_prn_lines bind].
      replace (length names =? 0) with false by lia. cbn [app next_rec bind].
      rewrite (rstrip_sat_line pre texts names rest Ht) by now right.
      rewrite (get_prns_text pre texts names (rstrip rest) Hp Ht). reflexivity.
  - assert (Hne : texts <> []) by (intros ->; inversion Ht; subst; cbn in Hl; lia).
    unfold cont_read in *. rewrite app_length, Hl.
    replace ((12 + length more) / 12) with (S (length more / 12)).
    2:{ replace (12 + length more) with (length more + 1 * 12) by lia. rewrite Nat.div_add by lia. lia. }
    replace ((12 + length more) mod 12) with (length more mod 12).
    2:{ replace (12 + length more) with (length more + 1 * 12) by lia. now rewrite Nat.mod_add by lia. }
    cbn [get_prn_lines app next_rec bind].
    rewrite (rstrip_sat_line pre texts names rest Ht) by now right.
    pose proof (get_prns_text pre texts names (rstrip rest) Hp Ht) as Hg. rewrite Hl in Hg. rewrite Hg. cbn [bind].
    specialize (IH tail). destruct (get_prn_lines (length more / 12) (ls ++ tail)) as [[qs r]|e] eqn:Eg; cbn [bind] in *; [|discriminate].
    destruct (length more mod 12 =? 0).
    + inversion IH; subst. reflexivity.
    + destruct (next_rec r) as [[rec r']|e]; cbn [bind] in *; [|discriminate].
      destruct (get_prns rec (length more mod 12)) as [ts|e]; cbn [bind] in *; [|discriminate].
      inversion IH; subst. now rewrite app_assoc.
Qed.

Lemma read_prns_text pre texts first more rest ls tail :
  length pre = 32 -> Forall2 sat_text texts first ->
  (length first <= 12 /\ more = [] \/ length first = 12) -> cont_lines more ls ->
  read_prns (pre ++ concat texts ++ rest) (Z.of_nat (length (first ++ more))) (ls ++ tail) = Ok (first ++ more, tail).
Proof.
  intros Hp Ht Hc Hcl. unfold read_prns.
  pose proof (get_prns_text pre texts first rest Hp Ht) as Hg.
  destruct (12 <? Z.of_nat (length (first ++ more)))%Z eqn:E.
  - assert (Hl12 : length first = 12).
    { destruct Hc as [[H1 ->]|H1]; [|exact H1]. rewrite app_nil_r in E. lia. }
    rewrite Hl12 in Hg. rewrite Hg. cbn [bind]. rewrite app_length, Hl12 in *.
    pose proof (cont_lines_read more ls Hcl tail) as Hr. unfold cont_read in Hr.
    assert (Hq : (Z.of_nat (12 + length more) / 12 = 1 + Z.of_nat (length more / 12))%Z).
    { rewrite Nat2Z.inj_add, Nat2Z.inj_div. change (Z.of_nat 12) with 12%Z.
      replace (12 + Z.of_nat (length more))%Z with (Z.of_nat (length more) + 1 * 12)%Z by lia.
      rewrite Z.div_add by lia. lia. }
    rewrite Hq. replace (Z.to_nat (1 + Z.of_nat (length more / 12) - 1)) with (length more / 12) by lia.
    assert (Hm : (Z.of_nat (12 + length more) - (1 + Z.of_nat (length more / 12)) * 12 = Z.of_nat (length more mod 12))%Z).
    { pose proof (Nat.div_mod (length more) 12 ltac:(lia)). lia. }
    rewrite Hm. rewrite Nat2Z.id.
    destruct (get_prn_lines (length more / 12) (ls ++ tail)) as [[qs r]|e]; cbn [bind] in *; [|discriminate].
    replace (Z.of_nat (length more mod 12) =? 0)%Z with (length more mod 12 =? 0) by lia.
    destruct (length more mod 12 =? 0).
    + inversion Hr; subst. cbn [bind]. rewrite app_length, Hl12, Z.eqb_refl. reflexivity.
    + destruct (next_rec r) as [[rec r']|e]; cbn [bind] in *; [|discriminate].
      destruct (get_prns rec (length more mod 12)) as [ts|e]; cbn [bind] in *; [|discriminate].
      inversion Hr; subst. cbn [bind]. rewrite app_length, app_length in *. rewrite <- (app_length qs ts).
      replace (Z.of_nat (12 + length (qs ++ ts)) =? Z.of_nat (length first + length (qs ++ ts)))%Z with true by (rewrite Hl12; lia).
      reflexivity.
  - assert (Hm : more = []).
    { destruct Hc as [[_ ->]|H1]; [reflexivity|]. rewrite app_length, H1 in E. destruct more; [reflexivity|cbn in E; lia]. }
    subst more. assert (ls = []) as ->.
    { inversion Hcl as [|? ? ? ? Hb|n1 n2 ? ? ? ? Hb1 Hb2]; subst; [reflexivity|cbn in Hb; lia|].
      destruct n1; [discriminate|discriminate]. }
    rewrite app_nil_r. rewrite Nat2Z.id, Hg. cbn [bind app].
    now rewrite Z.eqb_refl.
Qed.
