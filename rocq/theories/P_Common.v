(** Proofs about validate_epoch. *)
From Coq Require Import ZifyBool ZifyNat.
From Verif Require Import Base PyStr PyFloat PyDate M_Common S_Time P_Date.
Open Scope Z_scope.

Lemma full_year_century y : full_year y = century y.
Proof.
  unfold full_year, century.
  destruct (y <? 100) eqn:E1; [destruct (89 <=? y) eqn:E2|]; destruct (y <? 89) eqn:E3; lia.
Qed.

Lemma clip60_spec v ier v' d : clip60 v ier = (v', d) ->
  (60 <= v <= 120 /\ v' = 59 /\ d = (v - 59) * ier) \/ (~ (60 <= v <= 120) /\ v' = v /\ d = 0).
Proof.
  unfold clip60. destruct ((60 <=? v) && (v <=? 120)) eqn:E; intros H; inversion H; subst; [left|right]; repeat split; lia.
Qed.

Lemma clip60_ok v ier v' d : clip60 v ier = (v', d) -> (0 <= v' <= 59 <-> 0 <= v <= 120).
Proof. intros H. destruct (clip60_spec _ _ _ _ H) as [[H1 [-> _]]|[H1 [-> _]]]; lia. Qed.
Lemma clip60_cint v ier v' d : clip60 v ier = (v', d) -> c_int v' = c_int v.
Proof. intros H. unfold c_int. destruct (clip60_spec _ _ _ _ H) as [[H1 [-> _]]|[H1 [-> _]]]; lia. Qed.

Lemma epoch_in_range_dec y mo d h mi s us : {epoch_in_range y mo d h mi s us} + {~ epoch_in_range y mo d h mi s us}.
Proof.
  unfold epoch_in_range.
  destruct (ymd_ok (century y) mo d) eqn:E1.
  - apply valid_date_iff in E1.
    destruct ((0 <=? h) && (h <=? 23) && (0 <=? mi) && (mi <=? 120) && (0 <=? s) && (s <=? 120) && (0 <=? us) && (us <=? 999999)) eqn:E2.
    + left. split; [exact E1|]. lia.
    + right. intros [_ H]. lia.
  - right. intros [H _]. apply valid_date_iff in H. congruence.
Qed.

Lemma validate_epoch_ok y mo d h mi s us :
  epoch_in_range y mo d h mi s us -> epoch_value y mo d h mi s us < end_of_time ->
  exists t, validate_epoch y mo d h mi s us = Ok t /\ valid_datetime t /\
            instant t = epoch_value y mo d h mi s us.
Proof.
  intros [Hd [Hh [Hmi [Hs Hus]]]] Hend. unfold validate_epoch. rewrite full_year_century.
  destruct (clip60 s 1) as [s' d1] eqn:Es. destruct (clip60 mi 60) as [mi' d2] eqn:Em.
  pose proof (proj2 (clip60_ok _ _ _ _ Es) Hs) as Hs'. pose proof (proj2 (clip60_ok _ _ _ _ Em) Hmi) as Hmi'.
  set (t0 := mkDT (century y) mo d h mi' s' us).
  assert (Hv0 : valid_datetime t0) by (split; [exact Hd|cbn; lia]).
  pose proof Hv0 as Hok. apply valid_datetime_iff in Hok.
  assert (Hc : forallb c_int [century y; mo; d; h; mi'; s'; us] = true).
  { destruct Hd as [Hy [Hm Hdd]]. unfold forallb, c_int.
    assert (month_len (century y) mo <= 31).
    { unfold month_len. repeat match goal with |- context [match ?x with _ => _ end] => destruct x end; lia. }
    lia. }
  unfold mk_datetime. rewrite Hc. fold t0. rewrite Hok. cbn [negb bind].
  assert (Hval : dt_us t0 + (d1 + d2) * us_per_sec = epoch_value y mo d h mi s us).
  { rewrite <- instant_eq by exact Hv0. unfold instant, epoch_value, us_per_sec, t0. cbn [dy dmo dd dh dmi ds dus].
    destruct (clip60_spec _ _ _ _ Es) as [[? [-> ->]]|[? [-> ->]]]; destruct (clip60_spec _ _ _ _ Em) as [[? [-> ->]]|[? [-> ->]]]; lia. }
  unfold dt_add. rewrite Hval.
  assert (H0 : 0 <= epoch_value y mo d h mi s us).
  { rewrite <- Hval. pose proof (dt_us_bounds t0 Hok).
    destruct (clip60_spec _ _ _ _ Es) as [[? [? ->]]|[? [? ->]]]; destruct (clip60_spec _ _ _ _ Em) as [[? [? ->]]|[? [? ->]]]; unfold us_per_sec; lia. }
  unfold end_of_time in Hend. unfold max_ordinal, us_per_day.
  replace ((0 <=? epoch_value y mo d h mi s us) && (epoch_value y mo d h mi s us <? 3652059 * 86400000000)) with true by lia.
  eexists. split; [reflexivity|].
  assert (Hb : 0 <= epoch_value y mo d h mi s us < max_ordinal * us_per_day) by (unfold max_ordinal, us_per_day; lia).
  pose proof (dt_of_us_ok _ Hb) as Hok2. split; [now apply valid_datetime_iff|].
  rewrite instant_eq by now apply valid_datetime_iff. apply dt_us_of_us.
Qed.

Lemma validate_epoch_late y mo d h mi s us :
  epoch_in_range y mo d h mi s us -> end_of_time <= epoch_value y mo d h mi s us ->
  validate_epoch y mo d h mi s us = Err OverflowError.
Proof.
  intros [Hd [Hh [Hmi [Hs Hus]]]] Hend. unfold validate_epoch. rewrite full_year_century.
  destruct (clip60 s 1) as [s' d1] eqn:Es. destruct (clip60 mi 60) as [mi' d2] eqn:Em.
  pose proof (proj2 (clip60_ok _ _ _ _ Es) Hs) as Hs'. pose proof (proj2 (clip60_ok _ _ _ _ Em) Hmi) as Hmi'.
  set (t0 := mkDT (century y) mo d h mi' s' us).
  assert (Hv0 : valid_datetime t0) by (split; [exact Hd|cbn; lia]).
  pose proof Hv0 as Hok. apply valid_datetime_iff in Hok.
  assert (Hc : forallb c_int [century y; mo; d; h; mi'; s'; us] = true).
  { destruct Hd as [Hy [Hm Hdd]]. unfold forallb, c_int.
    assert (month_len (century y) mo <= 31).
    { unfold month_len. repeat match goal with |- context [match ?x with _ => _ end] => destruct x end; lia. }
    lia. }
  unfold mk_datetime. rewrite Hc. fold t0. rewrite Hok. cbn [negb bind].
  assert (Hval : dt_us t0 + (d1 + d2) * us_per_sec = epoch_value y mo d h mi s us).
  { rewrite <- instant_eq by exact Hv0. unfold instant, epoch_value, us_per_sec, t0. cbn [dy dmo dd dh dmi ds dus].
    destruct (clip60_spec _ _ _ _ Es) as [[? [-> ->]]|[? [-> ->]]]; destruct (clip60_spec _ _ _ _ Em) as [[? [-> ->]]|[? [-> ->]]]; lia. }
  unfold dt_add. rewrite Hval. unfold end_of_time in Hend. unfold max_ordinal, us_per_day.
  replace ((0 <=? epoch_value y mo d h mi s us) && (epoch_value y mo d h mi s us <? 3652059 * 86400000000)) with false by lia.
  reflexivity.
Qed.

Lemma validate_epoch_bad y mo d h mi s us :
  ~ epoch_in_range y mo d h mi s us ->
  fits (century y) /\ fits mo /\ fits d /\ fits h /\ fits mi /\ fits s /\ fits us ->
  validate_epoch y mo d h mi s us = Err ValueError.
Proof.
  intros Hr Hf. unfold validate_epoch. rewrite full_year_century.
  destruct (clip60 s 1) as [s' d1] eqn:Es. destruct (clip60 mi 60) as [mi' d2] eqn:Em.
  unfold mk_datetime. cbn [forallb]. rewrite (clip60_cint _ _ _ _ Es), (clip60_cint _ _ _ _ Em).
  replace (negb _) with false by (unfold c_int, fits in *; lia).
  replace (dt_ok _) with false; [reflexivity|]. symmetry. apply not_true_iff_false. intros Hok. apply Hr.
  apply valid_datetime_iff in Hok. destruct Hok as [H1 H2]. cbn in H1, H2. split; [exact H1|].
  rewrite <- (clip60_ok _ _ _ _ Es), <- (clip60_ok _ _ _ _ Em). lia.
Qed.
Lemma validate_epoch_huge y mo d h mi s us :
  ~ (fits (century y) /\ fits mo /\ fits d /\ fits h /\ fits mi /\ fits s /\ fits us) ->
  validate_epoch y mo d h mi s us = Err OverflowError.
Proof.
  intros Hf. unfold validate_epoch. rewrite full_year_century.
  destruct (clip60 s 1) as [s' d1] eqn:Es. destruct (clip60 mi 60) as [mi' d2] eqn:Em.
  unfold mk_datetime. cbn [forallb]. rewrite (clip60_cint _ _ _ _ Es), (clip60_cint _ _ _ _ Em).
  replace (negb _) with true by (unfold c_int, fits in *; lia). reflexivity.
Qed.
