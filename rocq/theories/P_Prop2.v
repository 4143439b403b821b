(** Lemmas behind the property theorems about RINEX 2 observation files. *)
From Coq Require Import ZifyBool ZifyNat Reals Lra.
From Flocq Require Import Core.Core IEEE754.BinarySingleNaN.
From Verif Require Import Base PyStr PyFloat PyDate M_Common M_Header M_Obs2.
From Verif Require Import S_Text S_Time S_Obs2 S_Open2 S_Errors2.
From Verif Require Import P_Str P_Float P_Sec P_Date P_Common P_Obs2 P_Obs2b P_Obs2c P_Open2 P_Open2b P_Interval P_View2 P_Errors2.
Open Scope nat_scope.

(** ** opening terminates *)
Lemma get_o_nf k : forall h, o_types_lines k h <> Err OutOfFuel.
Proof.
  induction k as [|k IH]; intros [|l h]; cbn [o_types_lines]; try discriminate. apply bind_fuel; [apply IH|discriminate].
Qed.
Lemma set_types_nf h : set_obs_num_types h <> Err OutOfFuel.
Proof.
  induction h as [|l h IH]; [discriminate|]. cbn [set_obs_num_types]. destruct (negb _); [exact IH|].
  apply bind_fuel; [apply catch_fuel; [apply py_int_nf|discriminate]|]. intros n.
  apply bind_fuel.
  - destruct (9 <? n)%Z; [|discriminate]. apply bind_fuel; [apply get_o_nf|]. intros ts. destruct (_ =? 0)%Z; [discriminate|].
    destruct (nth_error _ _); discriminate.
  - intros ts. destruct (_ =? _)%Z; discriminate.
Qed.
Lemma collect_nf ys ge o : ge <> GRaise OutOfFuel -> forall n e, collect_deltas n e ys ge o <> Err OutOfFuel.
Proof.
  intros Hg. induction ys as [|[[[ep p] r] ob] ys IH]; intros n e; cbn [collect_deltas].
  - destruct ge; [discriminate|congruence].
  - destruct e; [|apply IH]. destruct (dt_eqb _ _); [apply IH|]. destruct (_ =? 0)%Z; [apply IH|]. destruct n as [|[|n]]; try discriminate.
    apply bind_fuel; [apply IH|]. intros [ds o']. discriminate.
Qed.
Lemma open2_nf v file : open2 v file <> Err OutOfFuel.
Proof.
  unfold open2. destruct (split_header is_end_regex file) as [header body].
  apply bind_fuel; [apply set_types_nf|]. intros types. apply bind_fuel; [apply parse_header_nf|]. intros h.
  apply bind_fuel.
  - unfold get_interval. pose proof (run_records_nf v types body (mkObj2 None h)) as Hr.
    destruct (run_records v types body (mkObj2 None h)) as [[ys ge] oe]. cbn [fst snd] in Hr.
    apply bind_fuel; [apply collect_nf; exact Hr|]. intros [ds o']. destruct (best_key _ _); discriminate.
  - intros [dt o]. apply bind_fuel; [|discriminate]. unfold set_interval. destruct (ver_is20 v).
    + apply bind_fuel; [apply py_int_nf|discriminate].
    + apply bind_fuel; [apply py_float_nf|discriminate].
Qed.
Lemma records2_nf v r : snd (fst (records2 v r)) <> GRaise OutOfFuel.
Proof. apply run_records_nf. Qed.

(** ** which records are delivered *)
Definition id_of (y : orec * position) : datetime * str := fst (fst y).
Lemma epoch_records_ids types ep sats rs pos : epoch_records types ep sats rs ->
  map id_of (map (fun r : orec => (r, pos)) rs) = map (fun s => (ep, fst s)) sats.
Proof.
  induction 1 as [|s r sats rs [H1 [H2 _]] Hr IH]; [reflexivity|]. cbn [map]. rewrite IH. f_equal.
  unfold id_of. cbn [fst]. destruct r as [[e p] rec]. cbn in *. congruence.
Qed.
Lemma delivered_ids types prec pos bs out : delivered types prec pos bs out -> map id_of out = expected prec bs.
Proof.
  induction 1 as [prec pos|ep fl sats bs pos out Hd IH|ep fl sats bs prec pos rs out Hne He Hd IH|fl ls np bs prec pos pos' out Hnp Hd IH]; cbn [expected].
  - reflexivity.
  - destruct (odt_dec (Some ep) (Some ep)); [|congruence]. exact IH.
  - destruct (odt_dec prec (Some ep)); [congruence|]. rewrite map_app, IH. f_equal. eapply epoch_records_ids; exact He.
  - exact IH.
Qed.
Lemma delivered_const types prec pos bs out : delivered types prec pos bs out -> no_positions bs -> Forall (fun y => snd y = pos) out.
Proof.
  induction 1 as [prec pos|ep fl sats bs pos out Hd IH|ep fl sats bs prec pos rs out Hne He Hd IH|fl ls np bs prec pos pos' out Hnp Hd IH]; intros Hno.
  - constructor.
  - apply IH. intros fl' ls' np' Hi. apply (Hno fl' ls' np'). now right.
  - apply Forall_app. split.
    + apply Forall_forall. intros y Hy. apply in_map_iff in Hy. destruct Hy as [r [<- _]]. reflexivity.
    + apply IH. intros fl' ls' np' Hi. apply (Hno fl' ls' np'). now right.
  - assert (np = None) by (eapply (Hno fl ls); now left). subst np. subst pos'. apply IH. intros fl' ls' np' Hi. apply (Hno fl' ls' np'). now right.
Qed.
Lemma delivered_event types b1 : forall prec pos fl ls d b2 out, delivered types prec pos (b1 ++ BEvent fl ls (Some d) :: b2) out -> no_positions b2 ->
  exists out1 out2 pos', out = out1 ++ out2 /\ map id_of out1 = expected prec b1 /\ near_position pos' d /\ Forall (fun y => snd y = pos') out2.
Proof.
  induction b1 as [|b b1 IH]; intros prec pos fl ls d b2 out H Hno; cbn [app] in H.
  - inversion H as [| | |fl' ls' np bs' prec' p1 p2 out' Hnp Hd]; subst. exists [], out, p2. split; [reflexivity|]. split; [reflexivity|].
    split; [exact Hnp|]. eapply delivered_const; eassumption.
  - inversion H as [|ep fl' sats bs pos1 out' Hd|ep fl' sats bs prec1 pos1 rs out' Hne He Hd|fl' ls' np bs prec1 pos1 pos2 out' Hnp Hd]; subst; cbn [expected].
    + destruct (odt_dec (Some ep) (Some ep)); [|congruence]. exact (IH _ _ _ _ _ _ _ Hd Hno).
    + destruct (IH _ _ _ _ _ _ _ Hd Hno) as [o1 [o2 [p' [-> [E [Hp HF]]]]]].
      exists (map (fun r => (r, pos)) rs ++ o1), o2, p'. split; [now rewrite app_assoc|]. split; [|auto].
      destruct (odt_dec prec (Some ep)); [congruence|]. rewrite map_app, E. f_equal. eapply epoch_records_ids; exact He.
    + exact (IH _ _ _ _ _ _ _ Hd Hno).
Qed.

(** ** the interval in microseconds *)
Definition span : Z := 2 ^ 52.
Lemma day_range c mo d : (1989 <= c <= 2088 -> 1 <= mo <= 12 -> 1 <= d <= 31 -> d <= month_len c mo -> 726103 <= ymd2ord c mo d <= 726103 + 36525)%Z.
Proof.
  intros Hcen Hcm Hd1 Hcd. unfold ymd2ord. assert (Hdb : (0 <= days_before_month c mo <= 335)%Z).
    { unfold days_before_month, dbm_table.
      assert (Hk : forall k, (0 <= nth k [0; 0; 31; 59; 90; 120; 151; 181; 212; 243; 273; 304; 334] 0 <= 334)%Z).
      { intros k. do 13 (destruct k as [|k]; [cbn; lia|]). destruct k; cbn; lia. }
      specialize (Hk (Z.to_nat mo)). destruct (_ && _)%bool; lia. }
    assert (Hdb2 : (days_before_month c mo + d <= 366)%Z).
    { rewrite month_len_eq in Hcd by lia. assert (mo = 1 \/ mo = 2 \/ mo = 3 \/ mo = 4 \/ mo = 5 \/ mo = 6 \/ mo = 7 \/ mo = 8 \/ mo = 9 \/ mo = 10 \/ mo = 11 \/ mo = 12)%Z as Hmm by lia.
      unfold days_before_month, days_in_month in *. repeat (destruct Hmm as [->|Hmm]; [cbn in *; destruct (is_leap c); cbn in *; lia|]). subst mo. cbn in *; destruct (is_leap c); cbn in *; lia. }
    unfold days_before_year.
    assert (HA : (365 * (1988) + 1988 / 4 - 1988 / 100 + 1988 / 400 <= (c - 1) * 365 + (c - 1) / 4 - (c - 1) / 100 + (c - 1) / 400 <= 365 * 2087 + 2087 / 4 - 2087 / 100 + 2087 / 400)%Z).
    { clear -Hcen. assert (exists k, c = 1989 + Z.of_nat k /\ (k < 100)%nat)%Z as [k [-> Hk]].
      { exists (Z.to_nat (c - 1989)). split; lia. }
      do 100 (destruct k as [|k]; [vm_compute; split; discriminate|]). lia. }
    change (365 * 1988 + 1988 / 4 - 1988 / 100 + 1988 / 400)%Z with 726102%Z in HA.
    change (365 * 2087 + 2087 / 4 - 2087 / 100 + 2087 / 400)%Z with 762261%Z in HA. lia. 
Qed.
Lemma epoch_range ep fl names ls : epoch_lines ep fl names ls -> (midnight 1989 1 1 <= instant ep < midnight 2089 2 1)%Z.
Proof.
  intros H. destruct H as [ty tmo td th tmi tsec tfl tn y mo d h mi k7 fl texts rest ep first more ls
    Hy Hmo Hd Hh Hmi Hsec Hfl Hfl01 Hn Hy100 Hr Hep Hi Htx Hc Hcl].
  rewrite Hi. unfold epoch_value. destruct Hr as [Hv [Hh' [Hm' [Hs' Hu']]]].
  apply int_field_nonneg in Hy.
  assert (Hcen : (1989 <= century y <= 2088)%Z) by (unfold century; destruct (Z.ltb_spec y 89); [lia|]; destruct (Z.ltb_spec y 100); lia).
  set (c := century y) in *. clearbody c. destruct Hv as [Hcy [Hcm Hcd]].
  assert (Hd31 : (d <= 31)%Z).
  { rewrite month_len_eq in Hcd by lia. unfold days_in_month in Hcd. destruct (_ =? 2)%Z; [destruct (is_leap _); lia|]. destruct (_ || _)%bool; lia. }
  assert (E1 : midnight 1989 1 1 = 62735212800000000%Z) by (vm_compute; reflexivity).
  assert (E2 : midnight 2089 2 1 = 65893651200000000%Z) by (vm_compute; reflexivity).
  rewrite E1, E2. clear E1 E2. unfold midnight. rewrite civil_day_eq; [|clear -Hcen; lia|exact Hcm].
  assert (Hb : (726103 <= ymd2ord c mo d <= 726103 + 36525)%Z) by (apply day_range; [exact Hcen|exact Hcm|clear -Hcd Hd31; lia|clear -Hcd; apply Hcd]).
  set (o := ymd2ord c mo d) in *. clearbody o. clear -Hb Hh' Hm' Hs' Hu'. lia.
Qed.
Lemma body_range n bs ls : body_lines n bs ls -> Forall (fun e => midnight 1989 1 1 <= instant e < midnight 2089 2 1)%Z (data_epochs bs).
Proof.
  induction 1 as [|b bs l ls Hl Hb IH]; [constructor|]. inversion Hl as [ep fl sats els sls He Hs|pre tfl tn rest fl evl np]; subst; cbn [data_epochs]; [|exact IH].
  constructor; [|exact IH]. eapply epoch_range; exact He.
Qed.
Lemma diffs_range lo hi eps : (hi - lo <= span)%Z -> forall prev, (lo <= instant prev < hi)%Z -> Forall (fun e => lo <= instant e < hi)%Z eps ->
  Forall (fun d => Z.abs d < span)%Z (diffs prev eps).
Proof.
  intros Hs prev Hp He. revert prev Hp. induction He as [|e eps H1 H2 IH]; intros prev Hp; cbn [diffs]; [constructor|].
  apply Forall_app. split; [|apply IH; exact H1]. destruct (_ =? 0)%Z; constructor; [lia|constructor].
Qed.
Lemma diffs_nonzero eps : forall prev, Forall (fun d => d <> 0)%Z (diffs prev eps).
Proof.
  induction eps as [|e eps IH]; intros prev; cbn [diffs]; [constructor|]. apply Forall_app. split; [|apply IH].
  destruct (Z.eqb_spec (instant e - instant prev) 0); constructor; [assumption|constructor].
Qed.
Lemma delivered_epochs_in types prec pos bs out : delivered types prec pos bs out -> forall e, In e (epochs_of out) -> In e (data_epochs bs).
Proof.
  induction 1 as [prec pos|ep fl sats bs pos out Hd IH|ep fl sats bs prec pos rs out Hne He Hd IH|fl ls np bs prec pos pos' out Hnp Hd IH]; intros e Hin; cbn [data_epochs].
  - contradiction.
  - right. now apply IH.
  - unfold epochs_of in Hin. rewrite map_app in Hin. apply in_app_or in Hin. destruct Hin as [Hin|Hin]; [left|right; now apply IH].
    rewrite map_map in Hin. apply in_map_iff in Hin. destruct Hin as [r [<- Hr]]. cbn.
    pose proof (epoch_records_F _ _ _ _ He) as HF. rewrite Forall_forall in HF. symmetry. now apply HF.
  - now apply IH.
Qed.

Lemma dec_us_abs d : (dec_real (d <? 0)%Z (Z.abs d) 6 = IZR d / 10 ^ 6)%R.
Proof.
  unfold dec_real, Rdiv. f_equal. destruct (Z.ltb_spec d 0).
  - rewrite Z.abs_neq by lia. rewrite opp_IZR. ring.
  - rewrite Z.abs_eq by lia. ring.
Qed.
Lemma seconds_near d f : (Z.abs d < span)%Z -> seconds d f -> (Rabs (f2r f - IZR d / 10 ^ 6) <= / 2090000)%R.
Proof.
  intros Hd [_ [_ Hf]]. rewrite dec_us_abs in Hf. rewrite Hf.
  assert (Hb : (Rabs (IZR d / 10 ^ 6) < bpow radix2 33)%R).
  { unfold Rdiv. rewrite Rabs_mult, <- abs_IZR. rewrite (Rabs_pos_eq (/ 10 ^ 6)) by (apply Rlt_le, Rinv_0_lt_compat, pow_lt; lra).
    assert (IZR (Z.abs d) < IZR span)%R by (apply IZR_lt; exact Hd). replace (bpow radix2 33) with (IZR 8589934592) by (cbn; reflexivity).
    replace span with 4503599627370496%Z in * by (vm_compute; reflexivity).
    apply (Rmult_lt_reg_r (10 ^ 6)); [lra|]. rewrite Rmult_assoc, Rinv_l by lra. lra. }
  pose proof (rnd_error (IZR d / 10 ^ 6) 33 ltac:(lia) Hb) as He. eapply Rle_trans; [exact He|].
  change (33 - 54)%Z with (- (21))%Z. rewrite bpow_opp. replace (bpow radix2 21) with (IZR 2097152) by (cbn; reflexivity). lra.
Qed.
Lemma seconds_inj a b f g : (Z.abs a < span)%Z -> (Z.abs b < span)%Z -> seconds a f -> seconds b g -> f2r f = f2r g -> a = b.
Proof.
  intros Ha Hb Hf Hg E. pose proof (seconds_near a f Ha Hf) as Na. pose proof (seconds_near b g Hb Hg) as Nb. rewrite E in Na.
  destruct (Z.eq_dec a b) as [|Hne]; [assumption|exfalso].
  assert (Hd : (1 <= Rabs (IZR a - IZR b))%R) by (rewrite <- minus_IZR, <- abs_IZR; apply IZR_le; lia).
  apply Rabs_le_inv in Na. apply Rabs_le_inv in Nb. unfold Rdiv in *.
  assert (H6 : (10 ^ 6 = 1000000)%R) by ring. rewrite H6 in *.
  unfold Rabs in Hd. destruct (Rcase_abs _); lra.
Qed.
Lemma span_big a : (Z.abs a < span)%Z -> (Z.abs a <= 2 ^ 1000)%Z.
Proof. intros H. assert (span <= 2 ^ 1000)%Z by (vm_compute; discriminate). lia. Qed.
Lemma feqb_us a b : (Z.abs a < span)%Z -> (Z.abs b < span)%Z -> feqb (total_seconds a) (total_seconds b) = (a =? b)%Z.
Proof.
  intros Ha Hb. pose proof (total_seconds_nearest a (span_big a Ha)) as Sa. pose proof (total_seconds_nearest b (span_big b Hb)) as Sb.
  destruct (Z.eqb_spec a b) as [->|Hne].
  - apply feqb_good; [eapply nearest_good; exact Sb|eapply nearest_good; exact Sb|reflexivity].
  - destruct (feqb _ _) eqn:E; [|reflexivity]. exfalso. apply Hne. apply feqb_good in E; [|eapply nearest_good; exact Sa|eapply nearest_good; exact Sb].
    eapply seconds_inj; [exact Ha|exact Hb|exact Sa|exact Sb|exact E].
Qed.
Lemma times_count l : Forall (fun d => Z.abs d < span)%Z l -> forall a, (Z.abs a < span)%Z -> times (total_seconds a) (map total_seconds l) = count_occ Z.eq_dec l a.
Proof.
  intros H a Ha. unfold times. induction H as [|d l Hd Hl IH]; [reflexivity|]. cbn [map filter count_occ]. rewrite feqb_us by assumption.
  destruct (Z.eq_dec d a) as [->|Hne]; [rewrite Z.eqb_refl; cbn [length]; now rewrite IH|].
  destruct (Z.eqb_spec a d); [congruence|exact IH].
Qed.
Lemma map_split {A B} (f : A -> B) l : forall a b m, map f l = a ++ m :: b -> exists a' b' x, l = a' ++ x :: b' /\ a = map f a' /\ m = f x.
Proof.
  induction l as [|y l IH]; intros a b m H; [destruct a; discriminate|]. destruct a as [|z a]; cbn [map app] in H.
  - injection H as H1 H2. exists [], l, y. auto.
  - injection H as H1 H2. destruct (IH _ _ _ H2) as [a' [b' [x [-> [-> ->]]]]]. exists (y :: a'), b', x. subst z. auto.
Qed.
Lemma mode_us l m : Forall (fun d => Z.abs d < span)%Z l -> most_frequent m (map total_seconds l) -> exists us, m = total_seconds us /\ most_frequent_us us l.
Proof.
  intros Hl [a [b [E [H1 H2]]]]. destruct (map_split _ _ _ _ _ E) as [a' [b' [us [El [-> ->]]]]].
  exists us. split; [reflexivity|]. exists a', b'. split; [exact El|]. rewrite Forall_forall in Hl.
  assert (Hus : In us l) by (rewrite El; apply in_or_app; right; now left).
  assert (HF : Forall (fun d => Z.abs d < span)%Z l) by (apply Forall_forall; exact Hl).
  split.
  - intros x Hx. rewrite <- !(times_count l HF) by auto. apply H1. now apply in_map.
  - intros x Hx. assert (In x l) by (rewrite El; apply in_or_app; now left). rewrite <- !(times_count l HF) by auto. apply H2. now apply in_map.
Qed.

(** the differences the interval is computed from *)
Lemma delivered_diffs types prec pos n bs ls out : body_lines n bs ls -> delivered types prec pos bs out ->
  Forall (fun d => Z.abs d < span)%Z (epoch_diffs (epochs_of out)).
Proof.
  intros Hb Hd. pose proof (body_range _ _ _ Hb) as Hr. rewrite Forall_forall in Hr.
  assert (HF : Forall (fun e => midnight 1989 1 1 <= instant e < midnight 2089 2 1)%Z (epochs_of out)).
  { apply Forall_forall. intros e He. apply Hr. eapply delivered_epochs_in; eassumption. }
  unfold epoch_diffs. destruct HF as [|e es H1 H2]; [constructor|]. eapply diffs_range; [|exact H1|exact H2]. vm_compute. discriminate.
Qed.

(** text of the interval a reader reports for a difference of [us] microseconds *)
Lemma open2_interval v header body file types blocks h :
  file_parts header body file -> header_types header types -> NoDup types -> parse_header v header hdr0 = Ok h ->
  body_lines (length types) blocks body ->
  exists out, delivered types None (h_xyz h) blocks out /\
    let D := firstn 10 (epoch_diffs (epochs_of out)) in
    (D = [] -> open2 v file = Err RinexError) /\
    (D <> [] -> exists us, most_frequent_us us D /\
      ((500 < us < 999999000000)%Z -> exists r iv, open2 v file = Ok r /\ h_interval (o_hdr (r_obj r)) = Some iv /\
         match iv with
         | PFloat f => ver_is20 v = false /\ (0 < f2r f)%R /\ ((us mod 1000 = 0)%Z -> seconds us f)
         | PInt n => ver_is20 v = true /\ (0 <= n)%Z /\ ((us mod 1000000 = 0)%Z -> (n * 1000000 = us)%Z)
         end)).
Proof.
  intros Hf Hty Hn Hh Hb.
  destruct (get_interval_spec v types blocks body h Hn Hb) as [out [Hd Hg]]. exists out. split; [exact Hd|].
  cbv zeta in Hg |- *. pose proof (delivered_diffs _ _ _ _ _ _ _ Hb Hd) as HF.
  assert (HF10 : Forall (fun d => Z.abs d < span)%Z (firstn 10 (epoch_diffs (epochs_of out)))).
  { rewrite <- (firstn_skipn 10 (epoch_diffs (epochs_of out))) in HF. apply Forall_app in HF. tauto. }
  set (D := firstn 10 (epoch_diffs (epochs_of out))) in *. clearbody D.
  destruct (file_parts_split _ _ _ Hf) as [E1 E2].
  assert (Eo : open2 v file = (do (dt, o) <- get_interval 10 v types body (mkObj2 None h);
     do iv <- set_interval v (fmt_wf 10 3 dt);
     Ok (mkReader2 types (mkObj2 (o_prec o) (mkHdr (h_ver (o_hdr o)) (h_tofo (o_hdr o)) (h_xyz (o_hdr o)) (Some iv))) body))).
  { unfold open2. rewrite E1, E2, (types_read _ _ Hty). cbn [bind]. rewrite Hh. reflexivity. }
  rewrite Eo. split.
  - intros ->. cbn [map] in Hg. rewrite Hg. reflexivity.
  - intros HD. assert (Hg' : exists m o, get_interval 10 v types body (mkObj2 None h) = Ok (m, o) /\ most_frequent m (map total_seconds D)).
    { destruct D; [congruence|exact Hg]. }
    destruct Hg' as [m [o [Eg Hm]]]. destruct (mode_us D m HF10 Hm) as [us [-> Hus]]. exists us. split; [exact Hus|]. intros Hb2.
    rewrite Eg. cbn [bind]. destruct (interval_reported v us Hb2) as [iv [Eiv Hiv]]. rewrite Eiv. cbn [bind].
    eexists _, iv. split; [reflexivity|]. split; [reflexivity|].
    destruct iv as [n|f].
    + destruct Hiv as [V [Hn0 Hx]]. split; [exact V|]. split; [exact Hn0|]. intros Hmod. destruct (Hx Hmod) as [-> _].
      pose proof (Z.div_mod us 1000000 ltac:(lia)). lia.
    + destruct Hiv as [V [Hpos Hx]]. split; [exact V|]. split; [exact Hpos|]. intros Hmod. rewrite (Hx Hmod). apply total_seconds_nearest. apply span_big.
      assert (999999000000 < span)%Z by (vm_compute; reflexivity). lia.
Qed.

Lemma seconds_exact w s n k : (k = 1 \/ k = 5) -> fix_field w 7 s false n -> (n < 1270000000)%Z -> w <= 300 ->
  exists f, py_float s = Ok f /\ split_sec k f = Ok (n / 10000000, n mod 10000000 / 10)%Z.
Proof.
  intros Hk H Hb Hw. destruct (py_float_fix _ _ _ _ _ H Hw) as [f [Hf [E _]]].
  exists f. split; [exact Hf|]. subst f. change (- Z.of_nat 7)%Z with (-7)%Z.
  rewrite split_sec_exact; [reflexivity|lia|]. pose proof (fix_field_bound _ _ _ _ _ H). lia.
Qed.
Lemma event_absent_file v header eoh types blocks (pre : list str) b (ls tail : list str) :
  Forall (fun l => ~ occurs (lit "END OF HEADER") l) header -> has_label (lit "END OF HEADER") eoh ->
  header_types header types -> NoDup types -> body_lines (length types) blocks pre ->
  (exists fl evl np, b = BEvent fl evl np) -> block_lines (length types) b ls ->
  observations2 v (header ++ eoh :: pre ++ ls ++ tail) = observations2 v (header ++ eoh :: pre ++ tail).
Proof.
  intros Hh He Ht Hn Hb Hev Hl. apply observations_view; [|exact He|].
  - revert Hh. apply Forall_impl. intros l H. apply contains_false. exact H.
  - intros types' o Ht'. rewrite (types_read _ _ Ht) in Ht'. apply Ok_inj in Ht'. subst types'. eapply event_absent_mid; eassumption.
Qed.
Lemma with_pos_split ys : forall out1 out2, map with_pos ys = out1 ++ out2 -> exists a b, ys = a ++ b /\ map with_pos a = out1 /\ map with_pos b = out2.
Proof.
  intros out1. revert ys. induction out1 as [|x out1 IH]; intros ys out2 H; [exists [], ys; auto|].
  destruct ys as [|y ys]; [discriminate|]. cbn [map app] in H. injection H as H1 H2. destruct (IH _ _ H2) as [a [b [-> [<- <-]]]].
  exists (y :: a), b. cbn [map app]. rewrite H1. auto.
Qed.
Lemma event_position_file v header body file r b1 fl ls d b2 :
  file_parts header body file -> open2 v file = Ok r -> NoDup (r_types r) ->
  body_lines (length (r_types r)) (b1 ++ BEvent fl ls (Some d) :: b2) body ->
  first_epoch_once (b1 ++ BEvent fl ls (Some d) :: b2) -> no_positions b2 ->
  exists before after o' pos, records2 v r = (before ++ after, GStop, o') /\
    map (fun y => fst (fst y)) before = expected None b1 /\ near_position pos d /\
    Forall (fun y => h_xyz (o_hdr (snd y)) = pos) after.
Proof.
  intros Hf Ho Hn Hb H1 Hno. destruct (open2_delivers _ _ _ _ _ _ Hf Ho Hn Hb H1) as [ys [o' [E D]]].
  destruct (delivered_event _ _ _ _ _ _ _ _ _ D Hno) as [out1 [out2 [pos [Eo [E1 [Hp HF]]]]]].
  destruct (with_pos_split _ _ _ Eo) as [a [b [-> [Ea Eb]]]]. exists a, b, o', pos. split; [exact E|]. split.
  - rewrite <- E1, <- Ea, map_map. reflexivity.
  - split; [exact Hp|]. rewrite <- Eb in HF. apply Forall_forall. intros y Hy. rewrite Forall_forall in HF. apply (HF (with_pos y)). now apply in_map.
Qed.
Lemma declared_types : forall v header body file types r,
  file_parts header body file -> header_types header types -> open2 v file = Ok r -> r_types r = types.
Proof.
  intros v header body file types r Hf Hh Ho. destruct (open2_inv v header body file r Hf Ho) as [? [? [? [? [E _]]]]].
  rewrite (types_read header types Hh) in E. apply Ok_inj in E. auto.
Qed.
Lemma repeated_epochs : forall v header body file r blocks,
  file_parts header body file -> open2 v file = Ok r -> NoDup (r_types r) ->
  body_lines (length (r_types r)) blocks body -> first_epoch_once blocks ->
  map (fun y => fst (fst y)) (fst (fst (records2 v r))) = expected None blocks.
Proof.
  intros v header body file r blocks Hf Ho Hn Hb H1. destruct (open2_delivers v header body file r blocks Hf Ho Hn Hb H1) as [ys [o' [E D]]].
  rewrite E. cbn [fst]. rewrite <- (delivered_ids _ _ _ _ _ D), map_map. reflexivity.
Qed.
Lemma epoch_overflow : forall y mo d h mi s us,
  (epoch_in_range y mo d h mi s us /\ (end_of_time <= epoch_value y mo d h mi s us)%Z) \/
  ~ (fits (century y) /\ fits mo /\ fits d /\ fits h /\ fits mi /\ fits s /\ fits us) ->
  validate_epoch y mo d h mi s us = Err OverflowError.
Proof.
  intros y mo d h mi s us [[H1 H2]|H]; [apply validate_epoch_late; assumption|apply validate_epoch_huge; assumption].
Qed.
Lemma rinex2_errors : forall v types lines o e, snd (fst (run_records v types lines o)) = GRaise e ->
  e = RinexError \/ (e = OverflowError /\ exists l, In l lines /\ huge_line l) \/ bad_event_header v lines e.
Proof.
  intros v types lines o e H. exact (run_errors v types (length lines) lines o (le_n _) e H).
Qed.
Lemma lines_per_record : forall n, length (lines_per_rec n) = (n + 4) / 5 /\
  fold_right plus 0 (lines_per_rec n) = n /\ Forall (fun k => 1 <= k <= 5) (lines_per_rec n).
Proof.
  intros n. split; [apply lines_per_rec_len|apply lines_per_rec_sum].
Qed.
Lemma terminates2 : forall v file, open2 v file <> Err OutOfFuel /\
  forall r, snd (fst (records2 v r)) <> GRaise OutOfFuel.
Proof.
  intros v file. split; [apply open2_nf|apply records2_nf].
Qed.
