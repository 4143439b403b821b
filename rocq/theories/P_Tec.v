(** Proofs about the TEC values. *)
From Coq Require Import Reals Lra Psatz.
From Verif Require Import Base PyStr PyFloat S_Text P_Str P_Float P_Div M_Num M_Label M_Tec S_Tec.
Open Scope R_scope.

Lemma Rlit_eq m e : Rlit m e = IZR m * (if (0 <=? e)%Z then IZR (10 ^ e) else / IZR (10 ^ (- e))).
Proof. reflexivity. Qed.
Lemma Rint n : o_int Rops n = IZR n.
Proof. unfold o_int. cbn [o_lit Rops]. unfold Rlit. cbn. lra. Qed.
Lemma k40_R : k40 Rops = 40.308.
Proof. unfold k40. cbn [o_lit Rops]. unfold Rlit. cbn. lra. Qed.
Lemma tecu_R : tecu Rops = / 10000000000000000.
Proof. unfold tecu. cbn [o_lit Rops]. unfold Rlit. change (0 <=? -16)%Z with false. cbv iota. change (10 ^ (- -16))%Z with 10000000000000000%Z. ring. Qed.
Lemma half_R : o_lit Rops 5 (-1) = 1 / 2.
Proof. cbn [o_lit Rops]. unfold Rlit. cbn. lra. Qed.
Lemma light_R : light Rops = 299792458.
Proof. unfold light. now rewrite Rint. Qed.
Lemma div_R x y : y <> 0 -> o_div Rops x y = Ok (x / y).
Proof. intros H. cbn. destruct (Req_EM_T y 0); [contradiction|reflexivity]. Qed.
Lemma truth_R x : truth Rops (Some x) = true <-> x <> 0.
Proof.
  unfold truth, o_truth. rewrite Rint. cbn. unfold Reqb. destruct (Req_EM_T x 0); cbn; split; congruence.
Qed.
Lemma truth_R_true x : x <> 0 -> truth Rops (Some x) = true.
Proof. apply truth_R. Qed.
Lemma truth_missing x : truth Rops x = false <-> missing x.
Proof.
  unfold missing. destruct x as [x|]; [|cbn; tauto].
  pose proof (truth_R x). destruct (truth Rops (Some x)).
  - split; [discriminate|]. intros [E|E]; [discriminate|]. injection E as ->. now destruct (proj1 H eq_refl).
  - split; [|reflexivity]. intros _. right. destruct (Req_EM_T x 0) as [->|n]; [reflexivity|]. apply H in n. discriminate.
Qed.
Lemma truth_missing_f m x : truth (Fops m) x = false <-> missing_f x.
Proof.
  unfold missing_f. destruct x as [x|]; [|cbn; tauto]. unfold truth, o_truth. cbn [o_eqb Fops].
  change (o_int (Fops m) 0) with (S754_zero false). 
  destruct x as [s|s| |s a e]; unfold feqb, SFeqb; cbn.
  - split; [|reflexivity]. intros _. right. now exists s.
  - split; [destruct s; discriminate|]. intros [E|[b E]]; discriminate.
  - split; [discriminate|]. intros [E|[b E]]; discriminate.
  - split; [destruct s; discriminate|]. intros [E|[b E]]; discriminate.
Qed.

Lemma sq_neq f1 f2 : 0 < f1 -> 0 < f2 -> f1 <> f2 -> f1 ^ 2 - f2 ^ 2 <> 0.
Proof. intros H1 H2 Hn E. assert ((f1 - f2) * (f1 + f2) = 0) by lra. apply Rmult_integral in H as [H|H]; lra. Qed.
Lemma factor_R f1 f2 : 0 < f1 -> 0 < f2 -> f1 <> f2 ->
  tec_factor Rops f1 f2 = Ok (1 / 40.308 * (f1 ^ 2 * f2 ^ 2) / (f1 ^ 2 - f2 ^ 2) * / 10000000000000000).
Proof.
  intros H1 H2 Hn. unfold tec_factor. rewrite Rint, k40_R, div_R by lra. cbn [bind o_pow Rops o_mul o_sub].
  rewrite div_R by now apply sq_neq. cbn [bind]. now rewrite tecu_R.
Qed.

Lemma via_p_tec r s f1 f2 : 0 < f1 -> 0 < f2 -> f1 <> f2 -> r + delay s f1 <> 0 -> r + delay s f2 <> 0 ->
  via_p Rops (Some (r + delay s f1)) (Some (r + delay s f2)) (Some f1) (Some f2) = Ok (Some s).
Proof.
  intros H1 H2 Hn N1 N2. unfold via_p. rewrite !truth_R_true by (assumption || lra). cbn [negb andb].
  rewrite factor_R by assumption. cbn [bind]. do 2 f_equal. cbn [o_mul o_sub Rops]. unfold delay.
  pose proof (sq_neq _ _ H1 H2 Hn). field. repeat split; lra.
Qed.
Lemma via_l_tec r s b1 b2 f1 f2 l1 l2 : 0 < f1 -> 0 < f2 -> f1 <> f2 -> l1 <> 0 -> l2 <> 0 ->
  lambda f1 * l1 = r - delay s f1 + b1 -> lambda f2 * l2 = r - delay s f2 + b2 ->
  via_l Rops (Some l1) (Some l2) (Some f1) (Some f2) 0 =
  Ok (Some (s + (b1 - b2) * (f1 * f1 * (f2 * f2)) / (40.308 * 10000000000000000 * (f1 * f1 - f2 * f2)))).
Proof.
  intros H1 H2 Hn N1 N2 E1 E2. unfold via_l. rewrite !truth_R_true by (assumption || lra). cbn [negb andb].
  rewrite factor_R by assumption. cbn [bind]. rewrite light_R, !div_R by lra. cbn [bind]. do 2 f_equal. cbn [o_mul o_sub Rops].
  unfold lambda in *. rewrite E1, E2. unfold delay. pose proof (sq_neq _ _ H1 H2 Hn). field. repeat split; lra.
Qed.
Lemma via_lc_tec r s b f l : 0 < f -> l <> 0 -> r + delay s f <> 0 -> lambda f * l = r - delay s f + b ->
  via_l1_c1 Rops (Some l) (Some (r + delay s f)) (Some f) = Ok (Some (s - b * (f * f) / (2 * 40.308 * 10000000000000000))).
Proof.
  intros H1 N1 N2 E1. unfold via_l1_c1. rewrite !truth_R_true by (assumption || lra). cbn [negb andb].
  rewrite half_R, k40_R, light_R, tecu_R. cbn [bind o_pow Rops o_mul]. rewrite div_R by lra. cbn [bind]. rewrite div_R by lra. cbn [bind]. do 2 f_equal. cbn [o_mul o_sub Rops].
  assert (E : l * 299792458 / f = r - delay s f + b) by (rewrite <- E1; unfold lambda; field; lra).
  rewrite E. unfold delay. field. lra.
Qed.

(** ** when a value is missing *)
Lemma bind_some {A} (x : res A) (g : A -> float) : (do k <- x; Ok (Some (g k))) <> Ok None.
Proof. destruct x; cbn; congruence. Qed.
Lemma via_p_none_gen {T} (o : ops T) p1 p2 f1 f2 :
  via_p o p1 p2 f1 f2 = Ok None <-> truth o p1 = false \/ truth o p2 = false \/ truth o f1 = false \/ truth o f2 = false.
Proof.
  unfold via_p. destruct (truth o f1) eqn:Ef1; [|cbn; tauto]. destruct (truth o f2) eqn:Ef2; [|cbn; tauto]. cbn [negb].
  destruct p1 as [p1|]; [|cbn; tauto]. destruct p2 as [p2|]; [|cbn; tauto].
  destruct f1 as [f1|]; [|discriminate]. destruct f2 as [f2|]; [|discriminate].
  destruct (truth o (Some p1)); [|cbn; tauto]. destruct (truth o (Some p2)); [|cbn; tauto]. cbn [andb].
  destruct (tec_factor o f1 f2); cbn [bind]; split; try discriminate; intros [H|[H|[H|H]]]; discriminate.
Qed.
Lemma via_l_none_gen {T} (o : ops T) p1 p2 f1 f2 l0 :
  via_l o p1 p2 f1 f2 l0 = Ok None <-> truth o p1 = false \/ truth o p2 = false \/ truth o f1 = false \/ truth o f2 = false.
Proof.
  unfold via_l. destruct (truth o f1) eqn:Ef1; [|cbn; tauto]. destruct (truth o f2) eqn:Ef2; [|cbn; tauto]. cbn [negb].
  destruct p1 as [p1|]; [|cbn; tauto]. destruct p2 as [p2|]; [|cbn; tauto].
  destruct f1 as [f1|]; [|discriminate]. destruct f2 as [f2|]; [|discriminate].
  destruct (truth o (Some p1)); [|cbn; tauto]. destruct (truth o (Some p2)); [|cbn; tauto]. cbn [andb].
  destruct (tec_factor o f1 f2); cbn [bind]; [destruct (o_div o (light o) f1); cbn [bind]; [destruct (o_div o (light o) f2); cbn [bind]|]|];
    split; try discriminate; intros [H|[H|[H|H]]]; discriminate.
Qed.
Lemma via_lc_none_gen {T} (o : ops T) p1 p2 f1 :
  via_l1_c1 o p1 p2 f1 = Ok None <-> truth o p1 = false \/ truth o p2 = false \/ truth o f1 = false.
Proof.
  unfold via_l1_c1. destruct (truth o f1) eqn:Ef1; [|cbn; tauto]. cbn [negb].
  destruct p1 as [p1|]; [|cbn; tauto]. destruct p2 as [p2|]; [|cbn; tauto].
  destruct f1 as [f1|]; [|discriminate]. rewrite Bool.andb_true_r.
  destruct (truth o (Some p1)); [|rewrite andb_false_r; cbn; tauto]. destruct (truth o (Some p2)); [|cbn; tauto]. cbn [andb].
  destruct (o_pow o f1 2); cbn [bind]; [destruct (o_div o _ (k40 o)); cbn [bind]; [destruct (o_div o _ f1); cbn [bind]|]|];
    split; try discriminate; intros [H|[H|H]]; discriminate.
Qed.
Lemma via_p_none m p1 p2 f1 f2 : via_p (Fops m) p1 p2 f1 f2 = Ok None <-> missing_f p1 \/ missing_f p2 \/ missing_f f1 \/ missing_f f2.
Proof. rewrite via_p_none_gen, !truth_missing_f. reflexivity. Qed.
Lemma via_l_none m p1 p2 f1 f2 l0 : via_l (Fops m) p1 p2 f1 f2 l0 = Ok None <-> missing_f p1 \/ missing_f p2 \/ missing_f f1 \/ missing_f f2.
Proof. rewrite via_l_none_gen, !truth_missing_f. reflexivity. Qed.
Lemma via_lc_none m p1 p2 f1 : via_l1_c1 (Fops m) p1 p2 f1 = Ok None <-> missing_f p1 \/ missing_f p2 \/ missing_f f1.
Proof. rewrite via_lc_none_gen, !truth_missing_f. reflexivity. Qed.

(** ** C30 *)
Open Scope nat_scope.
Lemma requested_in fields n names : In n fields -> In n names -> In n tec_all -> requested fields names = true.
Proof.
  intros H1 H2 H3. unfold requested. apply existsb_exists. exists n. split; [exact H2|]. apply existsb_exists. exists n. split; [|now apply seqb_eq].
  unfold tec2calc. apply filter_In. split; [exact H1|]. apply existsb_exists. exists n. split; [exact H3|now apply seqb_eq].
Qed.
Lemma tec_name_cases {T} (o : ops T) fields ds f n : In n tec_names -> In (lit "tec." ++ n) fields ->
  (n = lit "l8c8" -> In (lit "tec.l1c1") fields \/ In (lit "tec.l2c2") fields) ->
  tec_named o ds f n (tec_column o fields ds f n).
Proof.
  intros Hn Hf H8. cbn in Hn.
  assert (P : forall m, (lit "tec." ++ n) = m -> In m tec_p -> In m tec_all -> on_demand_p fields = true).
  { intros m <- A B. exact (requested_in _ _ _ Hf A B). }
  assert (L : forall m, (lit "tec." ++ n) = m -> In m tec_l -> In m tec_all -> on_demand_l fields = true).
  { intros m <- A B. exact (requested_in _ _ _ Hf A B). }
  assert (C : In (lit "tec.l1c1") fields \/ In (lit "tec.l2c2") fields -> on_demand_l1_c1 fields = true).
  { intros [A|A]; eapply requested_in; try exact A; cbn; tauto. }
  unfold tec_column.
  repeat destruct Hn as [<-|Hn]; try contradiction;
    repeat (match goal with |- context [seqb ?a ?b] => let v := eval vm_compute in (seqb a b) in change (seqb a b) with v end; cbv iota);
    try (rewrite (P _ eq_refl) by (cbn; tauto)); try (rewrite (L _ eq_refl) by (cbn; tauto));
    try (rewrite C by (first [exact (H8 eq_refl)|now left|now right])).
  all: match goal with
    | |- tec_named _ _ _ [?a; ?x; ?b; ?y] (via_p _ (?d ?ca) (?d ?cb) _ _) =>
        exact (tn_code o ds f a x b y _ _ ca cb eq_refl eq_refl ltac:(discriminate) ltac:(discriminate) eq_refl eq_refl)
    | |- tec_named _ _ _ [_; ?x; _; ?y] (via_l _ (?d ?ca) (?d ?cb) _ _ _) => exact (tn_phase o ds f x y ca cb eq_refl eq_refl)
    | |- tec_named _ _ _ [_; ?x; _; ?y] (via_l1_c1 _ (?d ?ca) (?d ?cb) _) => exact (tn_mixed o ds f x ca cb eq_refl eq_refl)
    end.
Qed.

Lemma l8c8_lost {T} (o : ops T) ds f : tec_column o [lit "tec.l8c8"] ds f (lit "l8c8") = Ok None.
Proof. reflexivity. Qed.
