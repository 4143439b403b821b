(** End to end, part 4: the columns of a row. *)
From Coq Require Import Reals Lra.
From Flocq Require Import Core.
From Verif Require Import Base PyStr PyFloat PyDate S_Text S_Time S_Obs2 S_Open2 S_Obs3 S_Label S_Rec S_Tec M_Common M_Header M_Obs2 M_Obs3 M_Label M_Num M_Tec M_Rec M_Text M_Cfg M_Names M_Nav M_Main S_Main S_End.
From Verif Require Import P_Str P_Float P_Open2b P_Rec P_Label P_Tec P_TecF P_TecE P_TecG E_Tec P_Main7 P_End1 P_End2 P_End3.
Open Scope nat_scope.

(** ** cells *)
Lemma cell_about w0 cell x y eps : real_cell w0 3 cell x -> (Rabs (x - y) <= eps)%R -> shows_about cell y (/ 2000 + eps).
Proof.
  intros [b [neg [ip [fp [E [Hb [H1 [H2 [H3 [H4 [H5 H6]]]]]]]]]]] He. exists (dec_real neg (dec_value (ip ++ fp)) 3). split.
  - exists b, neg, ip, fp. repeat (split; [assumption|]). reflexivity.
  - assert (Q : (/ 2 / 10 ^ 3 = / 2000)%R) by lra. rewrite Q in H6. apply Rabs_le_inv in H6, He. apply Rabs_le. lra.
Qed.
Lemma cell_exact w0 cell x neg m : real_cell w0 3 cell x -> (Rabs (x - dec_real neg m 3) < / 2000)%R -> shows_number cell (dec_real neg m 3).
Proof.
  intros [b [ng [ip [fp [E [Hb [H1 [H2 [H3 [H4 [H5 H6]]]]]]]]]]] He. exists b, ng, ip, fp. repeat (split; [assumption|]).
  assert (Q : (/ 2 / 10 ^ 3 = / 2000)%R) by lra. rewrite Q in H6. set (v := dec_value (ip ++ fp)) in *.
  assert (Hz : forall g z, dec_real g z 3 = (IZR (if g : bool then - z else z) / 1000)%R).
  { intros [] z; unfold dec_real; [rewrite opp_IZR|]; cbn; lra. }
  rewrite !Hz in *. apply Rabs_le_inv in H6. apply Rabs_def2 in He.
  assert (Heq : (if neg then - m else m)%Z = (if ng then - v else v)%Z).
  { assert (A1 : (IZR (if neg then - m else m)%Z < IZR (if ng then - v else v)%Z + 1)%R) by lra.
    assert (A2 : (IZR (if ng then - v else v)%Z < IZR (if neg then - m else m)%Z + 1)%R) by lra.
    rewrite <- plus_IZR in A1, A2. apply lt_IZR in A1, A2. lia. }
  now rewrite Heq.
Qed.

(** ** frequencies *)
Lemma carrier_range sys band base step k : In (sys, band, (base, step)) carriers -> (Z.abs k <= 100)%Z -> (1000000000 <= base + k * step <= 2000000000)%Z.
Proof. intros H Hk. cbn [In carriers] in H. repeat destruct H as [H|H]; try contradiction; injection H as <- <- <- <-; lia. Qed.
Lemma freqs_same m sys a b : sys <> "R"%char -> system_freqs (Fops m) sys a = system_freqs (Fops m) sys b.
Proof. intros H. unfold system_freqs. destruct sys as [[] [] [] [] [] [] [] []]; try reflexivity. contradiction. Qed.
Section Freq.
Context (w : world) (c : cfg) (t : datetime) (sys : ascii) (digits : str) (n : Z) (freqs : float * float).
Hypothesis Hn : py_int digits = Ok n.
Hypothesis Hf : sys <> "R"%char \/ exists k, channel w c t n k /\ freqs = (glo_f1 (Fops (w_libm w)) k, glo_f2 (Fops (w_libm w)) k).
Let fr := system_freqs (Fops (w_libm w)) sys freqs.
Lemma channel_fun k k' : channel w c t n k -> channel w c t n k' -> k = k'.
Proof.
  intros [dt [eph [H1 H2]]] [dt' [eph' [H3 H4]]]. pose proof (ephemeris_fun w c t "R" n _ _ H1 H3) as E. congruence.
Qed.
Lemma freq_k band hz : frequency w c t (sys :: digits) band hz -> exists k base step, In (sys, band, (base, step)) carriers /\ (Z.abs k <= 100)%Z /\ hz = IZR (base + k * step) /\
  fr = system_freqs (Fops (w_libm w)) sys (glo_f1 (Fops (w_libm w)) (float_of_Z k), glo_f2 (Fops (w_libm w)) (float_of_Z k)).
Proof.
  intros [sys' [digits' [n' [base [step [k [E [Hn' [Hin [Hk [Hc Hz]]]]]]]]]]]. injection E as <- <-. rewrite Hn in Hn'. injection Hn' as <-.
  exists k, base, step. repeat (split; [assumption|]). unfold fr. destruct (Ascii.ascii_dec sys "R") as [->|Hs].
  - destruct Hf as [Hf'|[kf [Hkf ->]]]; [contradiction|]. now rewrite (channel_fun _ _ Hkf (Hc eq_refl)).
  - apply freqs_same. exact Hs.
Qed.
Lemma freq_value band hz : squares w -> frequency w c t (sys :: digits) band hz -> exists f, band_freq fr band = Some f /\ carrier (w_libm w) f /\ real f = hz.
Proof.
  intros Hsq H. destruct (freq_k band hz H) as [k [base [step [Hin [Hk [Hz E]]]]]]. pose proof (carrier_range _ _ _ _ k Hin Hk) as Hr.
  destruct (carrier_exact (w_libm w) sys band k base step Hin ltac:(lia)) as [f [Ef [Gf Rf]]]. rewrite <- E in Ef. exists f. split; [exact Ef|].
  assert (Er : real f = hz) by (unfold real; rewrite Hz; exact Rf). split; [|exact Er]. destruct Hr as [R1 R2]. apply IZR_le in R1, R2.
  assert (B : (1000000000 <= real f <= 2000000000)%R) by (rewrite Er, Hz; split; assumption). split; [exact Gf|]. split; [exact B|]. now apply Hsq.
Qed.
Lemma freq_apart x y f1 f2 h1 : In (x, y) band_pairs -> frequency w c t (sys :: digits) x h1 -> In sys (lit "GRSCE") -> band_freq fr x = Some f1 -> band_freq fr y = Some f2 -> apart f1 f2.
Proof.
  intros Hp H Hs E1 E2. destruct (freq_k x h1 H) as [k [base [step [Hin [Hk [Hz E]]]]]]. rewrite E in E1, E2.
  exact (proj1 (columns_apart (w_libm w) sys k x y f1 f2 Hs Hp Hk E1 E2)).
Qed.
Lemma freq_sys band hz : frequency w c t (sys :: digits) band hz -> In sys (lit "GRSCE").
Proof. intros H. destruct (freq_k band hz H) as [k [base [step [Hin _]]]]. cbn [In carriers] in Hin. repeat destruct Hin as [Hin|Hin]; try contradiction; injection Hin as <- <- <- <-; cbn; auto 10. Qed.
End Freq.

(** ** TEC columns *)
Lemma column_value (o : ops float) fields ds f tecs n : tec_columns o fields ds f = Ok tecs -> In n M_Tec.tec_names ->
  exists v, tec_column o fields ds f n = Ok v /\ dict_get seqb n tecs = Some v.
Proof.
  unfold tec_columns. generalize M_Tec.tec_names as l. intros l. revert tecs. induction l as [|a l IH]; intros tecs H Hin; [contradiction|]. cbn [mapM] in H.
  destruct (tec_column o fields ds f a) as [v|] eqn:Ev; [|discriminate H]. cbn [bind] in H.
  destruct (mapM _ l) as [r|] eqn:Er; [|discriminate H]. cbn [bind] in H. injection H as <-. cbn [dict_get].
  destruct (seqb n a) eqn:E; [apply seqb_eq in E; subst a; exists v; auto|]. destruct Hin as [->|Hin]; [rewrite seqb_refl in E; discriminate|]. now apply IH.
Qed.
Lemma pair_bands a x b y ka kb : In [a; x; b; y] M_Tec.tec_names -> kind_of a = Some ka -> kind_of b = Some kb -> (ka = KPhase <-> kb = KPhase) -> In (x, y) band_pairs.
Proof.
  intros H Ha Hb Hk. cbn in H. repeat destruct H as [H|H]; try contradiction; injection H as <- <- <- <-; cbn in Ha, Hb; injection Ha as <-; injection Hb as <-;
    first [cbn; auto 10; fail|exfalso; destruct Hk as [Hk _]; specialize (Hk eq_refl); discriminate].
Qed.
Lemma class_label k x cl : band_class k x = Some cl -> In cl obs_type_labels.
Proof.
  intros H. destruct k; destruct x as [[] [] [] [] [] [] [] []]; try discriminate H; injection H as <-; cbn; auto 40.
Qed.

Lemma field_tec f name : In f field_names -> f = lit "tec." ++ name -> In name M_Tec.tec_names.
Proof.
  intros H E. assert (G : forallb (fun x => negb (seqb (firstn 4 x) (lit "tec.")) || existsb (seqb (skipn 4 x)) M_Tec.tec_names) field_names = true) by (vm_compute; reflexivity).
  pose proof (proj1 (forallb_forall _ _) G f H) as G'. cbv beta in G'. subst f.
  change (firstn 4 (lit "tec." ++ name)) with (lit "tec.") in G'. change (skipn 4 (lit "tec." ++ name)) with name in G'. rewrite seqb_refl in G'. cbn [negb orb] in G'.
  apply existsb_exists in G'. destruct G' as [y [Hy E]]. apply seqb_eq in E. now subst y.
Qed.
Lemma name_string (name : str) : exists o, name = lit o.
Proof. exists (string_of_list_ascii name). unfold lit. now rewrite list_ascii_of_string_of_list_ascii. Qed.

Section Named.
Context {T : Type} (o : ops T) (ds : oclass -> option T) (f : freqs T).
Lemma named_code n r a x b y ka kb ca cb : tec_named o ds f n r -> n = [a; x; b; y] -> kind_of a = Some ka -> kind_of b = Some kb -> ka <> KPhase -> kb <> KPhase ->
  band_class ka x = Some ca -> band_class kb y = Some cb -> r = via_p o (ds ca) (ds cb) (band_freq f x) (band_freq f y).
Proof.
  intros H. destruct H as [a' x' b' y' ka' kb' ca' cb' Ka' Kb' Na' Nb' Ca' Cb'|x' y' ca' cb' Ca' Cb'|x' ca' cb' Ca' Cb']; intros E Ka Kb Na Nb Ca Cb; injection E; intros; subst.
  - congruence.
  - cbn in Ka. congruence.
  - cbn in Ka. congruence.
Qed.
Lemma named_phase n r x y ca cb : tec_named o ds f n r -> n = ["l"; x; "l"; y]%char -> band_class KPhase x = Some ca -> band_class KPhase y = Some cb ->
  r = via_l o (ds ca) (ds cb) (band_freq f x) (band_freq f y) (o_int o 0).
Proof.
  intros H. destruct H as [a' x' b' y' ka' kb' ca' cb' Ka' Kb' Na' Nb' Ca' Cb'|x' y' ca' cb' Ca' Cb'|x' ca' cb' Ca' Cb']; intros E Ca Cb.
  - injection E; intros; subst. cbn in Ka'. congruence.
  - injection E; intros; subst. congruence.
  - discriminate E.
Qed.
Lemma named_mixed n r x ca cb : tec_named o ds f n r -> n = ["l"; x; "c"; x]%char -> band_class KPhase x = Some ca -> band_class KCode x = Some cb ->
  r = via_l1_c1 o (ds ca) (ds cb) (band_freq f x).
Proof.
  intros H. destruct H as [a' x' b' y' ka' kb' ca' cb' Ka' Kb' Na' Nb' Ca' Cb'|x' y' ca' cb' Ca' Cb'|x' ca' cb' Ca' Cb']; intros E Ca Cb.
  - injection E; intros; subst. cbn in Ka'. congruence.
  - discriminate E.
  - injection E; intros; subst. congruence.
Qed.
Lemma named_any n r a x b y ka kb ca cb : tec_named o ds f n r -> n = [a; x; b; y] -> kind_of a = Some ka -> kind_of b = Some kb ->
  band_class ka x = Some ca -> band_class kb y = Some cb ->
  r = via_p o (ds ca) (ds cb) (band_freq f x) (band_freq f y) \/ r = via_l o (ds ca) (ds cb) (band_freq f x) (band_freq f y) (o_int o 0) \/ r = via_l1_c1 o (ds ca) (ds cb) (band_freq f x).
Proof.
  intros H. destruct H as [a' x' b' y' ka' kb' ca' cb' Ka' Kb' Na' Nb' Ca' Cb'|x' y' ca' cb' Ca' Cb'|x' ca' cb' Ca' Cb']; intros E Ka Kb Ca Cb; injection E; intros; subst.
  - left. congruence.
  - right. left. cbn in Ka, Kb. injection Ka as <-. injection Kb as <-. congruence.
  - right. right. cbn in Ka, Kb. injection Ka as <-. injection Kb as <-. congruence.
Qed.
End Named.

Section Column.
Context (w : world) (c : cfg) (s : step) (t : datetime) (sys : ascii) (digits : str) (n : Z) (q : quantity -> option pyval) (vals : list (str * field)).
Hypothesis Hsq : squares w.
Hypothesis Hn : py_int digits = Ok n.
Hypothesis Hd : shows_data w c s t sys n q.
Hypothesis Hnd : NoDup (map fst vals).
Hypothesis Hrec : record_of vals (s_rec s).
Let fields := rf_fields (c_format c).
Let ds := fun cl => fst (fst (ds_get (parse_rec (s_rec s)) cl)).

Lemma operand cl x d lli : In cl obs_type_labels -> observable vals cl x -> decimal x d lli -> exists p, ds cl = Some p /\ nearest64 p d.
Proof.
  intros Hc Ho Hx. destruct (datum_decimal vals (s_rec s) cl x d lli Hnd Hrec Hc Ho Hx) as [p [ss [Hp E]]]. exists p. unfold ds. rewrite E. auto.
Qed.
Lemma decimal_small x d lli : decimal x d lli -> (0 < Rabs d)%R -> (/ 1000 <= Rabs d)%R.
Proof.
  intros [neg [m [ss [_ ->]]]] H. assert (E : Rabs (dec_real neg m 3) = (IZR (Z.abs m) / 1000)%R).
  { unfold dec_real. rewrite abs_IZR. unfold Rdiv. rewrite !Rabs_mult. replace (Rabs (if neg then -1 else 1)) with 1%R by (destruct neg; [rewrite Rabs_left|rewrite Rabs_R1]; lra).
    rewrite (Rabs_right (/ 10 ^ 3)) by lra. lra. }
  rewrite E in *. assert (0 < IZR (Z.abs m))%R by lra. apply lt_IZR in H0. assert (1 <= Z.abs m)%Z by lia. apply IZR_le in H1. lra.
Qed.

Definition l8_on (name : str) : Prop := name = lit "l8c8" -> In (lit "tec.l1c1") fields \/ In (lit "tec.l2c2") fields.
(** the value of a TEC column *)
Lemma tec_value name : In name M_Tec.tec_names -> In (lit "tec." ++ name) fields -> l8_on name ->
  exists freqs v, (sys <> "R"%char \/ exists k, channel w c t n k /\ freqs = (glo_f1 (Fops (w_libm w)) k, glo_f2 (Fops (w_libm w)) k)) /\
    tec_named (Fops (w_libm w)) ds (system_freqs (Fops (w_libm w)) sys freqs) name (Ok v) /\
    forall o, name = lit o -> q (QTec o) = match v with Some x => Some (VFloat x) | None => None end.
Proof.
  intros H1 H2 H3. destruct Hd as [freqs [tecs [Hf [Ht [Hq _]]]]]. destruct (column_value _ _ _ _ _ name Ht H1) as [v [Ev Eg]]. exists freqs, v. split; [exact Hf|]. split.
  - rewrite <- Ev. apply tec_name_cases; [exact H1|exact H2|]. exact H3.
  - intros o ->. rewrite Hq, Eg. destruct v; reflexivity.
Qed.
Variables (f cell : str).
Hypothesis Hin : In f fields.
Hypothesis Hname : In f field_names.
Hypothesis Hcell : column_cell (oc_strftime (out_of w c)) t q f cell.

Lemma tec_real name v : f = lit "tec." ++ name -> (forall o, name = lit o -> q (QTec o) = Some (VFloat v)) -> good v -> exists w0, real_cell w0 3 cell (f2r v).
Proof.
  intros Ef Hq Gv. destruct (name_string name) as [o Eo]. destruct Hcell as [_ [Hr _]].
  exists (fst (layout (QTec o))). apply (Hr (QTec o) 3 v); [rewrite Ef, Eo; apply sh_tec|reflexivity|exact (Hq o Eo)|exact Gv].
Qed.
Lemma tec_zero name : f = lit "tec." ++ name -> (forall o, name = lit o -> q (QTec o) = None) -> shows_number cell 0.
Proof.
  intros Ef Hq. destruct (name_string name) as [o Eo]. destruct Hcell as [_ [_ [Hr _]]].
  pose proof (Hr (QTec o) 3 ltac:(rewrite Ef, Eo; apply sh_tec) eq_refl (Hq o Eo)) as R.
  assert (E : (0 = dec_real false 0 3)%R) by (unfold dec_real; lra). rewrite E. apply (cell_exact _ _ _ false 0 R). rewrite <- E, Rminus_diag_eq, Rabs_R0 by reflexivity. lra.
Qed.

Lemma col_code name : f = lit "tec." ++ name -> l8_on name -> says_code w c t (sys :: digits) vals name cell.
Proof.
  intros Ef H8. unfold says_code. intros a x b y ka kb ca cb o1 o2 d1 d2 l1 l2 f1 f2 r s0 En Ka Kb Na Nb Ca Cb O1 D1 O2 D2 F1 F2 B1 B2 E1 E2 Hs.
  pose proof (field_tec f name Hname Ef) as Ht. rewrite Ef in Hin. destruct (tec_value name Ht Hin H8) as [freqs [v [Hf [Hv Hq]]]].
  destruct (freq_value w c t sys digits n freqs Hn Hf x f1 Hsq F1) as [g1 [G1 [C1 R1]]]. destruct (freq_value w c t sys digits n freqs Hn Hf y f2 Hsq F2) as [g2 [G2 [C2 R2]]].
  destruct (operand ca o1 d1 l1 (class_label _ _ _ Ca) O1 D1) as [p1 [P1 N1]]. destruct (operand cb o2 d2 l2 (class_label _ _ _ Cb) O2 D2) as [p2 [P2 N2]].
  assert (Hp : In (x, y) band_pairs) by (rewrite En in Ht; apply (pair_bands a x b y ka kb Ht Ka Kb); split; intros; contradiction).
  pose proof (freq_apart w c t sys digits n freqs Hn Hf x y g1 g2 f1 Hp F1 (freq_sys w c t sys digits n freqs Hn Hf x f1 F1) G1 G2) as Ha.
  rewrite <- R1 in E1. rewrite <- R2 in E2.
  destruct (code_tec (w_libm w) p1 p2 g1 g2 d1 d2 r s0 C1 C2 Ha N1 N2 B1 B2 E1 E2 Hs) as [tv [Et [Gt Hd']]].
  assert (Ev : v = Some tv).
  { pose proof (named_code _ _ _ _ _ a x b y ka kb ca cb Hv En Ka Kb Na Nb Ca Cb) as X. rewrite P1, P2, G1, G2, Et in X. exact (Ok_inj _ _ X). }
  subst v. destruct (tec_real name tv Ef Hq Gt) as [w0 R]. destruct (cell_about w0 cell (f2r tv) s0 (/ 250000) R Hd') as [z [Z1 Z2]]. exists z. split; [exact Z1|lra].
Qed.
Lemma col_phase name : f = lit "tec." ++ name -> l8_on name -> says_phase w c t (sys :: digits) vals name cell.
Proof.
  intros Ef H8. unfold says_phase. intros x y ca cb o1 o2 d1 d2 l1 l2 f1 f2 r s0 b1 b2 En Ca Cb O1 D1 O2 D2 F1 F2 B1 B2 E1 E2.
  pose proof (field_tec f name Hname Ef) as Ht. rewrite Ef in Hin. destruct (tec_value name Ht Hin H8) as [freqs [v [Hf [Hv Hq]]]].
  destruct (freq_value w c t sys digits n freqs Hn Hf x f1 Hsq F1) as [g1 [G1 [C1 R1]]]. destruct (freq_value w c t sys digits n freqs Hn Hf y f2 Hsq F2) as [g2 [G2 [C2 R2]]].
  destruct (operand ca o1 d1 l1 (class_label _ _ _ Ca) O1 D1) as [p1 [P1 N1]]. destruct (operand cb o2 d2 l2 (class_label _ _ _ Cb) O2 D2) as [p2 [P2 N2]].
  assert (Hp : In (x, y) band_pairs) by (rewrite En in Ht; apply (pair_bands "l" x "l" y KPhase KPhase Ht eq_refl eq_refl); split; reflexivity).
  pose proof (freq_apart w c t sys digits n freqs Hn Hf x y g1 g2 f1 Hp F1 (freq_sys w c t sys digits n freqs Hn Hf x f1 F1) G1 G2) as Ha.
  rewrite <- R1 in E1. rewrite <- R2 in E2.
  pose proof (decimal_small o1 d1 l1 D1 (proj1 B1)) as S1. pose proof (decimal_small o2 d2 l2 D2 (proj1 B2)) as S2.
  destruct (phase_tec (w_libm w) p1 p2 g1 g2 d1 d2 r s0 b1 b2 C1 C2 Ha N1 N2 (conj S1 (proj2 B1)) (conj S2 (proj2 B2)) E1 E2) as [tv [Et [Gt Hd']]].
  assert (Ev : v = Some tv).
  { pose proof (named_phase _ _ _ _ _ x y ca cb Hv En Ca Cb) as X. rewrite P1, P2, G1, G2, Et in X. exact (Ok_inj _ _ X). }
  subst v. destruct (tec_real name tv Ef Hq Gt) as [w0 R]. rewrite <- R1, <- R2. destruct (cell_about w0 cell (f2r tv) _ (/ 4000) R Hd') as [z [Z1 Z2]]. exists z. split; [exact Z1|lra].
Qed.
Lemma col_mixed name : f = lit "tec." ++ name -> l8_on name -> says_mixed w c t (sys :: digits) vals name cell.
Proof.
  intros Ef H8. unfold says_mixed. intros x ca cb o1 o2 d1 d2 l1 l2 f1 r s0 b1 En Ca Cb O1 D1 O2 D2 F1 B1 B2 E1 E2.
  pose proof (field_tec f name Hname Ef) as Ht. rewrite Ef in Hin. destruct (tec_value name Ht Hin H8) as [freqs [v [Hf [Hv Hq]]]].
  destruct (freq_value w c t sys digits n freqs Hn Hf x f1 Hsq F1) as [g1 [G1 [C1 R1]]].
  destruct (operand ca o1 d1 l1 (class_label _ _ _ Ca) O1 D1) as [p1 [P1 N1]]. destruct (operand cb o2 d2 l2 (class_label _ _ _ Cb) O2 D2) as [p2 [P2 N2]].
  rewrite <- R1 in E1, E2. pose proof (decimal_small o1 d1 l1 D1 (proj1 B1)) as S1.
  destruct (mixed_tec (w_libm w) p1 p2 g1 d1 d2 r s0 b1 C1 N1 N2 (conj S1 (proj2 B1)) B2 E1 E2) as [tv [Et [Gt Hd']]].
  assert (Ev : v = Some tv).
  { pose proof (named_mixed _ _ _ _ _ x ca cb Hv En Ca Cb) as X. rewrite P1, P2, G1, Et in X. exact (Ok_inj _ _ X). }
  subst v. destruct (tec_real name tv Ef Hq Gt) as [w0 R]. rewrite <- R1. destruct (cell_about w0 cell (f2r tv) _ (/ 100000) R Hd') as [z [Z1 Z2]]. exists z. split; [exact Z1|lra].
Qed.
Lemma col_absent name : f = lit "tec." ++ name -> l8_on name -> says_absent vals name cell.
Proof.
  intros Ef H8. unfold says_absent. intros a x b y ka kb ca cb En Ka Kb Ca Cb Hab.
  pose proof (field_tec f name Hname Ef) as Ht. rewrite Ef in Hin. destruct (tec_value name Ht Hin H8) as [freqs [v [Hf [Hv Hq]]]].
  assert (Hm : missing_f (ds ca) \/ missing_f (ds cb)).
  { destruct Hab as [H|H]; [left; exact (datum_absent vals (s_rec s) ca Hnd Hrec (class_label _ _ _ Ca) H)|right; exact (datum_absent vals (s_rec s) cb Hnd Hrec (class_label _ _ _ Cb) H)]. }
  assert (Ev : v = None).
  { set (fr := system_freqs (Fops (w_libm w)) sys freqs) in *.
    destruct (named_any _ _ _ _ _ a x b y ka kb ca cb Hv En Ka Kb Ca Cb) as [X|[X|X]]; symmetry in X; apply Ok_inj; rewrite <- X.
    - apply via_p_none. tauto.
    - apply via_l_none. tauto.
    - apply via_lc_none. tauto. }
  subst v. exact (tec_zero name Ef Hq).
Qed.
Lemma label_of o cl : In (o, cl) observables -> In cl obs_type_labels /\ In o obs_columns.
Proof. intros H. cbn in H. repeat destruct H as [H|H]; try contradiction; injection H as <- <-; split; cbn; auto 40. Qed.
Lemma column_ok : column_says w c t (sys :: digits) vals f cell.
Proof.
  unfold column_says. split; [exact (proj1 Hcell)|]. destruct Hd as [freqs [tecs [_ [_ [_ [_ Hobs]]]]]]. split; [|split; [|split]].
  - intros o cl x d lli Ef Ho Hx Hdec Hb. destruct (label_of o cl Ho) as [L1 L2]. destruct (operand cl x d lli L1 Hx Hdec) as [p [Ep Np]].
    destruct (Hobs o cl Ho) as [Hq _]. change (fst (fst (ds_get (parse_rec (s_rec s)) cl))) with (ds cl) in Hq. rewrite Ep in Hq. cbn [option_map] in Hq.
    assert (Hz : d = 0%R \/ (/ 1000 <= Rabs d)%R). { destruct (Req_dec d 0) as [E|E]; [now left|right]. exact (decimal_small x d lli Hdec (Rabs_pos_lt _ E)). }
    destruct (near_dec p d 1000000000 Np Hb Hz) as [Gp Dp]. destruct Hcell as [_ [Hr _]].
    pose proof (Hr (QObs o) 3 p ltac:(rewrite Ef; apply sh_obs; exact L2) eq_refl Hq Gp) as R. destruct Hdec as [neg [m [ss [_ ->]]]].
    apply (cell_exact _ _ _ neg m R). pose proof u53_pos. unfold real in Dp. unfold u53 in *. lra.
  - intros o cl Ef Ho Hab. destruct (label_of o cl Ho) as [L1 L2]. destruct (Hobs o cl Ho) as [Hq _].
    pose proof (datum_absent vals (s_rec s) cl Hnd Hrec L1 Hab) as M. destruct Hcell as [_ [Hr [Hz _]]].
    assert (E : (0 = dec_real false 0 3)%R) by (unfold dec_real; lra). assert (Hs : shows f (FromRecord (QObs o))) by (rewrite Ef; apply sh_obs; exact L2). rewrite E.
    destruct M as [M|[sg M]]; rewrite M in Hq; cbn [option_map] in Hq.
    + apply (cell_exact _ _ _ false 0 (Hz (QObs o) 3 Hs eq_refl Hq)). rewrite <- E, Rminus_diag_eq, Rabs_R0 by reflexivity. lra.
    + assert (Gz : good (S754_zero sg)) by (split; reflexivity). apply (cell_exact _ _ _ false 0 (Hr (QObs o) 3 _ Hs eq_refl Hq Gz)). change (f2r (S754_zero sg)) with 0%R. rewrite <- E, Rminus_diag_eq, Rabs_R0 by reflexivity. lra.
  - intros o cl x d lli Ef Ho Hx Hdec. destruct (label_of o cl Ho) as [L1 L2]. destruct (datum_decimal vals (s_rec s) cl x d lli Hnd Hrec L1 Hx Hdec) as [p [ss [_ E]]].
    destruct (Hobs o cl Ho) as [_ Hq]. rewrite E in Hq. cbn [fst snd option_map] in Hq. destruct Hcell as [_ [_ [_ Hi]]].
    exact (Hi (QLli o) lli ltac:(rewrite Ef; apply sh_lli; exact L2) eq_refl Hq).
  - intros name Ef H8. split; [exact (col_code name Ef H8)|]. split; [exact (col_phase name Ef H8)|]. split; [exact (col_mixed name Ef H8)|exact (col_absent name Ef H8)].
Qed.
End Column.
