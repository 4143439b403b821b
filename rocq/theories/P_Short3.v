(** A text of which the end is missing, opened. *)
From Coq Require Import Lia.
From Verif Require Import Base PyStr PyFloat PyDate PyPath PyRegex M_Common M_Header M_Obs2 M_Obs3 M_Label M_Rec M_Text M_Cfg M_Names M_Xyz M_Nav M_NmUtils M_Num M_Tec M_Sat M_Main S_Systems S_Short P_Date P_Short2.
Open Scope nat_scope.

Lemma split_more p lines h b more : split_header p lines = (h, b) -> b <> [] -> split_header p (lines ++ more) = (h, b ++ more).
Proof.
  revert h b. induction lines as [|l r IH]; intros h b; cbn [app split_header]; [intros E; injection E as <- <-; contradiction|].
  destruct (p l); [intros E _; injection E as <- <-; reflexivity|]. destruct (split_header p r) as [h1 b1]. intros E. injection E as <- <-. intros Hb. rewrite (IH h1 b1 eq_refl Hb). reflexivity.
Qed.
(** the interval, from eleven different times *)
Definition times (ys : list (orec * obj2)) : list Z := map (fun y => dt_us (fst (fst (fst y)))) ys.
Definition changes_from (epoch : option datetime) (l : list Z) : nat := changes (match epoch with Some e => dt_us e :: l | None => l end).
Lemma changes_cons a b r : changes (a :: b :: r) = (if (a =? b)%Z then 0 else 1) + changes (b :: r).
Proof. reflexivity. Qed.
Lemma collect_more ys zs ge oe ge' oe' : forall n epoch, 1 <= n -> n <= changes_from epoch (times ys) ->
  collect_deltas n epoch (ys ++ zs) ge' oe' = collect_deltas n epoch ys ge oe.
Proof.
  induction ys as [|[[[ep sat] rec] o] ys IH]; intros n epoch Hn Hc.
  - destruct epoch; cbn in Hc; lia.
  - cbn [app collect_deltas]. cbn [times map] in Hc. cbn [fst] in Hc. fold (times ys) in Hc. destruct epoch as [e0|].
    + unfold changes_from in Hc. rewrite changes_cons in Hc.
      destruct (dt_eqb e0 ep) eqn:E.
      * apply dt_eqb_eq in E. subst ep. rewrite Z.eqb_refl in Hc. apply IH; [exact Hn|exact Hc].
      * cbv zeta. unfold dt_sub. revert Hc. destruct (Z.eqb_spec (dt_us e0) (dt_us ep)) as [E1|E1]; intros Hc.
        -- rewrite E1, Z.sub_diag. cbn [Z.eqb]. apply IH; [exact Hn|exact Hc].
        -- destruct (Z.eqb_spec (dt_us ep - dt_us e0) 0) as [E2|_]; [lia|]. destruct n as [|[|n]]; [lia|reflexivity|].
           rewrite (IH (S n) (Some ep)); [reflexivity|lia|]. unfold changes_from. lia.
    + apply IH; [exact Hn|exact Hc].
Qed.
Section Text.
Variables (w : world) (o : str -> res (list str)) (name : str) (lines more : list str) (v : ver) (b b' : obs).
Hypothesis Hfull : w_content w name = Ok (lines ++ more).
Hypothesis Hcut : o name = Ok lines.
Hypothesis Hb : open_obs w name = Ok b.
Hypothesis Hb' : open_obs (with_contents w o) name = Ok b'.
Definition begins : Prop := b_name b' = b_name b /\ b_date b' = b_date b /\ b_hdr b' = b_hdr b /\ exists missing, b_steps b = b_steps b' ++ missing.
Lemma same_class : obs_class (hd [] (lines ++ more)) = obs_class (hd [] lines).
Proof.
  destruct lines as [|l r] eqn:E; [|reflexivity]. exfalso. revert Hb'. unfold open_obs. cbn [with_contents w_content]. rewrite Hcut. destruct (expand_plan name); cbn [bind]; [|discriminate]. cbn [hd].
  assert (X : obs_class [] = Err RinexError) by (vm_compute; reflexivity). rewrite X. discriminate.
Qed.
Lemma text3 : obs_class (hd [] lines) = Ok v -> ver_lt3 v = false -> h_interval (b_hdr b') = h_interval (b_hdr b) -> begins.
Proof.
  intros Hv Hlt. pose proof same_class as Hsame. revert Hb Hb'. unfold open_obs. cbn [with_contents w_content w_fuel]. rewrite Hcut, Hfull. destruct (expand_plan name); cbn [bind]; [|discriminate].
  rewrite Hsame, Hv. cbn [bind]. rewrite Hlt. unfold open3. destruct (split_header is_end_label lines) as [h body] eqn:Es.
  destruct body as [|l body].
  - intros _. destruct (parse_header3 v h (mkObj3 hdr0 [])); cbn [bind]; [|discriminate]. unfold det_interval. cbn [next_epoch bind].
    destruct (next_different (w_fuel w) None None []); cbn [bind]; [|discriminate]. discriminate.
  - rewrite (split_more _ _ _ _ more Es) by discriminate. destruct (parse_header3 v h (mkObj3 hdr0 [])) as [o3|]; cbn [bind]; [|discriminate].
    destruct (det_interval (w_fuel w) v ((l :: body) ++ more)) as [iv|]; cbn [bind]; [|discriminate].
    destruct (det_interval (w_fuel w) v (l :: body)) as [iv'|]; cbn [bind]; [|intros _; discriminate].
    destruct (max_types (o3_tab o3)) as [m|]; cbn [bind]; [|discriminate]. unfold records3. cbn [r3_chunks r3_rest r3_obj].
    destruct (read_records3 v m ((l :: body) ++ more) None [] (mkObj3 (mkHdr (h_ver (o3_hdr o3)) (h_tofo (o3_hdr o3)) (h_xyz (o3_hdr o3)) (Some iv)) (o3_tab o3))) as [[ys e] q] eqn:E1.
    destruct (read_records3 v m (l :: body) None [] (mkObj3 (mkHdr (h_ver (o3_hdr o3)) (h_tofo (o3_hdr o3)) (h_xyz (o3_hdr o3)) (Some iv')) (o3_tab o3))) as [[ys' e'] q'] eqn:E2.
    unfold begins. intros E E'. injection E as <-. injection E' as <-. cbn [b_hdr h_interval o3_hdr b_name b_date b_steps]. intros Hiv. injection Hiv as ->.
    destruct (reading3 _ _ _ _ _ _ _ _ _ _ _ _ _ E2 E1) as [zs ->]. cbn [b_hdr b_name b_date b_steps].
    split; [reflexivity|]. split; [reflexivity|]. split; [reflexivity|]. exists (map step3 zs). apply map_app.
Qed.
Lemma text2 : obs_class (hd [] lines) = Ok v -> ver_lt3 v = true -> eleven_times v lines -> begins.
Proof.
  intros Hv Hlt Hel. pose proof same_class as Hsame. revert Hb Hb'. unfold open_obs. cbn [with_contents w_content w_fuel]. rewrite Hcut, Hfull. destruct (expand_plan name); cbn [bind]; [|discriminate].
  rewrite Hsame, Hv. cbn [bind]. rewrite Hlt. unfold open2. unfold eleven_times in Hel. destruct (split_header is_end_regex lines) as [h body] eqn:Es. cbn [fst snd] in Hel.
  destruct body as [|l body].
  - destruct (set_obs_num_types h) as [types|] eqn:Et; [|intros _; discriminate]. destruct (parse_header v h hdr0) as [hd0|] eqn:Eh; [|intros _; discriminate].
    specialize (Hel types hd0 eq_refl eq_refl). cbn in Hel. lia.
  - rewrite (split_more _ _ _ _ more Es) by discriminate. destruct (set_obs_num_types h) as [types|] eqn:Et; cbn [bind]; [|discriminate]. destruct (parse_header v h hdr0) as [hd0|] eqn:Eh; cbn [bind]; [|discriminate].
    specialize (Hel types hd0 eq_refl eq_refl). unfold get_interval.
    destruct (run_records v types (l :: body) (mkObj2 None hd0)) as [[ys e] q] eqn:E1. destruct (run_records v types ((l :: body) ++ more) (mkObj2 None hd0)) as [[ys' e'] q'] eqn:E2.
    cbn [fst] in Hel. destruct (reading2 _ _ _ _ _ _ _ _ _ _ _ E1 E2) as [zs ->]. rewrite (collect_more ys zs e q e' q' 10 None) by (auto; lia).
    destruct (collect_deltas 10 None ys e q) as [[ds q1]|]; cbn [bind]; [|discriminate]. destruct (best_key ds (nub_f [] ds)) as [x|]; cbn [bind]; [|discriminate].
    destruct (set_interval v (fmt_wf 10 3 x)) as [iv|]; cbn [bind]; [|discriminate]. unfold records2. cbn [r_types r_rest r_obj].
    set (o' := mkObj2 (o_prec q1) (mkHdr (h_ver (o_hdr q1)) (h_tofo (o_hdr q1)) (h_xyz (o_hdr q1)) (Some iv))).
    destruct (split_header is_end_label lines) as [h2 body2] eqn:Es2. cbn [snd].
    destruct (run_records v types body2 o') as [[zs1 e1] q2] eqn:E3.
    destruct (run_records v types (snd (split_header is_end_label (lines ++ more))) o') as [[zs2 e2] q3] eqn:E4.
    unfold begins. intros E E'. injection E as <-. injection E' as <-. cbn [b_hdr b_name b_date b_steps]. split; [reflexivity|]. split; [reflexivity|]. split; [reflexivity|].
    assert (Hz : exists zs', zs2 = zs1 ++ zs').
    { destruct body2 as [|l2 body2].
      - unfold run_records in E3. cbn in E3. injection E3 as <- _ _. exists zs2. reflexivity.
      - rewrite (split_more _ _ _ _ more Es2) in E4 by discriminate. exact (reading2 _ _ _ _ _ _ _ _ _ _ _ E3 E4). }
    destruct Hz as [zs' ->]. exists (map (step2 types) zs'). apply map_app.
Qed.
End Text.
Lemma cut_text2 w o name lines more v b b' : w_content w name = Ok (lines ++ more) -> o name = Ok lines -> open_obs w name = Ok b ->
  open_obs (with_contents w o) name = Ok b' -> obs_class (hd [] lines) = Ok v -> ver_lt3 v = true -> eleven_times v lines ->
  b_end b' = GStop \/ b_end b' = GRaise RinexError -> beginning_of b b'.
Proof. intros H1 H2 H3 H4 H5 H6 H7 H8. destruct (text2 w o name lines more v b b' H1 H2 H3 H4 H5 H6 H7) as [A [B [C D]]]. repeat (split; [assumption|]). exact D. Qed.
Lemma cut_text3 w o name lines more v b b' : w_content w name = Ok (lines ++ more) -> o name = Ok lines -> open_obs w name = Ok b ->
  open_obs (with_contents w o) name = Ok b' -> obs_class (hd [] lines) = Ok v -> ver_lt3 v = false -> h_interval (b_hdr b') = h_interval (b_hdr b) ->
  b_end b' = GStop \/ b_end b' = GRaise RinexError -> beginning_of b b'.
Proof. intros H1 H2 H3 H4 H5 H6 H7 H8. destruct (text3 w o name lines more v b b' H1 H2 H3 H4 H5 H6 H7) as [A [B [C D]]]. repeat (split; [assumption|]). exact D. Qed.
