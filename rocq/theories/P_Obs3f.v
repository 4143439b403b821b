(** Proofs about the RINEX 3 reader: termination and exceptions. *)
From Coq Require Import Reals Lra ZifyBool ZifyNat Classical_Prop Classical_Pred_Type.
From Verif Require Import Base PyStr PyFloat PyDate M_Common M_Header M_Obs2 M_Obs3.
From Verif Require Import S_Text S_Time S_Obs2 S_Open2 S_Errors2 S_Obs3 P_Str P_Float P_Date P_Common P_Obs2 P_Obs2b P_Obs2c P_Errors2 P_Open2 P_Interval P_Div P_Nav4 P_Nav5 P_Prop2 P_Obs3 P_Obs3b P_Obs3c P_Obs3d P_Obs3e.
Open Scope nat_scope.

Lemma char_at_nf n s : char_at n s <> Err OutOfFuel.
Proof. unfold char_at. nofuel. Qed.
Lemma join_lines_nf ls : forall acc, join_lines acc ls <> Err OutOfFuel.
Proof.
  induction ls as [|l ls IH]; intros acc; cbn [join_lines]; [discriminate|]. destruct l as [|c l]; [apply IH|].
  destruct (isspace _); [destruct acc; [discriminate|apply IH]|apply IH].
Qed.
Lemma add_snos_nf v snos : forall tab, add_snos v snos tab <> Err OutOfFuel.
Proof.
  induction snos as [|s snos IH]; intros tab; cbn [add_snos]; [discriminate|]. apply bind_fuel; [|intros; apply IH].
  unfold add_sno. destruct (split_ws s) as [|a [|b r]]; try discriminate. apply bind_fuel; [apply py_int_nf|]. intros n.
  apply bind_fuel; [|intros; nofuel]. destruct (_ && _); [|discriminate]. apply mapM_fuel. intros t. unfold fix_bds. apply bind_fuel; [apply char_at_nf|discriminate].
Qed.
Lemma parse_header3_nf v lines o : parse_header3 v lines o <> Err OutOfFuel.
Proof.
  unfold parse_header3. apply bind_fuel; [apply parse_header_nf|]. intros h. apply bind_fuel; [|discriminate].
  unfold set_sno. apply bind_fuel; [apply join_lines_nf|]. intros. apply add_snos_nf.
Qed.
Lemma catch_fuel3 {A} (x : res A) es h : x <> Err OutOfFuel -> h <> Err OutOfFuel -> catch x es h <> Err OutOfFuel.
Proof. destruct x; cbn; [discriminate|]. intros H1 H2. destruct (existsb _ _); congruence. Qed.
Lemma epoch3_date_nf l : epoch3_date l <> Err OutOfFuel.
Proof.
  unfold epoch3_date. apply catch_fuel3; [|discriminate]. apply bind_fuel; [apply py_float_nf|]. intros f.
  apply bind_fuel; [apply split_sec_nf|]. intros [s us]. apply bind_fuel; [apply py_int_nf|]. intros y.
  apply bind_fuel; [apply mapM_fuel; intros; apply py_int_nf|]. intros x.
  destruct x as [|mo [|d [|h [|mi [|]]]]]; try discriminate. apply bind_fuel; [apply validate_epoch_nf|discriminate].
Qed.
Lemma parse_epoch3_nf l : parse_epoch3 l <> Err OutOfFuel.
Proof.
  unfold parse_epoch3. apply bind_fuel; [apply char_at_nf|]. intros c. destruct (negb _); [discriminate|].
  apply bind_fuel; [apply epoch3_date_nf|]. intros ep.
  apply bind_fuel; [apply catch_fuel; [apply bind_fuel; [apply char_at_nf|intros; apply py_int_nf]|discriminate]|]. intros fl.
  apply bind_fuel; [apply catch_fuel; [apply py_int_nf|discriminate]|]. intros n.
  apply bind_fuel; [|discriminate]. apply catch_fuel3; [|discriminate]. apply bind_fuel; [apply py_float_nf|]. intros f.
  apply bind_fuel; [apply split_sec_nf|]. intros [s us]. unfold timedelta_ok. nofuel.
Qed.
Lemma parse_obs3_nf chunks tab l : parse_obs3 chunks tab l <> Err OutOfFuel.
Proof.
  unfold parse_obs3. destruct (slice 0 3 l); [discriminate|]. destruct (replace_c _ _ _); [discriminate|]. destruct (dict_get _ _ _); [|discriminate].
  apply bind_fuel; [|discriminate]. apply mapM_fuel. intros n. unfold chunk3. nofuel.
Qed.
Lemma read_records3_nf v chunks lines : forall s special o, snd (fst (read_records3 v chunks lines s special o)) <> GRaise OutOfFuel.
Proof.
  induction lines as [|line rest IH]; intros s special o; cbn [read_records3]; [discriminate|].
  destruct line as [|c0 line]; [discriminate|]. destruct (ceqb c0 ">"%char).
  - pose proof (parse_epoch3_nf (c0 :: line)) as H. destruct (parse_epoch3 (c0 :: line)); [apply IH|]. cbn. congruence.
  - destruct s as [[[ep fl] n]|]; [|discriminate]. destruct (1 <? fl)%Z.
    + destruct (if (0 <? n)%Z then _ else _) as [special' n']. destruct (n' =? 0)%Z; [|apply IH].
      unfold handle_event. destruct (fl =? 4)%Z; [|apply IH]. pose proof (parse_header3_nf v special' o) as H.
      destruct (parse_header3 v special' o); [apply IH|]. cbn. congruence.
    + destruct (0 <? n)%Z; [|apply IH]. pose proof (parse_obs3_nf chunks (o3_tab o) (c0 :: line)) as H.
      destruct (parse_obs3 chunks (o3_tab o) (c0 :: line)) as [[[sat types] vals]|]; [|cbn; congruence].
      pose proof (make_record_nf types vals []) as H2. destruct (make_record types vals []) as [rec|]; [|cbn; congruence].
      specialize (IH (Some (ep, if (fl =? 1)%Z then 0%Z else fl, (n - 1)%Z)) special o).
      destruct (read_records3 v chunks rest _ special o) as [[ys e] o']. exact IH.
Qed.

(** next_epoch uses up lines *)
Lemma next_epoch_len ls : forall ep e r, next_epoch ep ls = Ok (e, r) -> length r <= length ls /\ (length r = length ls -> ls = [] /\ e = ep).
Proof.
  induction ls as [|l ls IH]; intros ep e r H; cbn [next_epoch] in H; [injection H as <- <-; auto|].
  destruct (char_at 0 l) as [c|]; [|discriminate]. cbn [bind] in H. destruct (negb _).
  - apply IH in H. cbn [length]. lia.
  - destruct (parse_epoch3 l) as [[[ep' fl] n]|]; [|discriminate]. cbn [bind] in H. destruct (1 <? fl)%Z.
    + apply IH in H. cbn [length]. lia.
    + injection H as <- <-. cbn [length]. lia.
Qed.
Lemma next_epoch_nf ls : forall ep, next_epoch ep ls <> Err OutOfFuel.
Proof.
  induction ls as [|l ls IH]; intros ep; cbn [next_epoch]; [discriminate|]. apply bind_fuel; [apply char_at_nf|]. intros c. destruct (negb _); [apply IH|].
  apply bind_fuel; [apply parse_epoch3_nf|]. intros [[e fl] n]. destruct (1 <? fl)%Z; [apply IH|discriminate].
Qed.
Lemma next_different_nf a fuel : forall e1 ls, length ls < fuel -> next_different fuel (Some a) e1 ls <> Err OutOfFuel.
Proof.
  induction fuel as [|fuel IH]; intros e1 ls Hl; [lia|]. cbn [next_different]. destruct (odt_eqb _ _); [|discriminate].
  destruct (next_epoch None ls) as [[e r]|x] eqn:E; cbn [bind]; [|pose proof (next_epoch_nf ls None); congruence].
  destruct (next_epoch_len _ _ _ _ E) as [H1 H2]. destruct (Nat.eq_dec (length r) (length ls)) as [He|He].
  - destruct (H2 He) as [-> ->]. destruct fuel; cbn [next_different odt_eqb]; discriminate.
  - apply IH. lia.
Qed.

Lemma split_header_len lines : forall h b, split_header is_end_label lines = (h, b) -> length b <= length lines.
Proof.
  induction lines as [|l ls IH]; intros h b H; cbn [split_header] in H; [injection H as <- <-; lia|]. destruct (is_end_label l).
  - injection H as <- <-. cbn [length]. lia.
  - destruct (split_header is_end_label ls) as [h' b'] eqn:E. injection H as <- <-. specialize (IH h' b' eq_refl). cbn [length]. lia.
Qed.

(** C11: a file whose first epoch line can be read *)
Lemma open3_terminates fuel v header file skip line rest ep fl n : file3_parts header (skip ++ line :: rest) file ->
  Forall no_epoch_mark skip -> epoch3_line (Some ep) fl n line -> (fl = 0 \/ fl = 1)%Z -> length file < fuel ->
  open3 fuel v file <> Err OutOfFuel.
Proof.
  intros Hp Hs He Hfl Hf. unfold open3. pose proof (file3_split _ _ _ Hp) as Es. rewrite Es. pose proof (split_header_len _ _ _ Es) as Hlen.
  apply bind_fuel; [apply parse_header3_nf|]. intros o. apply bind_fuel.
  - unfold det_interval. destruct (epoch3_line_read _ _ _ _ He) as [Hpe Hr].
    rewrite next_skip by exact Hs. rewrite (next_line _ _ _ _ _ _ Hpe Hr). replace (1 <? fl)%Z with false by lia. cbn [bind].
    destruct (next_epoch None rest) as [[e1 r1]|x] eqn:E; cbn [bind]; [|pose proof (next_epoch_nf rest None); congruence].
    apply bind_fuel.
    + apply next_different_nf. apply next_epoch_len in E. rewrite app_length in Hlen. cbn [length] in Hlen. lia.
    + intros e. destruct e as [b|]; [|discriminate]. destruct (fleb _ _); [discriminate|]. unfold set_interval.
      destruct (ver_is20 v); (apply bind_fuel; [first [apply py_int_nf|apply py_float_nf]|discriminate]).
  - intros iv. apply bind_fuel; [unfold max_types; destruct (o3_tab o); discriminate|]. discriminate.
Qed.
Lemma records3_terminates v r : snd (fst (records3 v r)) <> GRaise OutOfFuel.
Proof. apply read_records3_nf. Qed.

(** C11 is false: a file without epochs *)
Lemma next_different_none_loop fuel : next_different fuel None None [] = Err OutOfFuel.
Proof. induction fuel as [|fuel IH]; [reflexivity|]. cbn [next_different odt_eqb next_epoch bind]. exact IH. Qed.
Lemma open3_loops v header body file o : file3_parts header body file -> parse_header3 v header (mkObj3 hdr0 []) = Ok o ->
  Forall no_epoch_mark body -> forall fuel, open3 fuel v file = Err OutOfFuel.
Proof.
  intros Hp Ho Hb fuel. unfold open3. rewrite (file3_split _ _ _ Hp), Ho. cbn [bind]. unfold det_interval.
  pose proof (next_skip body Hb None []) as E. rewrite app_nil_r in E. rewrite E. cbn [next_epoch bind].
  rewrite next_different_none_loop. reflexivity.
Qed.

(** ** exceptions *)
Definition overflow_of (l : str) (e : exn) : Prop := e = OverflowError /\ overflow3 l.
Lemma epoch3_date_err l e : epoch3_date l = Err e -> overflow_of l e.
Proof.
  unfold epoch3_date. intros H.
  match type of H with catch ?x _ _ = _ => assert (Hx : forall e', x = Err e' -> e' = ValueError \/ overflow_of l e') end.
  { clear e H. intros e H. destruct (py_float (slice 18 29 l)) as [sec|x] eqn:Ef; cbn [bind] in H.
    2:{ injection H as <-. left. eapply py_float_err; exact Ef. }
    destruct (classic (huge_seconds sec)) as [Hh|Hh].
    { assert (He : e = ValueError \/ e = OverflowError).
      { unfold sec2sec_ms in H. destruct (split_sec 1 sec) as [[s us]|e3] eqn:Es; cbn [bind] in H; [|injection H as <-; eapply split_sec_err; exact Es].
        destruct (py_int (slice 1 6 l)) as [y|x] eqn:Ey; cbn [bind] in H; [|injection H as <-; left; eapply py_int_err; exact Ey].
        destruct (mapM _ _) as [es|x] eqn:Em; cbn [bind] in H; [|injection H as <-; apply P_Errors2.mapM_err in Em; destruct Em as [a [_ Ha]]; left; eapply py_int_err; exact Ha].
        destruct es as [|mo [|d [|h [|mi [|]]]]]; try (injection H as <-; now left).
        destruct (validate_epoch y mo d h mi s us) as [t|x] eqn:Ev; cbn [bind] in H; [discriminate|]. injection H as <-. eapply validate_epoch_errs; exact Ev. }
      destruct He as [->| ->]; [now left|]. right. split; [reflexivity|]. now apply ov3_sec with sec. }
    destruct (good_of_dec _ _ Ef Hh) as [->|[s [us [Hss [Hs Hus]]]]]; [cbn in H; left; congruence|].
    rewrite Hss in H. cbn [bind] in H.
    destruct (py_int (slice 1 6 l)) as [y|x] eqn:Ey; cbn [bind] in H; [|injection H as <-; left; eapply py_int_err; exact Ey].
    destruct (mapM _ _) as [es|x] eqn:Em; cbn [bind] in H; [|injection H as <-; apply P_Errors2.mapM_err in Em; destruct Em as [a [_ Ha]]; left; eapply py_int_err; exact Ha].
    cbn [mapM] in Em.
    destruct (py_int (slice 6 (6 + 3) l)) as [mo|] eqn:Emo; cbn [bind] in Em; [|discriminate].
    destruct (py_int (slice 9 (9 + 3) l)) as [d|] eqn:Ed; cbn [bind] in Em; [|discriminate].
    destruct (py_int (slice 12 (12 + 3) l)) as [h|] eqn:Eh; cbn [bind] in Em; [|discriminate].
    destruct (py_int (slice 15 (15 + 3) l)) as [mi|] eqn:Emi; cbn [bind] in Em; [|discriminate].
    injection Em as <-. destruct (validate_epoch y mo d h mi s us) as [t|x] eqn:Ev; cbn [bind] in H; [discriminate|]. injection H as ->.
    destruct (classic (epoch_in_range y mo d h mi s us)) as [Hr|Hr].
    - destruct (Z.lt_ge_cases (epoch_value y mo d h mi s us) end_of_time) as [Hl|Hl].
      + destruct (validate_epoch_ok _ _ _ _ _ _ _ Hr Hl) as [t [Et _]]. congruence.
      + rewrite (validate_epoch_late _ _ _ _ _ _ _ Hr Hl) in Ev. right. split; [congruence|]. now apply ov3_late with y mo d h mi s us.
    - left. rewrite (validate_epoch_bad _ _ _ _ _ _ _ Hr) in Ev; [congruence|].
      pose proof (py_int_slice3 _ _ _ Emo). pose proof (py_int_slice3 _ _ _ Ed). pose proof (py_int_slice3 _ _ _ Eh). pose proof (py_int_slice3 _ _ _ Emi).
      apply py_int_bound in Ey. pose proof (slice_len 1 6 l) as Hsl.
      assert (Hy : (Z.abs y < 100000)%Z).
      { eapply Z.lt_le_trans; [exact Ey|]. change 100000%Z with (10 ^ 5)%Z. apply Z.pow_le_mono_r; lia. }
      unfold fits, century in *. change (2 ^ 31)%Z with 2147483648%Z in *. destruct (y <? 89)%Z, (y <? 100)%Z; lia. }
  match type of H with catch ?x _ _ = _ => destruct x as [t|e'] eqn:E end; [discriminate|].
  cbn [catch] in H. destruct (Hx e' eq_refl) as [->|Ho]; [discriminate|]. destruct Ho as [-> Ho]. cbn in H. injection H as <-. split; [reflexivity|exact Ho].
Qed.
Lemma parse_epoch3_err l e : parse_epoch3 l = Err e -> l <> [] -> e = RinexError \/ overflow_of l e.
Proof.
  unfold parse_epoch3. intros H Hl. destruct l as [|c l]; [congruence|]. change (char_at 0 (c :: l)) with (Ok (A := ascii) c) in H. cbn [bind] in H.
  destruct (negb _); [injection H as <-; now left|].
  destruct (epoch3_date (c :: l)) as [ep|x] eqn:Ed; cbn [bind] in H; [|injection H as <-; right; now apply epoch3_date_err].
  match type of H with bind ?x _ = _ => destruct x as [fl|x0] eqn:Ef end; cbn [bind] in H.
  2:{ injection H as <-. left. eapply catch_rinex; [exact Ef|]. intros e' He. unfold char_at in He. destruct (nth_error _ 31); cbn in He; [|injection He as <-; reflexivity].
      rewrite (py_int_err _ _ He). reflexivity. }
  match type of H with bind ?x _ = _ => destruct x as [n|x0] eqn:En end; cbn [bind] in H; [|injection H as <-; left; eapply catch_int; exact En].
  match type of H with bind ?x _ = _ => destruct x as [n0|x0] eqn:Ec end; cbn [bind] in H; [discriminate|]. injection H as <-. right.
  destruct (classic (clock_ok (from 42 (c :: l)))) as [Hc|Hc]; [rewrite (clock_catch _ Hc) in Ec; discriminate|].
  apply not_all_ex_not in Hc. destruct Hc as [f Hc]. apply imply_to_and in Hc. destruct Hc as [Hf Hh]. apply NNPP in Hh.
  split; [|now apply ov3_clock with f]. rewrite Hf in Ec. cbn [bind] in Ec. unfold sec2sec_ms in Ec.
  destruct (split_sec 1 f) as [[s us]|x1] eqn:Es; cbn [bind] in Ec.
  - unfold timedelta_ok in Ec. destruct (_ <=? _)%Z; cbn in Ec; congruence.
  - destruct (split_sec_err _ _ _ Es) as [->| ->]; cbn in Ec; congruence.
Qed.

(** the table only changes in events with a SYS line *)
Lemma set_sno_nil v tab : set_sno v [] tab = Ok tab.
Proof. reflexivity. Qed.
Lemma header3_tab v special o o' : parse_header3 v special o = Ok o' -> (forall l, In l special -> ~ has_label sno_text l) -> o3_tab o' = o3_tab o.
Proof.
  unfold parse_header3. intros H Hn. destruct (parse_header v special (o3_hdr o)) as [h|]; [|discriminate]. cbn [bind] in H.
  replace (filter (fun l => seqb sno_label (line_label l)) special) with (@nil str) in H.
  - cbn [concat] in H. rewrite set_sno_nil in H. cbn [bind] in H. injection H as <-. reflexivity.
  - symmetry. clear H. induction special as [|l special IH]; [reflexivity|]. cbn [filter]. destruct (seqb sno_label (line_label l)) eqn:E.
    + exfalso. apply (Hn l (or_introl eq_refl)). apply seqb_eq in E. apply label_has; [discriminate|now rewrite <- E].
    + apply IH. intros l' Hl'. apply Hn. now right.
Qed.

(** the event lines of a file, read as header lines, are an error *)
Definition bad_event3 (v : ver) (lines : list str) (e : exn) : Prop :=
  exists special o, (forall l, In l special -> In l lines /\ no_epoch_mark l) /\ parse_header3 v special o = Err e.
Definition error3 (v : ver) (lines : list str) (e : exn) : Prop :=
  e = RinexError \/ (e = OverflowError /\ exists l, In l lines /\ overflow3 l) \/ bad_event3 v lines e \/
  (e = IndexError /\ exists l, In l lines /\ has_label sno_text l).
Lemma parse_obs3_err chunks tab l e : parse_obs3 chunks tab l = Err e -> l <> [] ->
  e = RinexError \/ (e = IndexError /\ exists k types, dict_get seqb k tab = Some types /\ chunks < length types).
Proof.
  unfold parse_obs3. intros H Hl. destruct l as [|c l]; [congruence|]. change (slice 0 3 (c :: l)) with (c :: firstn 2 l) in H. cbv iota in H.
  cbn [replace_c map] in H. match type of H with match ?x with _ => _ end = _ => destruct x as [types|] eqn:E end; [|injection H as <-; now left].
  destruct (mapM _ _) as [vals|x] eqn:Em; cbn [bind] in H; [discriminate|]. injection H as <-. right. apply P_Errors2.mapM_err in Em.
  destruct Em as [n [Hn He]]. apply in_seq in Hn. unfold chunk3 in He. destruct (Nat.ltb_spec n chunks); [discriminate|]. cbn in He. injection He as <-.
  split; [reflexivity|]. eexists _, types. split; [exact E|]. unfold str in *. lia.
Qed.
Lemma parse_obs3_count chunks tab l sat types vals : parse_obs3 chunks tab l = Ok (sat, types, vals) -> length vals = length types.
Proof.
  unfold parse_obs3. destruct (slice 0 3 l); [discriminate|]. destruct (replace_c _ _ _); [discriminate|]. destruct (dict_get _ _ _) as [ts|]; [|discriminate].
  destruct (mapM _ _) as [vs|] eqn:E; [|discriminate]. cbn [bind]. intros H. injection H as <- <- <-. apply mapM_len in E. now rewrite seq_length in E.
Qed.

Definition narrow (chunks : nat) (tab : obs_table) : Prop := forall k types, dict_get seqb k tab = Some types -> length types <= chunks.
Lemma read3_errors v chunks all : Forall (fun l => l <> []) all -> forall lines s special o e,
  incl lines all -> (forall l, In l special -> In l all /\ no_epoch_mark l) ->
  (s = None -> match lines with [] => True | l :: _ => ~ no_epoch_mark l end) ->
  narrow chunks (o3_tab o) \/ (exists l, In l all /\ has_label sno_text l) ->
  snd (fst (read_records3 v chunks lines s special o)) = GRaise e -> error3 v all e.
Proof.
  intros Hne. induction lines as [|line rest IH]; intros s special o e Hin Hsp Hs Hw H; [discriminate|]. cbn [read_records3] in H.
  assert (Hl : In line all) by (apply Hin; now left). assert (Hrest : incl rest all) by (intros x Hx; apply Hin; now right).
  assert (Hl0 : line <> []) by (rewrite Forall_forall in Hne; now apply Hne).
  destruct line as [|c0 line]; [congruence|]. destruct (ceqb c0 ">"%char) eqn:Ec.
  - destruct (parse_epoch3 (c0 :: line)) as [s'|x] eqn:Ep.
    + apply (IH (Some s') special o e Hrest Hsp ltac:(discriminate) Hw H).
    + cbn in H. injection H as <-. destruct (parse_epoch3_err _ _ Ep Hl0) as [->|[-> Ho]]; [now left|]. right. left. split; [reflexivity|]. eauto.
  - assert (Hm : no_epoch_mark (c0 :: line)). { exists c0, line. split; [reflexivity|]. intros ->. discriminate. }
    destruct s as [[[ep fl] n]|]; [|exfalso; exact (Hs eq_refl Hm)]. destruct (1 <? fl)%Z.
    + destruct (if (0 <? n)%Z then _ else _) as [special' n'] eqn:Esn.
      assert (Hsp' : forall l, In l special' -> In l all /\ no_epoch_mark l).
      { destruct (0 <? n)%Z; injection Esn as <- <-; [|exact Hsp]. intros l Hx. apply in_app_or in Hx. destruct Hx as [Hx|[<-|[]]]; auto. }
      destruct (n' =? 0)%Z; [|apply (IH (Some (ep, fl, n')) special' o e Hrest Hsp' ltac:(discriminate) Hw H)].
      unfold handle_event in H. destruct (fl =? 4)%Z; [|apply (IH (Some (ep, fl, n')) special' o e Hrest Hsp' ltac:(discriminate) Hw H)].
      destruct (parse_header3 v special' o) as [o'|x] eqn:Eh.
      * apply (IH (Some (ep, fl, n')) special' o' e Hrest Hsp' ltac:(discriminate)); [|exact H].
        destruct (classic (exists l, In l all /\ has_label sno_text l)) as [Hx|Hx]; [now right|]. left. destruct Hw as [Hw|Hw]; [|contradiction].
        rewrite (header3_tab v special' o o' Eh); [exact Hw|]. intros l Hl1 Hl2. apply Hx. exists l. split; [apply (Hsp' l Hl1)|exact Hl2].
      * cbn in H. injection H as <-. right. right. left. exists special', o. auto.
    + destruct (0 <? n)%Z; [|apply (IH (Some (ep, if (fl =? 1)%Z then 0%Z else fl, n)) special o e Hrest Hsp ltac:(discriminate) Hw H)].
      destruct (parse_obs3 chunks (o3_tab o) (c0 :: line)) as [[[sat types] vals]|x] eqn:Eo.
      * destruct (make_record_ok types vals []) as [rec Er]; [rewrite (parse_obs3_count _ _ _ _ _ _ Eo); lia|]. rewrite Er in H.
        match type of H with context [read_records3 v chunks rest ?s' special o] => specialize (IH s' special o e Hrest Hsp ltac:(discriminate) Hw);
          destruct (read_records3 v chunks rest s' special o) as [[ys ge] o'] end. exact (IH H).
      * cbn in H. injection H as <-. destruct (parse_obs3_err _ _ _ _ Eo Hl0) as [->|[-> [k [types [Hk Ht]]]]]; [now left|].
        right. right. right. split; [reflexivity|]. destruct Hw as [Hw|Hw]; [|exact Hw]. specialize (Hw k types Hk). unfold str in *. lia.
Qed.

Lemma dict_get_in3 {V} k (d : list (str * V)) x : dict_get seqb k d = Some x -> exists k', In (k', x) d.
Proof. induction d as [|[k' y] d IH]; cbn [dict_get]; [discriminate|]. destruct (seqb k k'); [intros H; injection H as <-; exists k'; now left|]. intros H. destruct (IH H) as [k2 H2]. exists k2. now right. Qed.
Lemma max_types_narrow tab m : max_types tab = Ok m -> narrow m tab.
Proof.
  intros H k types Hk. destruct (dict_get_in3 _ _ _ Hk) as [k' Hin]. unfold max_types in H. destruct tab as [|x y] eqn:E; [contradiction|]. rewrite <- E in *.
  injection H as <-. apply list_max_in. apply in_map_iff. exists (k', types). auto.
Qed.
Lemma records3_errors fuel v header body file r e : file3_parts header body file -> Forall (fun l => l <> []) body -> open3 fuel v file = Ok r ->
  snd (fst (records3 v r)) = GRaise e ->
  error3 v body e \/ (e = TypeError /\ exists l rest, body = l :: rest /\ no_epoch_mark l).
Proof.
  intros Hp Hne Ho H. destruct (open3_inv _ _ _ _ _ _ Hp Ho) as [o [iv [m [H1 [_ [Hm ->]]]]]]. unfold records3 in H. cbn [r3_chunks r3_rest r3_obj] in H.
  destruct body as [|l rest]; [discriminate|]. destruct (classic (no_epoch_mark l)) as [Hl|Hl].
  - right. split; [|eauto]. destruct (mark_line _ Hl) as [c [r [-> E]]]. cbn [read_records3] in H. rewrite E in H. cbn in H. congruence.
  - left. refine (read3_errors v m (l :: rest) Hne (l :: rest) None [] _ e (incl_refl _) _ _ _ H); [intros x []|intros _; exact Hl|left; exact (max_types_narrow _ _ Hm)].
Qed.
