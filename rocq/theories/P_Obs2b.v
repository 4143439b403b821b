(** Proofs about the RINEX 2 reader: epochs, blocks, whole bodies. *)
From Coq Require Import ZifyBool ZifyNat.
From Verif Require Import Base PyStr PyFloat PyDate M_Common M_Header M_Obs2.
From Verif Require Import S_Text S_Time S_Obs2 P_Str P_Float P_Sec P_Date P_Common P_Obs2.
Open Scope nat_scope.

(** ** slices of a concatenation of fixed-width pieces *)
Fixpoint pieces (ps : list str) (off : nat) : list (nat * nat * str) :=
  match ps with [] => [] | p :: r => (off, off + length p, p) :: pieces r (off + length p) end.
Lemma slice_pieces ps : forall off pre rest x, length pre = off -> In x (pieces ps off) ->
  slice (fst (fst x)) (snd (fst x)) (pre ++ concat ps ++ rest) = snd x.
Proof.
  induction ps as [|p ps IH]; intros off pre rest x Hl Hin; cbn in Hin; [contradiction|].
  destruct Hin as [<-|Hin]; cbn [concat fst snd].
  - rewrite <- app_assoc. apply slice_piece; lia.
  - rewrite <- app_assoc, app_assoc. apply (IH (off + length p)); [rewrite app_length; lia|exact Hin].
Qed.

Lemma split_sec5_field s k7 : fix_field 11 7 s false k7 -> (k7 < 1270000000)%Z ->
  exists f, py_float s = Ok f /\ split_sec 5 f = Ok (k7 / 10000000, k7 mod 10000000 / 10)%Z.
Proof.
  intros H Hb. destruct (py_float_fix _ _ _ _ _ H ltac:(lia)) as [f [Hf [E _]]].
  exists f. split; [exact Hf|]. subst f. change (- Z.of_nat 7)%Z with (-7)%Z.
  rewrite split_sec_exact; [reflexivity|lia|]. pose proof (fix_field_bound _ _ _ _ _ H). lia.
Qed.

Lemma epoch_lines_read ep fl names ls : epoch_lines ep fl names ls ->
  exists line more, ls = line :: more /\ forall tail, read_epoch (rstrip line) (more ++ tail) = Ok (EData ep fl names, tail).
Proof.
  intros H. destruct H as [ty tmo td th tmi tsec tfl tn y mo d h mi k7 fl texts rest ep first more ls
    Hy Hmo Hd Hh Hmi Hsec Hfl Hfl01 Hn Hy100 Hr Hep Hi Htx Hc Hcl].
  eexists _, ls. split; [reflexivity|]. intros tail.
  set (ps := [ty; tmo; td; th; tmi; tsec; tfl; tn]).
  assert (Hlp : length (concat ps) = 32).
  { unfold ps. cbn [concat]. rewrite !app_length. cbn [length].
    destruct Hy as [-> _], Hmo as [-> _], Hd as [-> _], Hh as [-> _], Hmi as [-> _], Hsec as [-> _], Hfl as [-> _], Hn as [-> _]. reflexivity. }
  assert (E : ty ++ tmo ++ td ++ th ++ tmi ++ tsec ++ tfl ++ tn ++ concat texts ++ rest = concat ps ++ concat texts ++ rest).
  { unfold ps. cbn [concat]. rewrite app_nil_r, <- !app_assoc. reflexivity. }
  rewrite E. clear E.
  assert (Hb : ends_black (concat ps)).
  { unfold ps. cbn [concat]. rewrite app_nil_r. do 7 apply ends_black_app. eapply int_field_black. exact Hn. }
  rewrite (rstrip_sat_line (concat ps) texts first rest Htx) by now left.
  set (rec := concat ps ++ concat texts ++ rstrip rest).
  assert (S : forall x, In x (pieces ps 0) -> slice (fst (fst x)) (snd (fst x)) rec = snd x).
  { intros x Hx. unfold rec. apply (slice_pieces ps 0 [] _ x); [reflexivity|exact Hx]. }
  assert (Hpc : pieces ps 0 = [(0, 3, ty); (3, 6, tmo); (6, 9, td); (9, 12, th); (12, 15, tmi); (15, 26, tsec); (26, 29, tfl); (29, 32, tn)]).
  { unfold ps. cbn [pieces].
    destruct Hy as [-> _], Hmo as [-> _], Hd as [-> _], Hh as [-> _], Hmi as [-> _], Hsec as [-> _], Hfl as [-> _], Hn as [-> _]. reflexivity. }
  rewrite Hpc in S.
  pose proof (S (0, 3, ty) ltac:(cbn; tauto)) as S0. pose proof (S (3, 6, tmo) ltac:(cbn; tauto)) as S1.
  pose proof (S (6, 9, td) ltac:(cbn; tauto)) as S2. pose proof (S (9, 12, th) ltac:(cbn; tauto)) as S3.
  pose proof (S (12, 15, tmi) ltac:(cbn; tauto)) as S4. pose proof (S (15, 26, tsec) ltac:(cbn; tauto)) as S5.
  pose proof (S (26, 29, tfl) ltac:(cbn; tauto)) as S6. pose proof (S (29, 32, tn) ltac:(cbn; tauto)) as S7.
  cbn [fst snd] in S0, S1, S2, S3, S4, S5, S6, S7. clear S Hpc.
  unfold read_epoch. rewrite S6, (py_int_field _ _ _ Hfl). cbn [catch bind].
  replace (1 <? fl)%Z with false by lia.
  assert (Hk7 : (0 <= k7 < 1270000000)%Z).
  { pose proof (fix_field_bound _ _ _ _ _ Hsec). destruct Hr as [_ [_ [_ [Hs _]]]].
    split; [lia|]. assert (k7 / 10000000 * 10000000 <= 120 * 10000000)%Z by lia.
    pose proof (Z.div_mod k7 10000000 ltac:(lia)). pose proof (Z.mod_pos_bound k7 10000000 ltac:(lia)). lia. }
  destruct (split_sec5_field _ _ Hsec ltac:(lia)) as [f [Hf Hss]].
  assert (Hdate : epoch_date rec = Ok ep).
  { unfold epoch_date. cbn [mapM Nat.add].
    rewrite S0, S1, S2, S3, S4, S5.
    rewrite (py_int_field _ _ _ Hy), (py_int_field _ _ _ Hmo), (py_int_field _ _ _ Hd), (py_int_field _ _ _ Hh), (py_int_field _ _ _ Hmi).
    cbn [bind]. rewrite Hf. cbn [bind]. rewrite Hss. cbn [bind].
    destruct (validate_epoch_ok y mo d h mi (k7 / 10000000) (k7 mod 10000000 / 10) Hr) as [t [Ht [Hv Hit]]].
    { rewrite <- Hi. pose proof Hep as Hep'. apply valid_datetime_iff in Hep'. rewrite instant_eq by exact Hep.
      apply dt_us_bounds in Hep'. unfold max_ordinal, us_per_day in Hep'. unfold end_of_time. lia. }
    rewrite Ht. cbn [catch]. f_equal. apply instant_inj; [exact Hv|exact Hep|congruence]. }
  rewrite Hdate. cbn [bind]. rewrite S7, (py_int_field _ _ _ Hn). cbn [catch bind].
  unfold rec. rewrite read_prns_text by assumption. reflexivity.
Qed.

(** ** fuel *)
Lemma next_rec_len lines rec r : next_rec lines = Ok (rec, r) -> length r < length lines.
Proof. destruct lines; cbn; intros H; inversion H; subst; lia. Qed.
Lemma get_prn_lines_len k : forall lines qs r, get_prn_lines k lines = Ok (qs, r) -> length r <= length lines.
Proof.
  induction k as [|k IH]; cbn [get_prn_lines]; intros lines qs r H; [inversion H; lia|].
  destruct (next_rec lines) as [[rec r0]|e] eqn:E1; cbn [bind] in H; [|discriminate]. apply next_rec_len in E1.
  destruct (get_prns rec 12); cbn [bind] in H; [|discriminate].
  destruct (get_prn_lines k r0) as [[qs' r1]|e] eqn:E2; cbn [bind] in H; [|discriminate]. apply IH in E2. inversion H; subst. lia.
Qed.
Lemma read_prns_len e n lines ps r : read_prns e n lines = Ok (ps, r) -> length r <= length lines.
Proof.
  unfold read_prns. intros H.
  match type of H with bind ?x _ = _ => destruct x as [[p1 r1]|e1] eqn:E; cbn [bind] in H; [|discriminate] end.
  destruct (n =? _)%Z; [|discriminate]. inversion H; subst. clear H.
  destruct (12 <? n)%Z.
  - destruct (get_prns e 12); cbn [bind] in E; [|discriminate].
    destruct (get_prn_lines _ lines) as [[qs r2]|e2] eqn:E2; cbn [bind] in E; [|discriminate]. apply get_prn_lines_len in E2.
    destruct (_ =? 0)%Z; [inversion E; subst; lia|].
    destruct (next_rec r2) as [[rec r3]|e3] eqn:E3; cbn [bind] in E; [|discriminate]. apply next_rec_len in E3.
    destruct (get_prns rec _); cbn [bind] in E; [|discriminate]. inversion E; subst. lia.
  - destruct (get_prns e _); cbn [bind] in E; [|discriminate]. inversion E; subst. lia.
Qed.
Lemma read_epoch_len e lines x r : read_epoch e lines = Ok (x, r) -> length r <= length lines.
Proof.
  unfold read_epoch. intros H.
  destruct (catch (py_int (slice 26 29 e)) _ _) as [fl|]; cbn [bind] in H; [|discriminate].
  destruct (1 <? fl)%Z.
  - destruct (catch _ _ _); cbn [bind] in H; [|discriminate]. inversion H; subst. lia.
  - destruct (epoch_date e); cbn [bind] in H; [|discriminate].
    destruct (catch _ _ _); cbn [bind] in H; [|discriminate].
    destruct (read_prns _ _ _) as [[ps r1]|] eqn:E; cbn [bind] in H; [|discriminate]. apply read_prns_len in E. inversion H; subst. lia.
Qed.
Lemma read_obs_lines_len lpr : forall lines vs r, read_obs_lines lpr lines = Ok (vs, r) -> length r <= length lines.
Proof.
  induction lpr as [|n lpr IH]; cbn [read_obs_lines]; intros lines vs r H; [inversion H; lia|].
  destruct (next_rec lines) as [[rec r0]|e] eqn:E1; cbn [bind] in H; [|discriminate]. apply next_rec_len in E1.
  destruct (mapM _ _); cbn [bind] in H; [|discriminate].
  destruct (read_obs_lines lpr r0) as [[ws r1]|e] eqn:E2; cbn [bind] in H; [|discriminate]. apply IH in E2. inversion H; subst. lia.
Qed.
Lemma read_sats_len types ep o prns : forall lines ys r, read_sats types ep prns o lines = (ys, Ok r) -> length r <= length lines.
Proof.
  induction prns as [|p prns IH]; cbn [read_sats]; intros lines ys r H; [inversion H; lia|].
  destruct (read_obs_lines _ lines) as [[data r0]|e] eqn:E1; [|discriminate]. apply read_obs_lines_len in E1.
  destruct (make_record types data []); [|discriminate].
  destruct (read_sats types ep prns o r0) as [ys' e] eqn:E2.
  destruct (odt_eqb (Some ep) (o_prec o)); inversion H; subst; apply IH in E2; lia.
Qed.
Lemma take_recs_len k : forall lines ls r, take_recs k lines = Ok (ls, r) -> length r <= length lines.
Proof.
  induction k as [|k IH]; cbn [take_recs]; intros lines ls r H; [inversion H; lia|].
  destruct (next_rec lines) as [[rec r0]|e] eqn:E1; cbn [bind] in H; [|discriminate]. apply next_rec_len in E1.
  destruct (take_recs k r0) as [[ws r1]|e] eqn:E2; cbn [bind] in H; [|discriminate]. apply IH in E2. inversion H; subst. lia.
Qed.

(** one round of the reader's loop, continuing with [k] *)
Definition step2 (k : list str -> obj2 -> trace2) (v : ver) (types : list str) (line : str) (rest : list str) (o : obj2) : trace2 :=
  match read_epoch (rstrip line) rest with
  | Err e => ([], GRaise e, o)
  | Ok (EEvent flag num, r) =>
    match take_recs (Z.to_nat num) r with
    | Err e => ([], GRaise e, o)
    | Ok (ls, r') =>
      if (flag =? 3)%Z || (flag =? 4)%Z then
        match parse_header v ls (o_hdr o) with
        | Err e => ([], GRaise e, o)
        | Ok h => k r' (mkObj2 (o_prec o) h)
        end
      else k r' o
    end
  | Ok (EData ep flag prns, r) =>
    match read_sats types ep prns o r with
    | (ys, Err e) => (ys, GRaise e, o)
    | (ys, Ok r') =>
      let '(ys', e, o') := k r' (mkObj2 (Some ep) (o_hdr o)) in
      (ys ++ ys', e, o')
    end
  end.
Lemma step2_ext k k' v types line rest o : (forall r o', length r <= length rest -> k r o' = k' r o') ->
  step2 k v types line rest o = step2 k' v types line rest o.
Proof.
  intros H. unfold step2.
  destruct (read_epoch (rstrip line) rest) as [[[fl n|ep fl prns] r]|e] eqn:E; [| |reflexivity].
  - apply read_epoch_len in E. destruct (take_recs (Z.to_nat n) r) as [[ls r']|e] eqn:E2; [|reflexivity].
    apply take_recs_len in E2. destruct (_ || _)%bool.
    + destruct (parse_header v ls (o_hdr o)); [|reflexivity]. apply H; lia.
    + apply H; lia.
  - apply read_epoch_len in E. destruct (read_sats types ep prns o r) as [ys [r'|e]] eqn:E2; [|reflexivity].
    apply read_sats_len in E2. rewrite H by lia. reflexivity.
Qed.
(** more fuel than lines changes nothing *)
Lemma read_records_fuel v types : forall f f' lines o, length lines < f -> length lines < f' ->
  read_records f v types lines o = read_records f' v types lines o.
Proof.
  induction f as [|f IH]; intros f' lines o H1 H2; [lia|]. destruct f' as [|f']; [lia|].
  destruct lines as [|line rest]; [reflexivity|]. cbn [length] in *.
  change (step2 (read_records f v types) v types line rest o = step2 (read_records f' v types) v types line rest o).
  apply step2_ext. intros r o' Hr. apply IH; lia.
Qed.
Lemma run_records_nil v types o : run_records v types [] o = ([], GStop, o).
Proof. reflexivity. Qed.
Lemma run_records_cons v types line rest o :
  run_records v types (line :: rest) o = step2 (run_records v types) v types line rest o.
Proof.
  change (step2 (read_records (S (length rest)) v types) v types line rest o = step2 (run_records v types) v types line rest o).
  apply step2_ext. intros r o' Hr. apply read_records_fuel; lia.
Qed.

(** the reader never runs out of fuel *)
Lemma catch_fuel {A} (x : res A) es e0 : x <> Err OutOfFuel -> e0 <> OutOfFuel -> catch x es (Err e0) <> Err OutOfFuel.
Proof. destruct x; cbn; [discriminate|]. intros H1 H2. destruct (existsb _ _); congruence. Qed.
Lemma bind_fuel {A B} (x : res A) (f : A -> res B) : x <> Err OutOfFuel -> (forall a, f a <> Err OutOfFuel) -> bind x f <> Err OutOfFuel.
Proof. destruct x; cbn; auto; congruence. Qed.
Lemma mapM_fuel {A B} (f : A -> res B) l : (forall a, f a <> Err OutOfFuel) -> mapM f l <> Err OutOfFuel.
Proof.
  intros H. induction l as [|a l IH]; cbn [mapM]; [discriminate|]. apply bind_fuel; [apply H|]. intros b. apply bind_fuel; [exact IH|discriminate].
Qed.
Lemma of_option_fuel {A} e (x : option A) : e <> OutOfFuel -> of_option e x <> Err OutOfFuel.
Proof. destruct x; cbn; congruence. Qed.

Ltac nofuel :=
  repeat first
    [ discriminate
    | apply of_option_fuel; discriminate
    | apply catch_fuel; [|discriminate]
    | apply bind_fuel; [|intros]
    | apply mapM_fuel; intros
    | match goal with |- (let '(_, _) := ?x in _) <> _ => destruct x end
    | match goal with |- (if ?x then _ else _) <> _ => destruct x end
    | match goal with |- (match ?x with _ => _ end) <> _ => destruct x end ].
Lemma py_int_nf s : py_int s <> Err OutOfFuel. Proof. unfold py_int. nofuel. Qed.
Lemma py_float_nf s : py_float s <> Err OutOfFuel. Proof. unfold py_float. nofuel. Qed.
Lemma float_to_int_nf f : float_to_int f <> Err OutOfFuel. Proof. unfold float_to_int. nofuel. Qed.
Lemma split_sec_nf k f : split_sec k f <> Err OutOfFuel.
Proof. unfold split_sec. apply bind_fuel; [apply float_to_int_nf|]. intros. apply bind_fuel; [apply py_float_nf|]. intros. apply bind_fuel; [apply float_to_int_nf|discriminate]. Qed.
Lemma validate_epoch_nf y mo d h mi s us : validate_epoch y mo d h mi s us <> Err OutOfFuel.
Proof. unfold validate_epoch, mk_datetime, dt_add. nofuel. Qed.
Lemma get_val_nf r i : get_val r i <> Err OutOfFuel.
Proof. unfold get_val. nofuel. Qed.
Lemma get_prn_nf r i : get_prn r i <> Err OutOfFuel.
Proof. unfold get_prn. nofuel. Qed.
Lemma get_prns_nf r n : get_prns r n <> Err OutOfFuel.
Proof. unfold get_prns. apply mapM_fuel. intros. apply get_prn_nf. Qed.
Lemma next_rec_nf l : next_rec l <> Err OutOfFuel. Proof. destruct l; discriminate. Qed.
Lemma get_prn_lines_nf k : forall l, get_prn_lines k l <> Err OutOfFuel.
Proof.
  induction k as [|k IH]; intros l; cbn [get_prn_lines]; [discriminate|].
  apply bind_fuel; [apply next_rec_nf|]. intros [rec r]. apply bind_fuel; [apply get_prns_nf|]. intros ps.
  apply bind_fuel; [apply IH|]. intros [qs r']. discriminate.
Qed.
Lemma read_prns_nf e n l : read_prns e n l <> Err OutOfFuel.
Proof.
  unfold read_prns. apply bind_fuel.
  - destruct (12 <? n)%Z.
    + apply bind_fuel; [apply get_prns_nf|]. intros ps. apply bind_fuel; [apply get_prn_lines_nf|]. intros [qs r].
      destruct (_ =? 0)%Z; [discriminate|]. apply bind_fuel; [apply next_rec_nf|]. intros [rec r'].
      apply bind_fuel; [apply get_prns_nf|discriminate].
    + apply bind_fuel; [apply get_prns_nf|discriminate].
  - intros [ps r]. destruct (_ =? _)%Z; discriminate.
Qed.
Lemma read_epoch_nf e l : read_epoch e l <> Err OutOfFuel.
Proof.
  unfold read_epoch. apply bind_fuel; [apply catch_fuel; [apply py_int_nf|discriminate]|]. intros fl.
  destruct (1 <? fl)%Z.
  - apply bind_fuel; [apply catch_fuel; [apply py_int_nf|discriminate]|discriminate].
  - apply bind_fuel.
    + unfold epoch_date. apply catch_fuel; [|discriminate]. apply bind_fuel; [apply mapM_fuel; intros; apply py_int_nf|]. intros x.
      apply bind_fuel; [apply py_float_nf|]. intros f. apply bind_fuel; [apply split_sec_nf|]. intros [s us].
      nofuel. apply validate_epoch_nf.
    + intros ep. apply bind_fuel; [apply catch_fuel; [apply py_int_nf|discriminate]|]. intros n.
      apply bind_fuel; [apply read_prns_nf|]. intros [ps r]. discriminate.
Qed.
Lemma take_recs_nf k : forall l, take_recs k l <> Err OutOfFuel.
Proof.
  induction k as [|k IH]; intros l; cbn [take_recs]; [discriminate|].
  apply bind_fuel; [apply next_rec_nf|]. intros [rec r]. apply bind_fuel; [apply IH|]. intros [rs r']. discriminate.
Qed.
Lemma read_obs_lines_nf lpr : forall l, read_obs_lines lpr l <> Err OutOfFuel.
Proof.
  induction lpr as [|n lpr IH]; intros l; cbn [read_obs_lines]; [discriminate|].
  apply bind_fuel; [apply next_rec_nf|]. intros [rec r]. apply bind_fuel; [apply mapM_fuel; intros; apply get_val_nf|]. intros vs.
  apply bind_fuel; [apply IH|]. intros [rs r']. discriminate.
Qed.
Lemma make_record_nf types : forall data acc, make_record types data acc <> Err OutOfFuel.
Proof. induction types as [|t types IH]; intros [|v data] acc; cbn [make_record]; try discriminate. apply IH. Qed.
Lemma set_item_nf v i line h : set_item v i line h <> Err OutOfFuel.
Proof.
  destruct i; cbn [set_item]; (apply bind_fuel; [|discriminate]).
  - unfold set_ver, char_at. nofuel.
  - unfold set_tofo. apply bind_fuel; [apply mapM_fuel; intros; apply py_int_nf|]. intros x.
    apply bind_fuel; [apply py_float_nf|]. intros f. apply bind_fuel; [apply split_sec_nf|]. intros [s us].
    destruct x as [|y [|mo [|d [|hh [|mi [|]]]]]]; try discriminate. apply bind_fuel; [apply validate_epoch_nf|discriminate].
  - unfold set_xyz. repeat (apply bind_fuel; [apply py_float_nf|intros]). discriminate.
  - unfold set_interval. destruct (ver_is20 v); (apply bind_fuel; [first [apply py_int_nf|apply py_float_nf]|discriminate]).
Qed.
Lemma parse_header_nf v lines : forall h, parse_header v lines h <> Err OutOfFuel.
Proof.
  unfold parse_header. generalize [HVer; HTofo; HXyz; HInterval]. induction lines as [|l ls IH]; intros items h; cbn [parse_header_loop]; [discriminate|].
  destruct (find _ items); [|apply IH]. apply bind_fuel; [apply set_item_nf|]. intros h'. apply IH.
Qed.
Lemma read_sats_nf types ep o prns : forall l, snd (read_sats types ep prns o l) <> Err OutOfFuel.
Proof.
  induction prns as [|p prns IH]; intros l; cbn [read_sats]; [discriminate|].
  pose proof (read_obs_lines_nf (lines_per_rec (length types)) l) as H.
  destruct (read_obs_lines _ l) as [[data r]|e]; [|cbn; congruence].
  pose proof (make_record_nf types data []) as H2. destruct (make_record types data []) as [rec|e]; [|cbn; congruence].
  specialize (IH r). destruct (read_sats types ep prns o r) as [ys e]. destruct (odt_eqb _ _); exact IH.
Qed.

Lemma run_records_nf v types lines : forall o, snd (fst (run_records v types lines o)) <> GRaise OutOfFuel.
Proof.
  remember (length lines) as n eqn:En. revert lines En. induction n as [n IH] using lt_wf_ind. intros lines -> o.
  destruct lines as [|line rest]; [discriminate|]. rewrite run_records_cons. unfold step2.
  pose proof (read_epoch_nf (rstrip line) rest) as H0.
  destruct (read_epoch (rstrip line) rest) as [[[fl n|ep fl prns] r]|e] eqn:E; [| |cbn; congruence]; apply read_epoch_len in E.
  - pose proof (take_recs_nf (Z.to_nat n) r) as H1.
    destruct (take_recs (Z.to_nat n) r) as [[ls r']|e] eqn:E2; [|cbn; congruence]. apply take_recs_len in E2.
    destruct (_ || _)%bool.
    + pose proof (parse_header_nf v ls (o_hdr o)) as H2. destruct (parse_header v ls (o_hdr o)); [|cbn; congruence].
      apply (IH (length r')); [cbn; lia|reflexivity].
    + apply (IH (length r')); [cbn; lia|reflexivity].
  - pose proof (read_sats_nf types ep o prns r) as H1.
    destruct (read_sats types ep prns o r) as [ys [r'|e]] eqn:E2; [|cbn in *; congruence]. apply read_sats_len in E2.
    assert (Hlt : length r' < length (line :: rest)) by (cbn; lia).
    specialize (IH _ Hlt r' eq_refl (mkObj2 (Some ep) (o_hdr o))).
    destruct (run_records v types r' (mkObj2 (Some ep) (o_hdr o))) as [[ys' e'] o']. exact IH.
Qed.
