(** Proofs about opening a RINEX 2 file: observation types, interval, position at opening. *)
From Coq Require Import ZifyBool ZifyNat Reals Lra.
From Flocq Require Import Core.Core IEEE754.BinarySingleNaN.
From Verif Require Import Base PyStr PyFloat PyDate M_Common M_Header M_Obs2.
From Verif Require Import S_Text S_Time S_Obs2 S_Open2 P_Str P_Float P_Sec P_Date P_Common P_Obs2 P_Obs2b P_Obs2c P_Open2.
Open Scope nat_scope.

Lemma Ok_inj {A} (x y : A) : Ok x = Ok y -> x = y.
Proof. congruence. Qed.
(** ** C02 *)
Lemma type_text_len t x : type_text t x -> length t = 6.
Proof. intros H. inversion H; subst. rewrite app_length. cbn. lia. Qed.
Lemma map_seq_nth {A B} (f : nat -> B) (g : A -> B) (l : list A) : forall s,
  (forall k a, nth_error l k = Some a -> f (s + k) = g a) -> map f (seq s (length l)) = map g l.
Proof.
  induction l as [|a l IH]; intros s H; cbn; [reflexivity|]. f_equal.
  - rewrite <- (H 0 a eq_refl). f_equal. lia.
  - apply IH. intros k a' Hk. rewrite <- (H (S k) a' Hk). f_equal. lia.
Qed.
Lemma get_types_line first texts types rest : length first = 6 -> Forall2 type_text texts types ->
  get_o_types (slice 6 (6 + length types * 6) (first ++ concat texts ++ rest)) (length types) = types.
Proof.
  intros Hf Ht. assert (Hlt : Forall (fun t => length t = 6) texts).
  { clear -Ht. induction Ht; constructor; [eapply type_text_len; eassumption|assumption]. }
  assert (Hlen : length texts = length types) by (eapply F2_length; exact Ht).
  assert (Hcl : length (concat texts) = length types * 6).
  { rewrite <- Hlen. clear -Hlt. induction Hlt as [|t ts H1 H2 IH]; [reflexivity|]. cbn [concat length]. rewrite app_length, IH, H1. lia. }
  rewrite slice_piece by lia. unfold get_o_types.
  rewrite <- (map_id types) at 2. apply (map_seq_nth _ (fun t => t)). intros k x Hk. cbn [plus].
  assert (exists t, nth_error texts k = Some t /\ type_text t x) as [t [Htk Hx]].
  { clear -Ht Hk. revert k Hk. induction Ht as [|t f0 ts fs H0 H1 IH]; intros [|k] Hk; try discriminate; cbn in *.
    - inversion Hk; subst. eauto.
    - eauto. }
  pose proof (nth_concat_slice 6 texts k t [] [] Hlt Htk) as Hs. cbn [length app plus] in Hs. rewrite app_nil_r in Hs.
  rewrite Hs. inversion Hx as [pre a b Hp]; subst. unfold from. rewrite app_length, Hp. cbn [length].
  change (4 + 2 - 2) with 4. now rewrite skipn_app_exact.
Qed.

Definition read_type_lines (n : nat) (header : list str) : res (list str) :=
  do ts <- o_types_lines (n / 9) header;
  if n mod 9 =? 0 then Ok ts
  else match nth_error header (n / 9) with
       | None => Err IndexError
       | Some l => Ok (ts ++ get_o_types (slice 6 (6 + (n mod 9) * 6) l) (n mod 9))
       end.
Lemma type_lines_read types tl : type_lines types tl -> forall after, read_type_lines (length types) (tl ++ after) = Ok types.
Proof.
  induction 1 as [first types line [texts [rest [Hf [Ht [-> [Hn _]]]]]]|first types more line lines H9 [texts [rest [Hf [Ht [-> [Hn _]]]]]] Hr IH]; intros after;
    pose proof (get_types_line first texts types rest Hf Ht) as Hg; unfold read_type_lines in *.
  - destruct (Nat.eq_dec (length types) 9) as [E|E].
    + rewrite E in *. change (9 / 9) with 1. change (9 mod 9) with 0. cbn [o_types_lines app bind Nat.eqb].
      change (6 + 9 * 6) with 60 in Hg. rewrite Hg. now rewrite app_nil_r.
    + rewrite Nat.div_small, Nat.mod_small by lia. cbn [o_types_lines bind app nth_error].
      replace (length types =? 0) with false by lia. now rewrite Hg.
  - rewrite app_length, H9 in *. change (6 + 9 * 6) with 60 in Hg.
    replace ((9 + length more) / 9) with (S (length more / 9)).
    2:{ replace (9 + length more) with (length more + 1 * 9) by lia. rewrite Nat.div_add by lia. lia. }
    replace ((9 + length more) mod 9) with (length more mod 9).
    2:{ replace (9 + length more) with (length more + 1 * 9) by lia. now rewrite Nat.mod_add by lia. }
    cbn [o_types_lines app bind nth_error]. specialize (IH after).
    destruct (o_types_lines (length more / 9) (lines ++ after)) as [ts|e]; cbn [bind] in *; [|discriminate].
    rewrite Hg. destruct (length more mod 9 =? 0); [inversion IH; subst; reflexivity|].
    destruct (nth_error (lines ++ after) (length more / 9)); [|discriminate]. apply Ok_inj in IH. now rewrite <- app_assoc, IH.
Qed.
Lemma type_lines_first types tl : type_lines types tl -> exists line lines, tl = line :: lines /\ occurs tobs_label line /\ (length types <= 9 -> lines = []).
Proof.
  intros H. destruct H as [first types line [texts [rest [Hf [Ht [-> [Hn Ho]]]]]]|first types more line lines H9 [texts [rest [Hf [Ht [-> [Hn Ho]]]]]] Hr].
  - eexists _, []. split; [reflexivity|]. split; [exact Ho|reflexivity].
  - eexists _, lines. split; [reflexivity|]. split; [exact Ho|]. rewrite app_length, H9. intros Hle.
    inversion Hr as [? ? ? [? [? [_ [_ [_ [H1 _]]]]]]|? ? ? ? ? H1]; subst; [lia|rewrite app_length in Hle; lia].
Qed.

Lemma types_read header types : header_types header types -> set_obs_num_types header = Ok types.
Proof.
  intros [before [tl [after [-> [Hb [Ht [count [line0 [Hl0 [Hc [r Hr]]]]]]]]]]].
  induction Hb as [|l before Hl Hb IH]; cbn [app set_obs_num_types].
  2:{ apply contains_false in Hl. unfold tobs_label. rewrite Hl. exact IH. }
  destruct (type_lines_first _ _ Ht) as [line [lines [-> [Ho Hle]]]]. cbn in Hl0. injection Hl0 as Hl0. rewrite <- Hl0 in Hr. clear line0 Hl0.
  pose proof (type_lines_read _ _ Ht after) as Hrd. cbn [app] in *. cbn [set_obs_num_types].
  apply contains_spec in Ho. rewrite Ho. cbn [negb].
  assert (Hs : slice 0 6 line = count) by (rewrite Hr; apply slice_0; apply Hc).
  rewrite Hs, (py_int_field _ _ _ Hc). cbn [catch bind].
  unfold read_type_lines in Hrd.
  destruct (9 <? Z.of_nat (length types))%Z eqn:E9.
  - replace (Z.to_nat (Z.of_nat (length types) / 9)) with (length types / 9).
    2:{ change 9%Z with (Z.of_nat 9). rewrite <- Nat2Z.inj_div. now rewrite Nat2Z.id. }
    destruct (o_types_lines (length types / 9) (line :: lines ++ after)) as [ts|e]; cbn [bind] in *; [|discriminate].
    replace (Z.of_nat (length types) mod 9 =? 0)%Z with (length types mod 9 =? 0).
    2:{ change 9%Z with (Z.of_nat 9). rewrite <- Nat2Z.inj_mod. lia. }
    replace (Z.to_nat (Z.of_nat (length types) - Z.of_nat (length types) / 9 * 9)) with (length types mod 9).
    2:{ change 9%Z with (Z.of_nat 9). rewrite <- Nat2Z.inj_div. pose proof (Nat.div_mod (length types) 9 ltac:(lia)). lia. }
    destruct (length types mod 9 =? 0).
    + inversion Hrd; subst. cbn [bind]. now rewrite Z.eqb_refl.
    + destruct (nth_error (line :: lines ++ after) (length types / 9)); [|discriminate].
      apply Ok_inj in Hrd. cbn [bind]. rewrite Hrd. now rewrite Z.eqb_refl.
  - rewrite Nat2Z.id. assert (Hty : get_o_types (slice 6 (6 + length types * 6) line) (length types) = types).
    { assert (lines = []) as -> by (apply Hle; lia).
      inversion Ht as [first ty ln [texts [rest [Hf [Htt [-> [Hn _]]]]]]|first ty more ln lns H9 [texts [rest [Hf [Htt [-> [Hn _]]]]]] Hrr]; subst.
      - now apply get_types_line.
      - inversion Hrr. }
    rewrite Hty. cbn [bind]. now rewrite Z.eqb_refl.
Qed.

(** number of lines and values per satellite *)
Lemma lines_per_rec_len n : length (lines_per_rec n) = (n + 4) / 5.
Proof.
  unfold lines_per_rec. generalize (Z.of_nat n). generalize ((n + 4) / 5). induction n0 as [|k IH]; intros z; cbn [lines_per_rec_loop length]; [reflexivity|].
  f_equal. apply IH.
Qed.
Lemma lines_per_rec_sum n : fold_right plus 0 (lines_per_rec n) = n /\ Forall (fun k => 1 <= k <= 5) (lines_per_rec n).
Proof.
  induction n as [n IH] using lt_wf_ind. destruct (le_lt_dec n 5) as [H|H].
  - destruct n as [|n]; [split; [reflexivity|constructor]|]. rewrite lines_per_rec_small by lia. cbn. split; [lia|constructor; [lia|constructor]].
  - replace n with (5 + (n - 5)) by lia. rewrite lines_per_rec_more by lia.
    destruct (IH (n - 5) ltac:(lia)) as [H1 H2]. cbn [fold_right]. split; [lia|constructor; [lia|exact H2]].
Qed.

(** ** C05: without position events the position at opening is the header's *)
Lemma runs_hdr types o bs ys o1 : runs types o bs ys o1 -> no_positions bs ->
  o_hdr o1 = o_hdr o /\ forall o', In o' (map snd ys) -> o_hdr o' = o_hdr o.
Proof.
  induction 1 as [o|ep fl sats bs o rs ys o' He Hr IH|fl ls np bs o p ys o' Hp Hr IH]; intros Hn.
  - split; [reflexivity|intros ? []].
  - destruct IH as [H1 H2]; [intros f l q Hi; apply (Hn f l q); now right|]. cbn [o_hdr] in *. split; [exact H1|].
    intros o2 Hi. rewrite map_app in Hi. apply in_app_or in Hi. destruct Hi as [Hi|Hi]; [|now apply H2].
    destruct (odt_eqb _ _); [contradiction|]. rewrite map_map in Hi. apply in_map_iff in Hi. destruct Hi as [r [<- _]]. reflexivity.
  - assert (np = None) as -> by (apply (Hn fl ls np); now left). cbn in Hp. subst p. rewrite set_pos_same in *.
    apply IH. intros f l q Hi. apply (Hn f l q). now right.
Qed.

Lemma open2_position v header body file r blocks :
  file_parts header body file -> open2 v file = Ok r -> NoDup (r_types r) ->
  body_lines (length (r_types r)) blocks body -> no_positions blocks ->
  exists h, parse_header v header hdr0 = Ok h /\ h_xyz (o_hdr (r_obj r)) = h_xyz h.
Proof.
  intros Hf Ho Hn Hb Hnp.
  destruct (open2_inv _ _ _ _ _ Hf Ho) as [h [dt [o [iv [H1 [H2 [H3 [H4 [H5 H6]]]]]]]]].
  exists h. split; [exact H2|]. rewrite H5. cbn [o_hdr h_xyz].
  unfold get_interval in H3. destruct (run_body v (r_types r) blocks body (mkObj2 None h) Hn Hb) as [ys0 [o0 [Q1 Q2]]]. rewrite Q2 in H3.
  destruct (collect_deltas 10 None ys0 GStop o0) as [[ds oo]|] eqn:Ec; cbn [bind] in H3; [|discriminate].
  destruct (best_key ds (nub_f [] ds)) as [m|]; inversion H3; subst.
  destruct (runs_hdr _ _ _ _ _ Q1 Hnp) as [Ha Hb']. cbn [o_hdr] in *.
  destruct (collect_obj _ _ _ _ _ _ _ Ec) as [->|Hi]; [now rewrite Ha|now rewrite (Hb' _ Hi)].
Qed.

(** ** C06 *)
Definition epochs_of (out : list (orec * position)) : list datetime := map (fun y => fst (fst (fst y))) out.
Lemma epochs_with_pos ys : epochs_of (map with_pos ys) = map yep ys.
Proof. unfold epochs_of. rewrite map_map. reflexivity. Qed.

Lemma diffs_bound prev eps : valid_datetime prev -> Forall valid_datetime eps -> Forall (fun d => (Z.abs d <= 2 ^ 100)%Z) (diffs prev eps).
Proof.
  intros Hp H. revert prev Hp. induction H as [|e eps He Hes IH]; intros prev Hp; cbn [diffs]; [constructor|].
  apply Forall_app. split; [|now apply IH].
  destruct (_ =? 0)%Z; [constructor|]. constructor; [|constructor].
  rewrite !instant_eq by assumption. apply valid_datetime_iff in Hp, He. apply dt_us_bounds in Hp, He.
  unfold max_ordinal, us_per_day in *. assert (2 ^ 60 <= 2 ^ 100)%Z by (vm_compute; discriminate).
  assert (3652059 * 86400000000 < 2 ^ 60)%Z by (vm_compute; reflexivity). lia.
Qed.
Lemma diffs_good eps : Forall valid_datetime eps -> Forall good (map total_seconds (firstn 10 (epoch_diffs eps))).
Proof.
  intros H. assert (Hd : Forall (fun d => (Z.abs d <= 2 ^ 100)%Z) (epoch_diffs eps)).
  { destruct H as [|e eps He Hes]; [constructor|]. now apply diffs_bound. }
  apply Forall_forall. intros x Hx. apply in_map_iff in Hx. destruct Hx as [d [<- Hd']].
  assert (Hin : In d (epoch_diffs eps)). { rewrite <- (firstn_skipn 10 (epoch_diffs eps)). apply in_or_app. now left. }
  rewrite Forall_forall in Hd. specialize (Hd d Hin). eapply nearest_good. apply total_seconds_nearest.
  eapply Z.le_trans; [exact Hd|]. vm_compute. discriminate.
Qed.

Lemma collect_first10 ys oend : Forall (fun y => valid_datetime (yep y)) ys ->
  exists o', collect_deltas 10 None ys GStop oend = Ok (map total_seconds (firstn 10 (epoch_diffs (map yep ys))), o').
Proof.
  intros H. pose proof (collect_spec0 ys GStop oend 10 H ltac:(lia)) as Hc. cbn zeta in Hc.
  destruct (10 <=? length (epoch_diffs (map yep ys))) eqn:E.
  - exact Hc.
  - exists oend. rewrite Hc. rewrite firstn_all2 by lia. reflexivity.
Qed.

Lemma get_interval_spec v types blocks body h : NoDup types -> body_lines (length types) blocks body ->
  exists out, delivered types None (h_xyz h) blocks out /\
    let ds := map total_seconds (firstn 10 (epoch_diffs (epochs_of out))) in
    match ds with
    | [] => get_interval 10 v types body (mkObj2 None h) = Err RinexError
    | _ => exists m o, get_interval 10 v types body (mkObj2 None h) = Ok (m, o) /\ most_frequent m ds
    end.
Proof.
  intros Hn Hb. destruct (run_body v types blocks body (mkObj2 None h) Hn Hb) as [ys [o1 [Q1 Q2]]].
  exists (map with_pos ys). split; [now apply runs_delivered in Q1|]. rewrite epochs_with_pos.
  assert (Hv : Forall (fun y => valid_datetime (yep y)) ys) by (eapply runs_valid; [exact Q1|eapply body_valid; exact Hb]).
  destruct (collect_first10 ys o1 Hv) as [o' Hc]. unfold get_interval. rewrite Q2, Hc. cbn [bind]. cbn zeta.
  assert (Hg : Forall good (map total_seconds (firstn 10 (epoch_diffs (map yep ys))))).
  { apply diffs_good. clear -Hv. induction Hv; constructor; assumption. }
  set (ds := map total_seconds (firstn 10 (epoch_diffs (map yep ys)))) in *. clearbody ds.
  destruct (best_key ds (nub_f [] ds)) as [m|] eqn:E.
  - destruct ds as [|d ds]; [discriminate|]. exists m, o'. split; [reflexivity|]. now apply mode_spec.
  - apply best_key_none in E. destruct ds as [|d ds]; [reflexivity|]. cbn in E. discriminate.
Qed.
