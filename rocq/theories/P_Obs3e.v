(** Proofs about the RINEX 3 reader: interval and termination. *)
From Coq Require Import Reals Lra ZifyBool ZifyNat.
From Flocq Require Import Core.Core.
From Verif Require Import Base PyStr PyFloat PyDate M_Common M_Header M_Obs2 M_Obs3.
From Verif Require Import S_Text S_Time S_Obs2 S_Open2 S_Errors2 S_Obs3 P_Str P_Float P_Date P_Obs2 P_Obs2b P_Obs2c P_Errors2 P_Open2 P_Interval P_Div P_Nav4 P_Prop2 P_Obs3 P_Obs3b P_Obs3c P_Obs3d.
Open Scope nat_scope.

Lemma mark_line l : no_epoch_mark l -> exists c r, l = c :: r /\ ceqb c ">"%char = false.
Proof. intros [c [r [-> H]]]. exists c, r. split; [reflexivity|]. destruct (ceqb c ">") eqn:E; [apply ceqb_eq in E; congruence|reflexivity]. Qed.
Lemma next_skip skip : Forall no_epoch_mark skip -> forall ep rest, next_epoch ep (skip ++ rest) = next_epoch ep rest.
Proof.
  induction 1 as [|l skip Hl Hs IH]; intros ep rest; [reflexivity|]. cbn [app next_epoch]. destruct (mark_line _ Hl) as [c [r [-> E]]].
  unfold char_at. cbn [nth_error of_option bind]. rewrite E. cbn [negb]. apply IH.
Qed.
Lemma next_line ep line rest e fl n : parse_epoch3 line = Ok (e, fl, n) -> (exists r, line = ">"%char :: r) ->
  next_epoch ep (line :: rest) = if (1 <? fl)%Z then next_epoch e rest else Ok (e, rest).
Proof.
  intros H [r ->]. cbn [next_epoch]. unfold char_at at 1. cbn [nth_error of_option bind]. change (ceqb ">" ">") with true. cbn [negb].
  rewrite H. reflexivity.
Qed.
Lemma sats3_mark T sats (lines : list str) : Forall2 (fun s l => (exists types, types_of T (fst s) types /\ length (snd s) = length types) /\
                        sat3_line (fst s) (snd s) l) sats lines -> Forall no_epoch_mark lines.
Proof.
  induction 1 as [|s l sats lines [_ Hl] H IH]; [constructor|]. constructor; [|exact IH].
  destruct (sat3_cols _ _ _ Hl) as [tsat [Ht [_ [r ->]]]]. inversion Ht as [c d0 d1 H1 H2]; subst. exists c, (d0 :: d1 :: r). auto.
Qed.
Lemma event3_mark ls np : event3_lines ls np -> Forall no_epoch_mark ls.
Proof.
  assert (Hp : forall l, plain_line l -> no_epoch_mark l) by (intros l [_ H]; exact H).
  induction 1 as [|l ls np Hl Hs IH|l ls p Hl Hs]; [constructor|constructor; auto|].
  constructor; [exact (pos_not_epoch _ _ Hl)|]. eapply Forall_impl; [|exact Hs]. exact Hp.
Qed.

(** the next epoch of the file *)
Lemma body3_next T bs ls : body3_lines T bs ls -> forall skip ep0, Forall no_epoch_mark skip ->
  match data_epochs3 bs with
  | [] => exists e, next_epoch ep0 (skip ++ ls) = Ok (e, []) /\ (bs = [] -> e = ep0)
  | a :: es => exists skip' bs' ls' pre, next_epoch ep0 (skip ++ ls) = Ok (Some a, skip' ++ ls') /\ Forall no_epoch_mark skip' /\
      body3_lines T bs' ls' /\ data_epochs3 bs' = es /\ bs = pre ++ bs' /\ valid_datetime a
  end.
Proof.
  induction 1 as [|b bs l ls Hb Hbs IH]; intros skip ep0 Hs.
  - cbn [data_epochs3]. exists ep0. rewrite next_skip by exact Hs. auto.
  - destruct Hb as [ep fl sats line lines Hfl He Hsats|fl line lines np ep Hfl He Hev].
    + cbn [data_epochs3]. exists lines, bs, ls, [B3Data ep fl sats]. destruct (epoch3_line_read _ _ _ _ He) as [Hp Hr].
      rewrite next_skip by exact Hs. cbn [app]. rewrite (next_line _ _ _ _ _ _ Hp Hr). replace (1 <? fl)%Z with false by lia.
      split; [reflexivity|]. split; [eapply sats3_mark; exact Hsats|]. split; [exact Hbs|]. split; [reflexivity|]. split; [reflexivity|].
      inversion He as [date gap tn sk clock cf n e Hd]; subst. inversion Hd; subst. assumption.
    + cbn [data_epochs3]. destruct (epoch3_line_read _ _ _ _ He) as [Hp Hr].
      rewrite next_skip by exact Hs. cbn [app]. rewrite (next_line _ _ _ _ _ _ Hp Hr). replace (1 <? fl)%Z with true by lia.
      specialize (IH lines ep (event3_mark _ _ Hev)). destruct (data_epochs3 bs) as [|a es].
      * destruct IH as [e [IH1 _]]. exists e. split; [exact IH1|discriminate].
      * destruct IH as [skip' [bs' [ls' [pre [I1 [I2 [I3 [I4 [I5 I6]]]]]]]]]. exists skip', bs', ls', (B3Event fl lines np :: pre).
        split; [exact I1|]. rewrite I5. auto 10.
Qed.

Lemma odt_refl e : odt_eqb (Some e) (Some e) = true.
Proof. cbn [odt_eqb]. now apply dt_eqb_eq. Qed.
Lemma odt_ne a b : a <> b -> odt_eqb (Some a) (Some b) = false.
Proof. intros H. cbn [odt_eqb]. destruct (dt_eqb a b) eqn:E; [apply dt_eqb_eq in E; congruence|reflexivity]. Qed.

Lemma next_different_found T a b rest : a <> b -> forall k fuel bs ls skip, k < fuel -> data_epochs3 bs = repeat a k ++ b :: rest ->
  body3_lines T bs ls -> Forall no_epoch_mark skip ->
  next_different fuel (Some a) (Some a) (skip ++ ls) = Ok (Some b).
Proof.
  intros Hab. induction k as [|k IH]; intros fuel bs ls skip Hk Hd Hb Hs; (destruct fuel as [|fuel]; [lia|]); cbn [next_different];
  rewrite odt_refl; pose proof (body3_next T bs ls Hb skip None Hs) as Hn; rewrite Hd in Hn; cbn [repeat app] in Hn;
  destruct Hn as [skip' [bs' [ls' [pre [I1 [I2 [I3 [I4 _]]]]]]]]; rewrite I1; cbn [bind].
  - destruct fuel; cbn [next_different]; now rewrite (odt_ne a b Hab).
  - apply (IH fuel bs' ls' skip'); [lia|exact I4|exact I3|exact I2].
Qed.
(** all epochs equal, nothing after the last one *)
Definition last_is_data (bs : list block3) : Prop := forall bs0 fl ls np, bs <> bs0 ++ [B3Event fl ls np].
Lemma data_epochs_nil bs : last_is_data bs -> data_epochs3 bs = [] -> bs = [].
Proof.
  intros H E. induction bs as [|b bs _] using rev_ind; [reflexivity|]. exfalso. destruct b as [ep fl sats|fl ls np].
  - assert (G : forall x y, data_epochs3 (x ++ y) = data_epochs3 x ++ data_epochs3 y).
    { clear. induction x as [|[] x IH]; intros y; cbn [app data_epochs3]; [reflexivity|f_equal|]; apply IH. }
    rewrite G in E. cbn in E. now destruct (data_epochs3 bs).
  - now apply (H bs fl ls np).
Qed.
Lemma last_suffix pre bs : last_is_data (pre ++ bs) -> last_is_data bs.
Proof. intros H bs0 fl ls np ->. apply (H (pre ++ bs0) fl ls np). now rewrite app_assoc. Qed.
Lemma next_different_none T a : forall k fuel bs ls skip, k < fuel -> data_epochs3 bs = repeat a k -> last_is_data bs ->
  body3_lines T bs ls -> Forall no_epoch_mark skip ->
  next_different fuel (Some a) (Some a) (skip ++ ls) = Ok None.
Proof.
  induction k as [|k IH]; intros fuel bs ls skip Hk Hd Hl Hb Hs; (destruct fuel as [|fuel]; [lia|]); cbn [next_different];
  rewrite odt_refl; pose proof (body3_next T bs ls Hb skip None Hs) as Hn; rewrite Hd in Hn; cbn [repeat] in Hn.
  - destruct Hn as [e [I1 I2]]. rewrite I1. cbn [bind]. rewrite (I2 (data_epochs_nil _ Hl Hd)). destruct fuel; reflexivity.
  - destruct Hn as [skip' [bs' [ls' [pre [I1 [I2 [I3 [I4 [I5 _]]]]]]]]]. rewrite I1. cbn [bind].
    apply (IH fuel bs' ls' skip'); [lia|exact I4| |exact I3|exact I2]. subst bs. now apply last_suffix in Hl.
Qed.

(** sign of the difference *)
Lemma seconds_sign us : (Z.abs us <= 2 ^ 1000)%Z -> fleb (total_seconds us) fzero = (us <=? 0)%Z.
Proof.
  intros H. pose proof (total_seconds_nearest us H) as Hn. pose proof (nearest_good _ _ Hn) as Hg. destruct Hn as [_ [_ Hr]].
  assert (Hz : good fzero) by (split; reflexivity). assert (Ez : f2r fzero = 0%R) by reflexivity.
  rewrite fleb_correct by assumption. rewrite Hr, Ez. unfold dec_real. clear Hr Hg.
  destruct (Z.leb_spec us 0) as [Hu|Hu].
  - apply Rle_bool_true. eapply Rle_trans; [apply round_le with (y := 0%R); [typeclasses eauto..|]|rewrite round_0; [lra|typeclasses eauto]].
    assert (Hp : (0 <= IZR (Z.abs us))%R) by (apply IZR_le; lia). destruct (Z.ltb_spec us 0); [lra|].
    replace us with 0%Z by lia. cbn [Z.abs]. lra.
  - apply Rle_bool_false. apply Rlt_le_trans with (bpow radix2 (-20)); [apply bpow_gt_0|].
    apply round_ge_generic; [typeclasses eauto..| |].
    + apply generic_format_bpow. unfold FLT_exp. lia.
    + replace (us <? 0)%Z with false by lia. assert (Hp : (1 <= IZR (Z.abs us))%R) by (apply IZR_le; lia).
      change (bpow radix2 (-20)) with (/ IZR (2 ^ 20))%R. change (2 ^ 20)%Z with 1048576%Z. lra.
Qed.

(** C53 *)
Lemma instant_abs a : valid_datetime a -> (0 <= instant a < 2 ^ 200)%Z.
Proof.
  intros H. rewrite instant_eq by exact H. apply valid_datetime_iff in H. apply dt_us_bounds in H. destruct H as [H1 H2]. split; [exact H1|].
  eapply Z.lt_trans; [exact H2|]. reflexivity.
Qed.
Lemma det_interval_two fuel v T blocks body a k b rest : body3_lines T blocks body ->
  data_epochs3 blocks = a :: repeat a k ++ b :: rest -> a <> b -> k < fuel ->
  det_interval fuel v body = (let dt := total_seconds (instant b - instant a) in
    if (instant b - instant a <=? 0)%Z then Err RinexError else set_interval v (fmt_wf 10 3 dt)).
Proof.
  intros Hb Hd Hab Hk. unfold det_interval.
  pose proof (body3_next T blocks body Hb [] None (Forall_nil _)) as Hn. rewrite Hd in Hn. cbn [app] in Hn.
  destruct Hn as [skip [bs [ls [pre [I1 [I2 [I3 [I4 [_ Va]]]]]]]]]. rewrite I1. cbn [bind].
  assert (Hfin : forall e1 l1, next_epoch None (skip ++ ls) = Ok (e1, l1) -> next_different fuel (Some a) e1 l1 = Ok (Some b)).
  { intros e1 l1 E. pose proof (body3_next T bs ls I3 skip None I2) as Hn. rewrite I4 in Hn. destruct k as [|k]; cbn [repeat app] in Hn;
    destruct Hn as [skip' [bs' [ls' [pre' [J1 [J2 [J3 [J4 _]]]]]]]]; rewrite J1 in E; injection E as <- <-.
    - destruct fuel; cbn [next_different]; now rewrite (odt_ne a b Hab).
    - apply (next_different_found T a b rest Hab k fuel bs' ls' skip'); [lia|assumption..]. }
  destruct (next_epoch None (skip ++ ls)) as [[e1 l1]|] eqn:E1.
  2:{ exfalso. pose proof (body3_next T bs ls I3 skip None I2) as Hn. rewrite I4 in Hn. destruct k as [|k]; cbn [repeat app] in Hn;
      destruct Hn as [skip' [bs' [ls' [pre' [J1 _]]]]]; congruence. }
  cbn [bind]. rewrite (Hfin e1 l1 eq_refl). cbn [bind].
  assert (Vb : valid_datetime b).
  { clear -Hb Hd. assert (HF : Forall valid_datetime (data_epochs3 blocks)).
    { clear -Hb. induction Hb as [|x bs l ls Hx Hbs IH]; [constructor|]. destruct Hx as [ep fl sats line lines _ He _|]; cbn [data_epochs3]; [|exact IH].
      constructor; [|exact IH]. inversion He as [date gap tn sk clock cf n e Hdd]; subst. inversion Hdd; subst. assumption. }
    rewrite Hd in HF. inversion HF as [|? ? _ HF']; subst. apply Forall_app in HF'. destruct HF' as [_ HF']. now inversion HF'. }
  rewrite (dt_sub_instant b a Vb Va). cbv zeta. rewrite seconds_sign; [reflexivity|].
  pose proof (instant_abs a Va) as B1. pose proof (instant_abs b Vb) as B2. revert B1 B2. generalize (instant a) (instant b). intros i j B1 B2.
  assert ((2 ^ 200 <= 2 ^ 1000)%Z) by (apply Z.pow_le_mono_r; lia). lia.
Qed.
Lemma det_interval_one fuel v T blocks body a k : body3_lines T blocks body ->
  data_epochs3 blocks = a :: repeat a k -> last_is_data blocks -> k < fuel ->
  det_interval fuel v body = Err RinexError.
Proof.
  intros Hb Hd Hl Hk. unfold det_interval.
  pose proof (body3_next T blocks body Hb [] None (Forall_nil _)) as Hn. rewrite Hd in Hn. cbn [app] in Hn.
  destruct Hn as [skip [bs [ls [pre [I1 [I2 [I3 [I4 [I5 Va]]]]]]]]]. rewrite I1. cbn [bind]. subst blocks. apply last_suffix in Hl.
  pose proof (body3_next T bs ls I3 skip None I2) as Hn. rewrite I4 in Hn. destruct k as [|k]; cbn [repeat app] in Hn.
  - destruct Hn as [e [J1 J2]]. rewrite J1. cbn [bind]. rewrite (J2 (data_epochs_nil _ Hl I4)). destruct fuel; reflexivity.
  - destruct Hn as [skip' [bs' [ls' [pre' [J1 [J2 [J3 [J4 [J5 _]]]]]]]]]. rewrite J1. cbn [bind]. subst bs. apply last_suffix in Hl.
    rewrite (next_different_none T a k fuel bs' ls' skip'); [reflexivity|lia|assumption..].
Qed.

Lemma open3_ok fuel v header body file h table sel : file3_parts header body file -> parse_header v header hdr0 = Ok h ->
  labelled sno_text header sel -> table_lines table sel -> NoDup (map fst table) -> table <> [] ->
  exists m, open3 fuel v file = do iv <- det_interval fuel v body;
    Ok (mkReader3 m (mkObj3 (mkHdr (h_ver h) (h_tofo h) (h_xyz h) (Some iv)) (tab_of (read_table v table))) body).
Proof.
  intros Hp Hh Hl Ht Hn Hne. destruct (max_types_def (read_table v table)) as [m Hm]; [destruct table; [congruence|discriminate]|].
  exists m. unfold open3. rewrite (file3_split _ _ _ Hp). rewrite (header3_read v header sel table h Hl Ht Hn Hh). cbn [bind o3_tab o3_hdr].
  rewrite Hm. reflexivity.
Qed.

Lemma open3_interval fuel v header body file h table sel blocks a k : file3_parts header body file -> parse_header v header hdr0 = Ok h ->
  labelled sno_text header sel -> table_lines table sel -> NoDup (map fst table) -> table <> [] ->
  body3_lines (read_table v table) blocks body -> k < fuel ->
  (forall b rest, data_epochs3 blocks = a :: repeat a k ++ b :: rest -> a <> b ->
    let us := (instant b - instant a)%Z in
    ((us <= 0)%Z -> open3 fuel v file = Err RinexError) /\
    ((500 < us < 999999000000)%Z -> exists r iv, open3 fuel v file = Ok r /\ h_interval (o3_hdr (r3_obj r)) = Some iv /\
       match iv with
       | PFloat f => ver_is20 v = false /\ (0 < f2r f)%R /\ ((us mod 1000 = 0)%Z -> seconds us f)
       | PInt n => ver_is20 v = true /\ (0 <= n)%Z /\ ((us mod 1000000 = 0)%Z -> (n * 1000000 = us)%Z)
       end)) /\
  (data_epochs3 blocks = a :: repeat a k -> last_is_data blocks -> open3 fuel v file = Err RinexError).
Proof.
  intros Hp Hh Hl Ht Hn Hne Hb Hk. destruct (open3_ok fuel v header body file h table sel Hp Hh Hl Ht Hn Hne) as [m Ho].
  split.
  - intros b rest Hd Hab us. rewrite (det_interval_two fuel v _ blocks body a k b rest Hb Hd Hab Hk) in Ho. fold us in Ho. cbv zeta in Ho.
    clearbody us. split; intros Hu.
    + rewrite Ho. replace (us <=? 0)%Z with true by lia. reflexivity.
    + replace (us <=? 0)%Z with false in Ho by lia. destruct (interval_reported v us Hu) as [iv [E Hiv]]. rewrite E in Ho. cbn [bind] in Ho.
      eexists _, iv. split; [exact Ho|]. split; [reflexivity|]. destruct iv as [n|f].
      * destruct Hiv as [I1 [I2 I3]]. split; [exact I1|]. split; [exact I2|]. intros Hm. destruct (I3 Hm) as [-> _].
        pose proof (Z.div_mod us 1000000 ltac:(lia)). lia.
      * destruct Hiv as [I1 [I2 I3]]. split; [exact I1|]. split; [exact I2|]. intros Hm. rewrite (I3 Hm). apply total_seconds_nearest. lia.
  - intros Hd Hld. rewrite Ho, (det_interval_one fuel v _ blocks body a k Hb Hd Hld Hk). reflexivity.
Qed.
