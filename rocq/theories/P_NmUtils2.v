(** Selection of the ephemeris and of the navigation file. *)
From Coq Require Import Reals Lra ZifyBool ZifyNat.
From Flocq Require Import Core.Core.
From Verif Require Import Base PyStr PyFloat PyDate PyPath M_Names M_Nav M_NmUtils S_Text S_Time S_Obs2 S_NmUtils P_Str P_Float P_Date P_Nav P_NmUtils.
Open Scope nat_scope.

(** before the first week the computation still gives a number *)
Lemma week_sec_some start epoch : valid_datetime start -> valid_datetime epoch -> exists x, get_week_sec epoch start = Ok x.
Proof.
  intros Vs Ve. unfold get_week_sec, dt_sub. apply valid_datetime_iff in Vs, Ve.
  pose proof (dt_us_bounds _ Vs) as Bs. pose proof (dt_us_bounds _ Ve) as Be. unfold max_ordinal in *. change us_per_day with 86400000000%Z in *.
  set (D := (dt_us epoch - dt_us start)%Z). assert (HD : (- (3652059 * 86400000000) < D < 3652059 * 86400000000)%Z) by lia.
  assert (Hd : (-3652060 <= D / 86400000000 < 3652059)%Z).
  { split; [apply Z.div_le_lower_bound; lia|apply Z.div_lt_upper_bound; lia]. }
  set (days := (D / 86400000000)%Z) in *.
  destruct (float_of_Z_correct days ltac:(lia)) as [Gd Vd]. destruct (float_of_Z_correct 7 ltac:(lia)) as [G7 V7].
  assert (Rd : (-3652060 <= IZR days <= 3652059)%R) by (split; apply IZR_le; lia).
  destruct (fdiv_correct (float_of_Z days) f7 Gd G7) as [q [Eq1 [Gq Vq]]].
  { unfold f7. rewrite V7. lra. }
  { unfold f7. rewrite Vd, V7. apply big_of. change (2 ^ 60)%Z with 1152921504606846976%Z. apply Rabs_le. lra. }
  rewrite Eq1. cbn [bind]. rewrite float_to_int_correct by apply Gq. cbn [bind]. eauto.
Qed.

Definition sel_systems : str := lit "GCERS".
Lemma starts_valid sys start : epoch_start sys = Some start -> valid_datetime start.
Proof.
  destruct sys as [[] [] [] [] [] [] [] []]; try discriminate; intros H; injection H as <-; repeat split; vm_compute; discriminate.
Qed.
Lemma window_reach sys : In sys sel_systems -> sel_window sys = Some (reach sys).
Proof. intros H. cbn in H. repeat destruct H as [<-|H]; try reflexivity. destruct H. Qed.
Lemma gc_spec sys : (ceqb sys "G" || ceqb sys "C") = true <-> In sys (lit "GC").
Proof.
  unfold ceqb. rewrite orb_true_iff, !Ascii.eqb_eq. cbn. split; [intros [->| ->]; auto|intros [<-|[<-|[]]]; auto].
Qed.

(** the time passed on *)
Definition sel_arg (epoch : datetime) (sys : ascii) (mt : tod) (x : float) : Prop :=
  match epoch_start sys with
  | Some start => get_week_sec epoch start = Ok x
  | None => x = (if tod_eqb (dt_time epoch) mt then fzero else
                 fmul (float_of_Z (Z.abs (whole_sec (dt_time epoch) - whole_sec mt))) (float_of_Z (if (whole_sec mt <? whole_sec (dt_time epoch))%Z then 1 else -1)))
  end.

Lemma select_spec epoch sys num (message : list (ascii * option sys_message)) first (sats : sys_message) (msgs : sat_message) : valid_datetime epoch -> In sys sel_systems ->
  dict_get Ascii.eqb sys message = Some (Some sats) -> dict_get Z.eqb num sats = Some msgs -> msgs <> [] ->
  exists o, selected sys first (dt_time epoch) (map fst msgs) o /\
    match o with
    | Some t => exists e x, dict_get tod_eqb t msgs = Some e /\ select_navigation_message epoch sys num message first = Ok (Some (x, e)) /\ sel_arg epoch sys t x
    | None => select_navigation_message epoch sys num message first = Ok None
    end.
Proof.
  intros Ve Hs Hm Hn Hne. unfold select_navigation_message. change ceqb with Ascii.eqb in *. unfold sys_message, sat_message in *. rewrite Hm, Hn.
  assert (Hw : exists ws, (match epoch_start sys with Some start => do w <- get_week_sec epoch start; Ok (Some w) | None => Ok None end) = Ok ws /\
            match epoch_start sys with Some start => exists x, ws = Some x /\ get_week_sec epoch start = Ok x | None => ws = None end).
  { destruct (epoch_start sys) as [start|] eqn:Es; [|eauto].
    destruct (week_sec_some start epoch (starts_valid _ _ Es) Ve) as [x Ex]. rewrite Ex. cbn [bind]. eauto. }
  destruct Hw as [ws [-> Hws]]. cbn [bind].
  destruct (dict_get tod_eqb (dt_time epoch) msgs) as [e|] eqn:Ee.
  - exists (Some (dt_time epoch)). split; [apply sel_exact; eapply dict_get_in; exact Ee|]. rewrite Ee. eexists e, _. split; [reflexivity|]. split; [reflexivity|].
    unfold sel_arg. destruct (epoch_start sys) as [start|]; [destruct Hws as [x [-> Hx]]; exact Hx|subst ws]. now rewrite (proj2 (tod_eqb_eq _ _) eq_refl).
  - pose proof (dict_notin _ _ Ee) as Hnot. rewrite (window_reach sys Hs).
    destruct ((Ascii.eqb sys "G" || Ascii.eqb sys "C") && first) eqn:Eg.
    + apply andb_true_iff in Eg. destruct Eg as [Eg Ef]. apply gc_spec in Eg.
      destruct (sort_tod (map fst msgs)) as [|t ts] eqn:Et.
      { exfalso. destruct msgs as [|[k v] msgs]; [congruence|]. assert (In k (sort_tod (map fst ((k, v) :: msgs)))) by (apply sort_in; now left). rewrite Et in H. destruct H. }
      pose proof (sort_incr (map fst msgs)) as Hi. rewrite Et in Hi. inversion Hi as [|? ? Hmin _]; subst.
      assert (Hin : In t (map fst msgs)) by (apply sort_in; rewrite Et; now left).
      destruct (dict_in t msgs Hin) as [e He]. exists (Some t). split.
      * apply sel_first; [exact Hnot|exact Eg|reflexivity|]. split; [exact Hin|]. split; [exact I|]. intros t' Ht' _. rewrite !day_micros_num.
        apply sort_in in Ht'. rewrite Et in Ht'. destruct Ht' as [<-|Ht']; [lia|auto].
      * cbn [nth_error of_option bind]. rewrite He. cbn [of_option bind]. eexists e, _. split; [reflexivity|]. split; [reflexivity|].
        unfold sel_arg. cbn in Eg. destruct Eg as [<-|[<-|[]]]; cbn [epoch_start] in Hws |- *; destruct Hws as [x [-> Hx]]; exact Hx.
    + assert (Hng : ~ (In sys (lit "GC") /\ first = true)).
      { intros [H1 H2]. apply gc_spec in H1. change ceqb with Ascii.eqb in H1. rewrite H1, H2 in Eg. discriminate. }
      destruct (sel_loop_spec ws (reach sys) (whole_sec (dt_time epoch)) msgs (sort_tod (map fst msgs)) (sort_incr _)) as [[mt [e [H1 [H2 [H3 [H4 H5]]]]]]|[H1 H2]].
      { intros t. apply sort_in. }
      * exists (Some mt). split.
        -- apply sel_near; try assumption. split; [now apply sort_in|]. split; [unfold near_enough; rewrite !day_second_whole; exact H2|].
           intros t' Ht' Hn'. rewrite !day_micros_num. apply H3; [now apply sort_in|]. unfold near_enough in Hn'. rewrite !day_second_whole in Hn'. exact Hn'.
        -- eexists e, _. split; [exact H4|]. split; [now rewrite H5|]. unfold sel_arg.
           destruct (epoch_start sys) as [start|]; [destruct Hws as [x [-> Hx]]; exact Hx|subst ws].
           destruct (tod_eqb (dt_time epoch) mt) eqn:Et; [|reflexivity]. apply tod_eqb_eq in Et. rewrite Et in Ee. congruence.
      * exists None. split; [|now rewrite H2]. apply sel_none; try assumption. intros t Ht Hn'. unfold near_enough in Hn'. rewrite !day_second_whole in Hn'.
        specialize (H1 t (proj2 (sort_in _ _) Ht)). lia.
Qed.

Lemma select_missing epoch sys num (message : list (ascii * option sys_message)) first :
  (forall sats msgs, dict_get Ascii.eqb sys message = Some (Some sats) -> dict_get Z.eqb num sats = Some msgs -> False) ->
  select_navigation_message epoch sys num message first = Ok None.
Proof.
  intros H. unfold select_navigation_message. change ceqb with Ascii.eqb. destruct (dict_get Ascii.eqb sys message) as [[sats|]|]; try reflexivity.
  destruct (dict_get Z.eqb num sats) as [msgs|] eqn:E; [|reflexivity]. exfalso. eapply H; eauto.
Qed.

(** seconds for GLONASS and SBAS *)
Lemma tod_whole_bound epoch : valid_datetime epoch -> (0 <= whole_sec (dt_time epoch) < 86400)%Z.
Proof. intros [_ [H1 [H2 [H3 _]]]]. unfold whole_sec, dt_time. lia. Qed.
Lemma signed_seconds a b : (0 <= a < 86400)%Z -> (0 <= b < 86400)%Z ->
  f2r (fmul (float_of_Z (Z.abs (a - b))) (float_of_Z (if (b <? a)%Z then 1 else -1))) = IZR (a - b).
Proof.
  intros Ha Hb. destruct (float_of_Z_correct (Z.abs (a - b)) ltac:(lia)) as [G1 V1].
  set (s := if (b <? a)%Z then 1%Z else (-1)%Z). assert (Hs : Z.abs s = 1%Z) by (unfold s; destruct (b <? a)%Z; reflexivity).
  destruct (float_of_Z_correct s ltac:(lia)) as [G2 V2].
  assert (E : (IZR (Z.abs (a - b)) * IZR s = IZR (a - b))%R).
  { rewrite <- mult_IZR. f_equal. unfold s. destruct (b <? a)%Z eqn:X; lia. }
  destruct (fmul_correct _ _ G1 G2) as [G3 V3].
  { rewrite V1, V2, E. apply big_of. change (2 ^ 60)%Z with 1152921504606846976%Z. rewrite <- abs_IZR. apply IZR_le. lia. }
  rewrite V3, V1, V2, E. destruct (float_of_Z_correct (a - b) ltac:(lia)) as [[W1 W2] E4]. rewrite <- E4.
  destruct (good_B _ (conj W1 W2)) as [bb [<- _]]. rewrite Flocq.IEEE754.BinarySingleNaN.SF2R_B2SF. apply Generic_fmt.round_generic; [typeclasses eauto|].
  apply Flocq.IEEE754.BinarySingleNaN.generic_format_B2R.
Qed.

(** files *)
Lemma is_prefix_spec p s : is_prefix p s = true <-> exists b, s = p ++ b.
Proof.
  revert s. induction p as [|c p IH]; intros s; cbn; [split; [eauto|reflexivity]|].
  destruct s as [|d s]; [split; [discriminate|intros [b H]; discriminate]|].
  rewrite andb_true_iff, IH. unfold ceqb. rewrite Ascii.eqb_eq. split; [intros [-> [b ->]]; eauto|intros [b H]; injection H as <- ->; eauto].
Qed.
Lemma contains_spec p s : contains p s = true <-> exists a b, s = a ++ p ++ b.
Proof.
  induction s as [|c s IH]; cbn [contains].
  - rewrite orb_false_r, is_prefix_spec. split; [intros [b H]; exists [], b; exact H|intros [a [b H]]; destruct a; [eauto|discriminate]].
  - rewrite orb_true_iff, is_prefix_spec, IH. split.
    + intros [[b H]|[a [b H]]]; [exists [], b; exact H|exists (c :: a), b; cbn; now rewrite H].
    + intros [a [b H]]. destruct a as [|d a]; [left; eauto|right]. cbn in H. injection H as <- H. eauto.
Qed.
Lemma search_spec q f : search_ci q f = true <-> occurs q f.
Proof. apply contains_spec. Qed.
Lemma find_first (P : str -> bool) l f : find P l = Some f -> exists a b, l = a ++ f :: b /\ P f = true /\ forall x, In x a -> P x = false.
Proof.
  induction l as [|x l IH]; cbn; [discriminate|]. destruct (P x) eqn:E.
  - intros H. injection H as <-. exists [], l. split; [reflexivity|]. split; [exact E|intros z []].
  - intros H. destruct (IH H) as [a [b [-> [H1 H2]]]]. exists (x :: a), b. split; [reflexivity|]. split; [exact H1|]. intros y [<-|Hy]; auto.
Qed.
Lemma prior_ok files priority : files <> [] -> exists f, get_prior_file files priority = Some f /\ preferred occurs files priority f.
Proof.
  intros Hne. assert (E : get_prior_file files priority = prior_query files priority) by (destruct files; [congruence|reflexivity]). rewrite E. clear E.
  induction priority as [|q r [f [E P]]]; cbn [prior_query].
  - destruct files as [|f fs]; [congruence|]. exists f. split; [reflexivity|]. now apply (pf_first _ _ f fs).
  - destruct (find (search_ci q) files) as [g|] eqn:Ef.
    + exists g. split; [reflexivity|]. destruct (find_first _ _ _ Ef) as [a [b [-> [H1 H2]]]]. constructor. exists a, b.
      split; [reflexivity|]. split; [now apply search_spec|]. intros x Hx Ho. apply search_spec in Ho. rewrite (H2 x Hx) in Ho. discriminate.
    + exists f. split; [exact E|]. apply pf_next; [|exact P]. intros x Hx Ho. apply search_spec in Ho. rewrite (find_none _ _ Ef x Hx) in Ho. discriminate.
Qed.
Lemma preferred_ext (h1 h2 : str -> str -> Prop) files priority f :
  (forall q x, In q priority -> In x files -> (h1 q x <-> h2 q x)) -> preferred h1 files priority f -> preferred h2 files priority f.
Proof.
  intros H P. induction P as [q r f [a [b [E [H1 H2]]]]|q r f Hn P IH|f r E].
  - constructor. exists a, b. split; [exact E|]. split.
    + apply H; [now left| |exact H1]. rewrite E. apply in_or_app. right. now left.
    + intros x Hx Hh. apply (H2 x Hx). apply H; [now left| |exact Hh]. rewrite E. apply in_or_app. now left.
  - apply pf_next; [|apply IH; intros q' x Hq; apply H; now right]. intros x Hx Hh. apply (Hn x Hx). apply H; [now left|exact Hx|exact Hh].
  - now apply (pf_first _ _ f r).
Qed.
Lemma preferred_in has files priority f : preferred has files priority f -> In f files.
Proof.
  induction 1 as [q r f [a [b [-> _]]]|q r f _ _ IH|f r ->]; [apply in_or_app; right; now left|exact IH|now left].
Qed.
Lemma prior_site files priority : files <> [] -> (forall q x, In q priority -> In x files -> (occurs q x <-> has_code q x)) ->
  exists f, get_prior_file files priority = Some f /\ preferred has_code files priority f.
Proof. intros Hne H. destruct (prior_ok files priority Hne) as [f [E P]]. exists f. split; [exact E|]. eapply preferred_ext; eauto. Qed.

(** loading *)
Lemma load_ok ls content paths epoch sys priority f m : load_navigation_message ls content paths epoch sys priority = Ok (f, m) ->
  let own := find_nav_files ls paths epoch sys in
  let files := match own with [] => find_nav_files ls paths epoch "M"%char | _ => own end in
  files <> [] /\ preferred occurs files priority f /\ (exists lines, content f = Ok lines /\ nav_file f lines = Ok m) /\ exists d, dict_get Ascii.eqb sys m = Some d.
Proof.
  intros H own files. unfold load_navigation_message in H. fold own in H. fold files in H.
  destruct (match priority with [] => hd_error files | _ => get_prior_file files priority end) as [g|] eqn:Ef; [|discriminate]. cbn [of_option bind] in H.
  destruct (content g) as [lines|] eqn:Ec; [|discriminate]. cbn [bind] in H.
  destruct (nav_file g lines) as [m'|] eqn:En; [|discriminate]. cbn [bind] in H. change ceqb with Ascii.eqb in H.
  destruct (dict_get Ascii.eqb sys m') as [d|] eqn:Ed; [|discriminate]. injection H as -> ->.
  assert (Hne : files <> []) by (intros X; rewrite X in Ef; destruct priority; discriminate).
  split; [exact Hne|]. split; [|eauto]. destruct priority as [|q r].
  - destruct files as [|x xs]; [congruence|]. injection Ef as ->. now apply (pf_first _ _ f xs).
  - destruct (prior_ok files (q :: r) Hne) as [g [E P]]. rewrite E in Ef. injection Ef as ->. exact P.
Qed.
Lemma load_none ls content paths epoch sys priority : find_nav_files ls paths epoch sys = [] -> find_nav_files ls paths epoch "M"%char = [] ->
  load_navigation_message ls content paths epoch sys priority = Err NMError.
Proof. intros H1 H2. unfold load_navigation_message. rewrite H1, H2. destruct priority; reflexivity. Qed.

(** property lemmas *)
Lemma selection epoch sys num (message : list (ascii * option sys_message)) first (sats : sys_message) (msgs : sat_message) :
  valid_datetime epoch -> In sys (lit "GCERS") ->
  dict_get Ascii.eqb sys message = Some (Some sats) -> dict_get Z.eqb num sats = Some msgs -> msgs <> [] ->
  exists o, selected sys first (dt_time epoch) (map fst msgs) o /\
    match o with
    | Some t => exists e x, dict_get tod_eqb t msgs = Some e /\ select_navigation_message epoch sys num message first = Ok (Some (x, e))
    | None => select_navigation_message epoch sys num message first = Ok None
    end.
Proof.
  intros H1 H2 H3 H4 H5. destruct (select_spec epoch sys num message first sats msgs H1 H2 H3 H4 H5) as [o [Ho H]]. exists o. split; [exact Ho|].
  destruct o as [t|]; [|exact H]. destruct H as [e [x [E1 [E2 _]]]]. eauto.
Qed.
Lemma selection_seconds epoch sys num (message : list (ascii * option sys_message)) first (sats : sys_message) (msgs : sat_message) :
  valid_datetime epoch -> In sys (lit "RS") -> (forall t, In t (map fst msgs) -> (0 <= day_second t < 86400)%Z) ->
  dict_get Ascii.eqb sys message = Some (Some sats) -> dict_get Z.eqb num sats = Some msgs ->
  forall x e, select_navigation_message epoch sys num message first = Ok (Some (x, e)) ->
  exists t, selected sys first (dt_time epoch) (map fst msgs) (Some t) /\ dict_get tod_eqb t msgs = Some e /\
    f2r x = IZR (day_second (dt_time epoch) - day_second t).
Proof.
  intros Ve Hs Ht Hm Hn x e H.
  assert (Hs' : In sys sel_systems) by (cbn in Hs; cbn; tauto).
  assert (Hst : epoch_start sys = None) by (cbn in Hs; destruct Hs as [<-|[<-|[]]]; reflexivity).
  destruct msgs as [|m0 msgs0] eqn:Em.
  { exfalso. unfold select_navigation_message in H. change ceqb with Ascii.eqb in H. unfold sys_message, sat_message in *. rewrite Hm, Hn, Hst in H. cbn [bind dict_get] in H.
    rewrite (window_reach sys Hs') in H. destruct (_ && _); cbn in H; discriminate. }
  rewrite <- Em in *. assert (Hne : msgs <> []) by (rewrite Em; discriminate).
  destruct (select_spec epoch sys num message first sats msgs Ve Hs' Hm Hn Hne) as [o [Ho Hsel]].
  destruct o as [t|]; [|rewrite H in Hsel; discriminate]. destruct Hsel as [e' [x' [E1 [E2 E3]]]]. rewrite H in E2. injection E2 as <- <-.
  exists t. split; [exact Ho|]. split; [exact E1|]. unfold sel_arg in E3. rewrite Hst in E3. subst x.
  destruct (tod_eqb (dt_time epoch) t) eqn:Et.
  - apply tod_eqb_eq in Et. rewrite Et, Z.sub_diag. reflexivity.
  - rewrite !day_second_whole. apply signed_seconds; [now apply tod_whole_bound|]. rewrite <- day_second_whole. apply Ht. eapply dict_get_in. exact E1.
Qed.

Lemma select_week epoch sys num message first x e start : epoch_start sys = Some start ->
  select_navigation_message epoch sys num message first = Ok (Some (x, e)) -> get_week_sec epoch start = Ok x.
Proof.
  intros Hst H. unfold select_navigation_message in H. destruct (dict_get ceqb sys message) as [[sats|]|]; try discriminate.
  destruct (dict_get Z.eqb num sats) as [msgs|]; [|discriminate]. rewrite Hst in H.
  destruct (get_week_sec epoch start) as [w|] eqn:Ew; [|discriminate]. cbn [bind] in H.
  destruct (dict_get tod_eqb (dt_time epoch) msgs); [injection H as <- _; reflexivity|].
  destruct (sel_window sys) as [win|]; [|discriminate].
  destruct (_ && first).
  - destruct (nth_error _ 0) as [mt|]; [|discriminate]. cbn [of_option bind] in H. destruct (dict_get tod_eqb mt msgs); [|discriminate].
    cbn [of_option bind] in H. now injection H as <- _.
  - injection H as H. revert H. generalize (sort_tod (map fst msgs)). intros l. induction l as [|mt l IH]; cbn; [discriminate|].
    destruct (_ <=? win)%Z; [|exact IH]. destruct (dict_get tod_eqb mt msgs); [|discriminate]. intros H. now injection H as <- _.
Qed.
Lemma week_start_valid : valid_datetime week_start.
Proof. repeat split; vm_compute; discriminate. Qed.
Lemma gps_week epoch num message first x e : valid_datetime epoch -> (instant week_start <= instant epoch)%Z ->
  select_navigation_message epoch "G"%char num message first = Ok (Some (x, e)) ->
  (Rabs (f2r x - IZR (seconds_of_week epoch)) <= 1 / 50000)%R.
Proof.
  intros Ve Hle H. apply (select_week _ _ _ _ _ _ _ week_start) in H; [|reflexivity].
  destruct (week_sec_near week_start epoch week_start_valid Ve Hle) as [y [E [_ B]]]. rewrite E in H. injection H as <-. exact B.
Qed.
Definition bds_start : datetime := mkDT 2006 1 1 0 0 0 0.
Definition gal_start : datetime := mkDT 1999 8 22 0 0 13 0.
Lemma bds_week epoch num message first x e : valid_datetime epoch -> (instant bds_start <= instant epoch)%Z ->
  select_navigation_message epoch "C"%char num message first = Ok (Some (x, e)) ->
  (Rabs (f2r x - IZR (seconds_of_week epoch)) <= 1 / 50000)%R.
Proof.
  intros Ve Hle H. apply (select_week _ _ _ _ _ _ _ bds_start) in H; [|reflexivity].
  assert (Vb : valid_datetime bds_start) by (repeat split; vm_compute; discriminate).
  destruct (week_sec_near bds_start epoch Vb Ve Hle) as [y [E [_ B]]]. rewrite E in H. injection H as <-.
  replace (seconds_of_week epoch) with (((instant epoch - instant bds_start) / 1000000) mod 604800)%Z; [exact B|].
  unfold seconds_of_week. replace (instant epoch - instant week_start)%Z with ((instant epoch - instant bds_start) + (1356 * 604800) * 1000000)%Z.
  - rewrite Z.div_add by lia. now rewrite Z.mod_add by lia.
  - assert (X : (instant bds_start - instant week_start = 1356 * 604800 * 1000000)%Z) by (vm_compute; reflexivity). revert X. generalize (instant bds_start) (instant gal_start) (instant week_start) (instant epoch). clear. intros. lia.
Qed.
Lemma gal_week epoch num message first x e : valid_datetime epoch -> (instant gal_start <= instant epoch)%Z ->
  select_navigation_message epoch "E"%char num message first = Ok (Some (x, e)) ->
  (Rabs (f2r x - IZR ((seconds_of_week epoch - 13) mod 604800)) <= 1 / 50000)%R.
Proof.
  intros Ve Hle H. apply (select_week _ _ _ _ _ _ _ gal_start) in H; [|reflexivity].
  assert (Vb : valid_datetime gal_start) by (repeat split; vm_compute; discriminate).
  destruct (week_sec_near gal_start epoch Vb Ve Hle) as [y [E [_ B]]]. rewrite E in H. injection H as <-.
  replace ((seconds_of_week epoch - 13) mod 604800)%Z with (((instant epoch - instant gal_start) / 1000000) mod 604800)%Z; [exact B|].
  unfold seconds_of_week. rewrite Zminus_mod_idemp_l.
  replace (instant epoch - instant week_start)%Z with ((instant epoch - instant gal_start) + (1024 * 604800 + 13) * 1000000)%Z.
  - rewrite Z.div_add by lia. replace ((instant epoch - instant gal_start) / 1000000 + (1024 * 604800 + 13) - 13)%Z with ((instant epoch - instant gal_start) / 1000000 + 1024 * 604800)%Z by ring.
    now rewrite Z.mod_add by lia.
  - assert (X : (instant gal_start - instant week_start = (1024 * 604800 + 13) * 1000000)%Z) by (vm_compute; reflexivity). revert X. generalize (instant bds_start) (instant gal_start) (instant week_start) (instant epoch). clear. intros. lia.
Qed.

(** witnesses *)
Definition ex_epoch : datetime := mkDT 2017 1 4 12 0 30 0.
Definition ex_sats (e : list float) : sys_message := [(7%Z, [((14, 0, 0, 0)%Z, [fzero]); ((11, 0, 0, 0)%Z, e)])].
Lemma gal_refuted : exists epoch message x e, valid_datetime epoch /\ (instant week_start <= instant epoch)%Z /\
  select_navigation_message epoch "E"%char 7 message true = Ok (Some (x, e)) /\ (Rabs (f2r x - IZR (seconds_of_week epoch)) > 12)%R.
Proof.
  destruct (select_navigation_message ex_epoch "E"%char 7 [("E"%char, Some (ex_sats [fzero]))] true) as [[[x e]|]|] eqn:E.
  - exists ex_epoch, [("E"%char, Some (ex_sats [fzero]))], x, e.
    assert (V : valid_datetime ex_epoch) by (repeat split; vm_compute; discriminate).
    split; [exact V|]. split; [vm_compute; discriminate|]. split; [exact E|].
    pose proof (gal_week _ _ _ _ _ _ V ltac:(vm_compute; discriminate) E) as H. assert (S : seconds_of_week ex_epoch = 302430%Z) by (vm_compute; reflexivity).
    rewrite S in *. change ((302430 - 13) mod 604800)%Z with 302417%Z in H. apply Rabs_le_inv in H. rewrite Rabs_left; lra.
  - exfalso. vm_compute in E. discriminate.
  - exfalso. vm_compute in E. discriminate.
Qed.
Lemma C21_ex : selected "E" true (12, 0, 30, 0)%Z (map fst [((14, 0, 0, 0)%Z, [fzero]); ((11, 0, 0, 0)%Z, [fzero])]) (Some (11, 0, 0, 0)%Z).
Proof.
  apply sel_near.
  - cbn. intros [H|[H|[]]]; discriminate.
  - cbn. intros [[H|[H|[]]] _]; discriminate.
  - split; [cbn; auto|]. split; [vm_compute; discriminate|]. cbn. intros t [<-|[<-|[]]] _; vm_compute; discriminate.
Qed.
Lemma site_refuted : exists files priority f g, get_prior_file files priority = Some f /\ preferred has_code files priority g /\ f <> g.
Proof.
  exists [lit "/brdc/abcd0010.17n"; lit "/brdc/brdc0010.17n"], [lit "brdc"], (lit "/brdc/abcd0010.17n"), (lit "/brdc/brdc0010.17n").
  split; [reflexivity|]. split; [|discriminate]. constructor. exists [lit "/brdc/abcd0010.17n"], []. split; [reflexivity|].
  split; [split; reflexivity|]. intros x [<-|[]] [_ H]. vm_compute in H. discriminate.
Qed.
Lemma site_ex : exists f, get_prior_file [lit "/nav/abcd0010.17n"; lit "/nav/BRDC0010.17n"] [lit "iisc"; lit "brdc"] = Some f /\
  preferred has_code [lit "/nav/abcd0010.17n"; lit "/nav/BRDC0010.17n"] [lit "iisc"; lit "brdc"] f.
Proof.
  apply prior_site; [discriminate|]. intros q x Hq Hx. rewrite <- search_spec. unfold has_code.
  cbn in Hq, Hx. destruct Hq as [<-|[<-|[]]]; destruct Hx as [<-|[<-|[]]]; (split; [intros H; vm_compute in H; try discriminate H; split; reflexivity|intros [_ H]; vm_compute in H; try discriminate H; reflexivity]).
Qed.
