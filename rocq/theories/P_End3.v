(** End to end, part 3: the records of a well-formed observation file. *)
From Coq Require Import Reals Lra.
From Verif Require Import Base PyStr PyFloat PyDate S_Text S_Time S_Obs2 S_Open2 S_Obs3 S_Label S_Rec S_Tec M_Common M_Header M_Obs2 M_Obs3 M_Label M_Num M_Tec M_Rec M_Text M_Cfg M_Names M_Nav M_Main S_Main S_End.
From Verif Require Import P_Str P_Float P_Open2 P_Open2b P_View2 P_Prop2 P_Obs3d P_Obs3e P_Obs3f P_Label.
Open Scope nat_scope.

Lemma delivered_in types prec pos bs out : delivered types prec pos bs out -> forall r p, In (r, p) out ->
  exists ep fl sats fs, In (BData ep fl sats) bs /\ In (snd (fst r), fs) sats /\ fst (fst r) = ep /\ sat_record types fs (snd r).
Proof.
  induction 1 as [prec pos|ep fl sats bs pos out H IH|ep fl sats bs prec pos rs out Hp He H IH|fl ls np bs prec pos pos' out Hn H IH]; intros r p Hin.
  - contradiction.
  - destruct (IH r p Hin) as [ep' [fl' [sats' [fs [H1 H2]]]]]. exists ep', fl', sats', fs. split; [now right|exact H2].
  - apply in_app_or in Hin. destruct Hin as [Hin|Hin].
    + apply in_map_iff in Hin. destruct Hin as [r' [E Hin]]. injection E as -> <-. 
      assert (G : exists s, In s sats /\ fst (fst r) = ep /\ snd (fst r) = fst s /\ sat_record types (snd s) (snd r)).
      { clear -He Hin. induction He as [|s x sats rs Hs He IH]; [contradiction|]. destruct Hin as [->|Hin]; [exists s; split; [now left|exact Hs]|].
        destruct (IH Hin) as [s' [H1 H2]]. exists s'. split; [now right|exact H2]. }
      destruct G as [s [H1 [H2 [H3 H4]]]]. exists ep, fl, sats, (snd s). split; [now left|]. split; [rewrite H3; now destruct s|]. split; [exact H2|exact H4].
    + destruct (IH r p Hin) as [ep' [fl' [sats' [fs [H1 H2]]]]]. exists ep', fl', sats', fs. split; [now right|exact H2].
  - destruct (IH r p Hin) as [ep' [fl' [sats' [fs [H1 H2]]]]]. exists ep', fl', sats', fs. split; [now right|exact H2].
Qed.
Lemma delivered3_in table bs out : delivered3 table bs out -> forall r, In r out ->
  exists ep fl sats fs types, In (B3Data ep fl sats) bs /\ In (snd (fst r), fs) sats /\ fst (fst r) = Some ep /\ types_of table (snd (fst r)) types /\ sat_record3 types fs (snd r).
Proof.
  induction 1 as [|ep fl sats bs rs out He H IH|fl ls np bs out H IH]; intros r Hin.
  - contradiction.
  - apply in_app_or in Hin. destruct Hin as [Hin|Hin].
    + assert (G : exists s, In s sats /\ fst (fst r) = Some ep /\ snd (fst r) = fst s /\ exists types, types_of table (fst s) types /\ sat_record3 types (snd s) (snd r)).
      { clear -He Hin. induction He as [|s x sats rs Hs He IH]; [contradiction|]. destruct Hin as [->|Hin]; [exists s; split; [now left|exact Hs]|].
        destruct (IH Hin) as [s' [H1 H2]]. exists s'. split; [now right|exact H2]. }
      destruct G as [s [H1 [H2 [H3 [types [H4 H5]]]]]]. exists ep, fl, sats, (snd s), types. split; [now left|]. split; [rewrite H3; now destruct s|]. split; [exact H2|]. rewrite H3. split; [exact H4|exact H5].
    + destruct (IH r Hin) as [ep' [fl' [sats' [fs [types [H1 H2]]]]]]. exists ep', fl', sats', fs, types. split; [now right|exact H2].
  - destruct (IH r Hin) as [ep' [fl' [sats' [fs [types [H1 H2]]]]]]. exists ep', fl', sats', fs, types. split; [now right|exact H2].
Qed.
Lemma forall2_impl {A B} (P Q : A -> B -> Prop) a b : (forall x y, P x y -> Q x y) -> Forall2 P a b -> Forall2 Q a b.
Proof. intros H F. induction F; constructor; auto. Qed.
(** the value of a field, in either version *)
Definition stands (x : field) (v : obsval) : Prop := field_value x v \/ field_value3 x v.
Definition record_of (vals : list (str * field)) (rec : record) : Prop :=
  Forall2 (fun a b => fst a = fst b /\ stands (snd a) (snd b)) vals rec.
Lemma nodup_combine {A B} (a : list A) (b : list B) : NoDup a -> NoDup (map fst (combine a b)).
Proof.
  intros H. revert b. induction H as [|x a Hx H IH]; intros [|y b]; cbn; try constructor; [|apply IH].
  intros Hin. apply Hx. apply in_map_iff in Hin. destruct Hin as [[p q] [E Hin]]. cbn in E. subst p. exact (in_combine_l _ _ _ _ Hin).
Qed.
Lemma types_nodup T name types : distinct_types T -> types_of T name types -> NoDup types.
Proof. intros H [c [r [-> Hin]]]. exact (H _ _ Hin). Qed.
Lemma stated_steps w name P b : well_formed w name P -> open_obs w name = Ok b -> forall s, In s (b_steps b) ->
  exists ep vals, s_epoch s = Some ep /\ P ep (s_sat s) vals /\ NoDup (map fst vals) /\ record_of vals (s_rec s).
Proof.
  intros Hw Ho s Hin. destruct Hw as [file v header body types blocks Hf Hv Hlt Hp Ht Hn Hb Hf1|file v header body sel table blocks Hf Hv Hlt Hp Hl Ht Hn Hd Hb];
    unfold open_obs in Ho; destruct (expand_plan name) as [x|]; try discriminate Ho; cbn [bind] in Ho; rewrite Hf in Ho; cbn [bind] in Ho; rewrite Hv in Ho; cbn [bind] in Ho; rewrite Hlt in Ho.
  - destruct (open2 v file) as [r|] eqn:Eo; [|discriminate Ho]. cbn [bind] in Ho.
    pose proof (declared_types v header body file types r Hp Ht Eo) as Et.
    destruct (open2_delivers v header body file r blocks Hp Eo) as [ys [o' [Er Hdel]]]; [now rewrite Et|now rewrite Et|exact Hf1|]. rewrite Er in Ho.
    apply Ok_inj in Ho. subst b. cbn [b_steps] in Hin. apply in_map_iff in Hin. destruct Hin as [y [<- Hy]].
    assert (Hy' : In (with_pos y) (map with_pos ys)) by (apply in_map; exact Hy). destruct y as [[[ep sat] rec] o]. 
    destruct (delivered_in _ _ _ _ _ Hdel _ _ Hy') as [ep' [fl [sats [fs [H1 [H2 [H3 H4]]]]]]]. cbn [fst snd] in *. subst ep'. rewrite Et in *.
    exists ep, (combine types fs). cbn [step2 s_epoch s_sat s_rec]. split; [reflexivity|]. split; [exists fl, sats, fs; auto|]. split; [now apply nodup_combine|].
    unfold record_of. eapply forall2_impl; [|exact H4]. intros p q [E1 E2]. split; [exact E1|now left].
  - destruct (open3 (w_fuel w) v file) as [r|] eqn:Eo; [|discriminate Ho]. cbn [bind] in Ho.
    destruct (open3_delivers (w_fuel w) v header body file sel table r blocks Hp Hl Ht Hn Hd Eo Hb) as [ys [o' [Er Hdel]]]. rewrite Er in Ho.
    apply Ok_inj in Ho. subst b. cbn [b_steps] in Hin. apply in_map_iff in Hin. destruct Hin as [y [<- Hy]].
    assert (Hy' : In (fst y) (map fst ys)) by (apply in_map; exact Hy). destruct y as [[[ep sat] rec] o].
    destruct (delivered3_in _ _ _ Hdel _ Hy') as [ep' [fl [sats [fs [types [H1 [H2 [H3 [H4 H5]]]]]]]]]. cbn [fst snd] in *. subst ep.
    exists ep', (combine types fs). cbn [step3 s_epoch s_sat s_rec]. split; [reflexivity|]. split; [exists fl, sats, fs, types; auto|]. split; [apply nodup_combine; exact (types_nodup _ _ _ Hd H4)|].
    unfold record_of. eapply forall2_impl; [|exact H5]. intros p q [E1 E2]. split; [exact E1|now right].
Qed.

Lemma record_keys vals rec : record_of vals rec -> map fst rec = map fst vals.
Proof. intros H. induction H as [|a b l l' [E _] H IH]; [reflexivity|]. cbn. now rewrite E, IH. Qed.
Lemma record_in vals rec k x : record_of vals rec -> In (k, x) vals -> exists v, In (k, v) rec /\ stands x v.
Proof.
  intros H. induction H as [|[k1 x1] [k2 v2] l l' [E Hs] H IH]; intros Hin; [contradiction|]. cbn [fst snd] in *. destruct Hin as [Hin|Hin].
  - injection Hin as -> ->. exists v2. split; [left; congruence|exact Hs].
  - destruct (IH Hin) as [v [H1 H2]]. exists v. split; [now right|exact H2].
Qed.
Lemma key_in {B} k (l : list (str * B)) : In k (map fst l) -> exists x, In (k, x) l.
Proof. intros H. apply in_map_iff in H. destruct H as [[p x] [E H]]. cbn in E. subst p. now exists x. Qed.
Lemma datum_observable vals rec cl x : NoDup (map fst vals) -> record_of vals rec -> In cl obs_type_labels -> observable vals cl x ->
  exists v, stands x v /\ ds_get (parse_rec rec) cl = datum_of v.
Proof.
  intros Hn Hr Hc [k [H1 [H2 H3]]]. destruct (record_in vals rec k x Hr H1) as [v [Hv Hs]]. exists v. split; [exact Hs|]. unfold ds_get.
  rewrite (parse_rec_first rec cl k v); [reflexivity|rewrite (record_keys _ _ Hr); exact Hn|exact Hc| |exact Hv].
  split; [apply in_map_iff; exists (k, v); auto|]. split; [exact H2|]. intros k' Hk'. rewrite (record_keys _ _ Hr) in Hk'. destruct (key_in _ _ Hk') as [y Hy]. exact (H3 k' y Hy).
Qed.
Lemma datum_none vals rec cl : record_of vals rec -> In cl obs_type_labels -> (forall k x, In (k, x) vals -> ~ In k cl) -> ds_get (parse_rec rec) cl = no_datum.
Proof.
  intros Hr Hc H. unfold ds_get. rewrite (parse_rec_none rec cl Hc); [reflexivity|]. intros k Hk. rewrite (record_keys _ _ Hr) in Hk. destruct (key_in _ _ Hk) as [x Hx]. exact (H k x Hx).
Qed.
Lemma datum_decimal vals rec cl x d lli : NoDup (map fst vals) -> record_of vals rec -> In cl obs_type_labels -> observable vals cl x -> decimal x d lli ->
  exists f ss, nearest64 f d /\ ds_get (parse_rec rec) cl = (Some f, Some lli, Some ss).
Proof.
  intros Hn Hr Hc Ho [neg [m [ss [-> ->]]]]. destruct (datum_observable vals rec cl _ Hn Hr Hc Ho) as [v [Hs Hd]].
  destruct Hs as [Hs|Hs]; inversion Hs; subst; exists f, ss; (split; [assumption|rewrite Hd; reflexivity]).
Qed.
Lemma zero_near f : nearest64 f 0 -> exists s, f = S754_zero s.
Proof.
  intros [V [F E]]. rewrite Generic_fmt.round_0 in E by typeclasses eauto. destruct f as [s|s| |s a e]; try discriminate F; [now exists s|]. exfalso.
  cbn in E. apply Float_prop.eq_0_F2R in E. cbn in E. destruct s; discriminate E.
Qed.
Lemma datum_absent vals rec cl : NoDup (map fst vals) -> record_of vals rec -> In cl obs_type_labels -> absent vals cl ->
  missing_f (fst (fst (ds_get (parse_rec rec) cl))).
Proof.
  intros Hn Hr Hc [H|[H|[x [lli [H Hd]]]]].
  - rewrite (datum_none vals rec cl Hr Hc H). now left.
  - destruct (datum_observable vals rec cl _ Hn Hr Hc H) as [v [Hs ->]]. destruct Hs as [Hs|Hs]; inversion Hs; subst; [now left|]. right. now exists false.
  - destruct (datum_decimal vals rec cl x 0 lli Hn Hr Hc H Hd) as [f [ss [Hf ->]]]. cbn. destruct (zero_near f Hf) as [s ->]. right. now exists s.
Qed.
