(** Proofs about opening a RINEX 2 observation file. *)
From Coq Require Import ZifyBool ZifyNat Reals Lra.
From Flocq Require Import Core.Core IEEE754.BinarySingleNaN.
From Verif Require Import Base PyStr PyFloat PyDate M_Common M_Header M_Obs2.
From Verif Require Import S_Text S_Time S_Obs2 S_Open2 P_Str P_Float P_Sec P_Date P_Common P_Obs2 P_Obs2b P_Obs2c.
Open Scope nat_scope.

(** ** substrings *)
Lemma is_prefix_spec p : forall s, is_prefix p s = true <-> exists b, s = p ++ b.
Proof.
  induction p as [|x p IH]; intros s; cbn [is_prefix app].
  - split; [intros _; now exists s|reflexivity].
  - destruct s as [|y s]; [split; [discriminate|intros [b H]; discriminate]|].
    rewrite andb_true_iff, ceqb_eq, IH. split.
    + intros [-> [b ->]]. now exists b.
    + intros [b H]. inversion H; subst. split; [reflexivity|now exists b].
Qed.
Lemma contains_spec p s : contains p s = true <-> occurs p s.
Proof.
  unfold occurs. induction s as [|c s IH]; cbn [contains]; rewrite orb_true_iff, is_prefix_spec.
  - split; [intros [[b H]|H]; [exists [], b; exact H|discriminate]|].
    intros [a [b H]]. symmetry in H. apply app_eq_nil in H. destruct H as [_ H]. left. now exists b.
  - rewrite IH. split.
    + intros [[b ->]|[a [b ->]]]; [now exists [], b|exists (c :: a), b; reflexivity].
    + intros [[|a0 a] [b H]]; cbn in H; [left; now exists b|]. inversion H; subst. right. now exists a, b.
Qed.
Lemma contains_false p s : contains p s = false <-> ~ occurs p s.
Proof. rewrite <- contains_spec. destruct (contains p s); split; intros; try congruence; tauto. Qed.
Lemma has_label_occurs lab l : has_label lab l -> occurs lab l.
Proof. intros [cols [w [_ [-> _]]]]. now exists cols, w. Qed.

Lemma split_header_parts is_end header eoh body : Forall (fun l => is_end l = false) header -> is_end eoh = true ->
  split_header is_end (header ++ eoh :: body) = (header, body).
Proof.
  induction 1 as [|l hs Hl Hh IH]; intros He; cbn [app split_header]; [now rewrite He|].
  rewrite Hl, IH by exact He. reflexivity.
Qed.
Lemma file_parts_split header body file : file_parts header body file ->
  split_header is_end_regex file = (header, body) /\ snd (split_header is_end_label file) = body.
Proof.
  intros [eoh [-> [Hh He]]]. split.
  - apply split_header_parts.
    + eapply Forall_impl; [|exact Hh]. intros l Hl. now apply contains_false.
    + apply contains_spec. now apply has_label_occurs.
  - rewrite split_header_parts with (header := header); [reflexivity| |].
    + eapply Forall_impl; [|exact Hh]. intros l Hl. unfold is_end_label. apply seqb_neq. intros E. apply Hl.
      apply has_label_occurs. apply label_has; [discriminate|exact E].
    + apply seqb_eq. apply has_label_label; [reflexivity|exact He].
Qed.

(** ** deltas *)
Definition yep (y : orec * obj2) : datetime := fst (fst (fst y)).

Lemma total_seconds_nearest us : (Z.abs us <= 2 ^ 1000)%Z -> seconds us (total_seconds us).
Proof. intros H. unfold seconds, total_seconds. apply (b64_of_dec_nearest (us <? 0)%Z (Z.abs us) 6). split; [lia|exact H]. Qed.

Lemma dt_sub_instant a b : valid_datetime a -> valid_datetime b -> dt_sub a b = (instant a - instant b)%Z.
Proof. intros Ha Hb. unfold dt_sub. now rewrite !instant_eq. Qed.

Lemma collect_spec ys ge oend : Forall (fun y => valid_datetime (yep y)) ys -> forall n e, 1 <= n -> valid_datetime e ->
  let D := diffs e (map yep ys) in
  if n <=? length D then exists o', collect_deltas n (Some e) ys ge oend = Ok (map total_seconds (firstn n D), o')
  else collect_deltas n (Some e) ys ge oend = match ge with GStop => Ok (map total_seconds D, oend) | GRaise x => Err x end.
Proof.
  induction 1 as [|y ys Hy Hys IH]; intros n e Hn He D; subst D; cbn [map diffs].
  - cbn [length]. replace (n <=? 0) with false by lia. reflexivity.
  - destruct y as [[[ep prn] rec] o]. cbn [yep fst] in *. cbn [collect_deltas].
    rewrite dt_sub_instant by assumption.
    destruct (dt_eqb e ep) eqn:E1.
    + apply dt_eqb_eq in E1. subst ep. rewrite Z.sub_diag. cbn [Z.eqb app]. apply IH; assumption.
    + destruct (instant ep - instant e =? 0)%Z eqn:E2.
      * exfalso. assert (e = ep) by (apply instant_inj; [assumption|assumption|lia]). subst ep.
        rewrite (proj2 (dt_eqb_eq e e) eq_refl) in E1. discriminate.
      * cbn [app length]. destruct n as [|[|n]]; [lia| |].
        -- replace (1 <=? S _) with true by lia. eexists. reflexivity.
        -- specialize (IH (S n) ep ltac:(lia) Hy). cbn zeta in IH.
           change (S (S n) <=? S (length (diffs ep (map yep ys)))) with (S n <=? length (diffs ep (map yep ys))).
           destruct (S n <=? length (diffs ep (map yep ys))).
           ++ destruct IH as [o' IH]. rewrite IH. cbn [bind]. exists o'. reflexivity.
           ++ rewrite IH. destruct ge; reflexivity.
Qed.
Lemma collect_spec0 ys ge oend n : Forall (fun y => valid_datetime (yep y)) ys -> 1 <= n ->
  let D := epoch_diffs (map yep ys) in
  if n <=? length D then exists o', collect_deltas n None ys ge oend = Ok (map total_seconds (firstn n D), o')
  else collect_deltas n None ys ge oend = match ge with GStop => Ok (map total_seconds D, oend) | GRaise x => Err x end.
Proof.
  intros H Hn D. subst D. destruct H as [|y ys Hy Hys].
  - cbn. replace (n <=? 0) with false by lia. reflexivity.
  - destruct y as [[[ep prn] rec] o]. cbn [map yep fst epoch_diffs collect_deltas]. apply collect_spec; assumption.
Qed.

(** ** most frequent difference *)
Lemma feqb_good x y : good x -> good y -> (feqb x y = true <-> f2r x = f2r y).
Proof.
  intros Hx Hy. destruct (good_B x Hx) as [bx [<- [Fx Rx]]]. destruct (good_B y Hy) as [by_ [<- [Fy Ry]]].
  pose proof (Beqb_correct _ _ bx by_ Fx Fy) as H. unfold Beqb in H. unfold feqb. rewrite H, <- Rx, <- Ry.
  destruct (Req_bool_spec (B2R bx) (B2R by_)); split; intros; congruence.
Qed.
Lemma nearest_good f x : nearest64 f x -> good f.
Proof. intros [H1 [H2 _]]. split; assumption. Qed.

Lemma times_eq x y l : good x -> good y -> Forall good l -> feqb x y = true -> times x l = times y l.
Proof.
  intros Hx Hy Hl E. apply feqb_good in E; [|assumption|assumption]. unfold times. f_equal.
  induction Hl as [|z l Hz Hl IH]; [reflexivity|]. cbn [filter]. rewrite IH.
  replace (feqb x z) with (feqb y z); [reflexivity|].
  destruct (feqb x z) eqn:E1; [|destruct (feqb y z) eqn:E2; [|reflexivity]].
  - apply feqb_good in E1; [|assumption|assumption]. apply feqb_good; [assumption|assumption|congruence].
  - apply feqb_good in E2; [|assumption|assumption]. assert (feqb x z = true) by (apply feqb_good; [assumption|assumption|congruence]). congruence.
Qed.

Lemma best_key_spec l ks b : best_key l ks = Some b -> exists a c, ks = a ++ b :: c /\
  (forall x, In x a -> times x l < times b l) /\ (forall x, In x c -> times x l <= times b l).
Proof.
  revert b. induction ks as [|k ks IH]; intros b H; cbn [best_key] in H; [discriminate|].
  destruct (best_key l ks) as [b'|] eqn:E.
  - destruct (IH b' eq_refl) as [a [c [-> [H1 H2]]]]. unfold count_f in H. fold (times b' l) (times k l) in H.
    destruct (times b' l <=? times k l) eqn:Ec; inversion H; subst.
    + exists [], (a ++ b' :: c). split; [reflexivity|]. split; [intros x []|].
      intros x Hx. apply in_app_or in Hx. destruct Hx as [Hx|[<-|Hx]]; [apply H1 in Hx; lia|lia|apply H2 in Hx; lia].
    + exists (k :: a), c. split; [reflexivity|]. split; [|exact H2]. intros x [<-|Hx]; [lia|now apply H1].
  - inversion H; subst. exists [], ks. split; [reflexivity|]. split; [intros x []|]. destruct ks; [intros x []|].
    cbn in E. destruct (best_key l ks); [destruct (_ <=? _)|]; discriminate.
Qed.
Lemma best_key_none l ks : best_key l ks = None -> ks = [].
Proof. destruct ks; [reflexivity|]. cbn. destruct (best_key l ks); [destruct (_ <=? _)|]; discriminate. Qed.

Lemma nub_in seen l x : Forall good seen -> Forall good l -> In x l -> exists y, (In y seen \/ In y (nub_f seen l)) /\ feqb x y = true.
Proof.
  revert seen. induction l as [|z l IH]; intros seen Hs Hl Hx; [contradiction|]. inversion Hl as [|? ? Hz Hl']; subst.
  assert (Hrefl : feqb z z = true) by (apply feqb_good; [assumption|assumption|reflexivity]).
  cbn [nub_f]. destruct (existsb (feqb z) seen) eqn:E.
  - destruct Hx as [<-|Hx]; [|now apply IH]. apply existsb_exists in E. destruct E as [y [Hy Ey]]. eauto.
  - destruct Hx as [<-|Hx]; [exists z; split; [right; now left|exact Hrefl]|].
    destruct (IH (z :: seen)) as [y [[Hy|Hy] Ey]]; [now constructor|assumption|assumption| |].
    + destruct Hy as [<-|Hy]; [exists z; split; [right; now left|exact Ey]|eauto].
    + exists y. split; [right; now right|exact Ey].
Qed.
(** everything before the first occurrence of a key is equal to an earlier key *)
Lemma nub_split seen l a b c : Forall good seen -> Forall good l -> nub_f seen l = a ++ b :: c ->
  exists l1 l2, l = l1 ++ b :: l2 /\ forall x, In x l1 -> exists y, (In y seen \/ In y a) /\ feqb x y = true.
Proof.
  revert seen a. induction l as [|z l IH]; intros seen a Hs Hl H; cbn [nub_f] in H; [destruct a; discriminate|].
  inversion Hl as [|? ? Hz Hl']; subst.
  assert (Hrefl : feqb z z = true) by (apply feqb_good; [assumption|assumption|reflexivity]).
  destruct (existsb (feqb z) seen) eqn:E.
  - destruct (IH seen a Hs Hl' H) as [l1 [l2 [-> H1]]]. exists (z :: l1), l2. split; [reflexivity|].
    intros x [<-|Hx]; [|now apply H1]. apply existsb_exists in E. destruct E as [y [Hy Ey]]. eauto.
  - destruct a as [|a0 a]; cbn in H; inversion H; subst.
    + exists [], l. split; [reflexivity|intros x []].
    + destruct (IH (a0 :: seen) a) as [l1 [l2 [-> H1]]]; [now constructor|assumption|assumption|].
      exists (a0 :: l1), l2. split; [reflexivity|].
      intros x [<-|Hx]; [exists a0; split; [right; now left|exact Hrefl]|].
      destruct (H1 x Hx) as [y [[[<-|Hy]|Hy] Ey]]; [exists a0; split; [right; now left|exact Ey]|eauto|exists y; split; [right; now right|exact Ey]].
Qed.

Lemma mode_spec l m : Forall good l -> best_key l (nub_f [] l) = Some m -> most_frequent m l.
Proof.
  intros Hl H. destruct (best_key_spec _ _ _ H) as [a [c [E [H1 H2]]]].
  destruct (nub_split [] l a m c (Forall_nil _) Hl E) as [l1 [l2 [El H3]]].
  assert (Hin : forall x, In x l -> good x) by (rewrite Forall_forall in Hl; exact Hl).
  assert (Hnub : forall seen l0 x, In x (nub_f seen l0) -> In x l0).
  { intros seen l0. revert seen. induction l0 as [|z l0 IH]; intros seen x Hx; cbn in Hx; [contradiction|].
    destruct (existsb (feqb z) seen); [right; eauto|]. destruct Hx as [<-|Hx]; [now left|right; eauto]. }
  exists l1, l2. split; [exact El|]. split.
  - intros x Hx. destruct (nub_in [] l x (Forall_nil _) Hl Hx) as [y [[[]|Hy] Ey]].
    assert (Hgy : good y) by (apply Hin; eapply Hnub; exact Hy).
    rewrite (times_eq x y l); [|now apply Hin|exact Hgy|exact Hl|exact Ey].
    rewrite E in Hy. apply in_app_or in Hy. destruct Hy as [Hy|[<-|Hy]]; [apply H1 in Hy; lia|lia|now apply H2].
  - intros x Hx. destruct (H3 x Hx) as [y [[[]|Hy] Ey]].
    assert (Hgy : good y). { apply Hin. apply (Hnub []). rewrite E. apply in_or_app. now left. }
    assert (Hgx : good x). { apply Hin. rewrite El. apply in_or_app. now left. }
    rewrite (times_eq x y l) by assumption. now apply H1.
Qed.

(** ** runs and the leaked state *)
Lemma epoch_records_eps types ep sats rs o : epoch_records types ep sats rs -> map yep (map (fun r : orec => (r, o)) rs) = repeat ep (length sats).
Proof. induction 1 as [|s r sats rs [H _] Hr IH]; cbn; [reflexivity|]. unfold yep at 1. cbn. rewrite H. f_equal. exact IH. Qed.

Lemma runs_valid types o bs ys o1 : runs types o bs ys o1 -> Forall valid_datetime (data_epochs bs) ->
  Forall (fun y => valid_datetime (yep y)) ys.
Proof.
  induction 1 as [o|ep fl sats bs o rs ys o' He Hr IH|fl ls np bs o p ys o' Hp Hr IH]; intros Hv; cbn [data_epochs] in Hv.
  - constructor.
  - inversion Hv as [|? ? Hve Hv']; subst. apply Forall_app. split; [|now apply IH].
    destruct (odt_eqb _ _); [constructor|]. apply Forall_forall. intros y Hy. apply in_map_iff in Hy.
    destruct Hy as [r [<- Hr2]]. assert (H : In (yep (r, o)) (map yep (map (fun r : orec => (r, o)) rs))) by (apply in_map, in_map_iff; eauto).
    rewrite (epoch_records_eps _ _ _ _ _ He) in H. apply repeat_spec in H. rewrite H. exact Hve.
  - now apply IH.
Qed.
Lemma body_valid n bs ls : body_lines n bs ls -> Forall valid_datetime (data_epochs bs).
Proof.
  induction 1 as [|b bs l ls Hl Hb IH]; [constructor|].
  inversion Hl as [ep fl sats els sls He Hs|]; subst; [|exact IH].
  cbn [data_epochs]. constructor; [|exact IH]. inversion He; subst. assumption.
Qed.

Lemma collect_obj ys ge oend : forall n e ds o', collect_deltas n e ys ge oend = Ok (ds, o') -> o' = oend \/ In o' (map snd ys).
Proof.
  induction ys as [|[[[ep prn] rec] o] ys IH]; intros n e ds o' H; cbn [collect_deltas map snd In] in *.
  - destruct ge; inversion H; subst. now left.
  - destruct e as [e|]; [|destruct (IH _ _ _ _ H); tauto].
    destruct (dt_eqb e ep); [destruct (IH _ _ _ _ H); tauto|].
    destruct (dt_sub ep e =? 0)%Z; [destruct (IH _ _ _ _ H); tauto|].
    destruct n as [|[|n]]; [inversion H; subst; tauto|inversion H; subst; tauto|].
    destruct (collect_deltas (S n) (Some ep) ys ge oend) as [[ds' o'']|x] eqn:E; cbn [bind] in H; [|discriminate].
    inversion H; subst. destruct (IH _ _ _ _ E); tauto.
Qed.
(** one block's worth of yields finds at most one difference *)
Lemma collect_block ep o ys ge oend rs : Forall (fun r : orec => fst (fst r) = ep) rs -> forall n e, 2 <= n ->
  exists n' e' pre, 1 <= n' /\ collect_deltas n e (map (fun r => (r, o)) rs ++ ys) ge oend =
    (do (ds, o') <- collect_deltas n' e' ys ge oend; Ok (pre ++ ds, o')).
Proof.
  assert (Hsame : forall rs, Forall (fun r : orec => fst (fst r) = ep) rs -> forall n,
    collect_deltas n (Some ep) (map (fun r => (r, o)) rs ++ ys) ge oend = collect_deltas n (Some ep) ys ge oend).
  { induction 1 as [|[[ep' prn] rec] l Hr Hl IH]; intros n; cbn [map app collect_deltas]; [reflexivity|].
    cbn in Hr. subst ep'. rewrite (proj2 (dt_eqb_eq ep ep) eq_refl). apply IH. }
  assert (Hid : forall x : res (list float * obj2), x = (do (ds, o') <- x; Ok ([] ++ ds, o'))).
  { intros [[ds o']|x]; reflexivity. }
  intros H n e Hn. induction H as [|[[ep' prn] rec] l Hr Hl IH]; cbn [map app].
  - exists n, e, []. split; [lia|apply Hid].
  - cbn in Hr. subst ep'. cbn [collect_deltas]. destruct e as [e|].
    + destruct (dt_eqb e ep) eqn:E1; [exact IH|].
      destruct (dt_sub ep e =? 0)%Z.
      * exists n, (Some ep), []. split; [lia|]. rewrite Hsame by assumption. apply Hid.
      * destruct n as [|[|n]]; [lia|lia|]. exists (S n), (Some ep), [total_seconds (dt_sub ep e)]. split; [lia|].
        rewrite Hsame by assumption. reflexivity.
    + exists n, (Some ep), []. split; [lia|]. rewrite Hsame by assumption. apply Hid.
Qed.

Lemma runs_snap types o bs ys o1 e0 : runs types o bs ys o1 -> ~ In e0 (data_epochs bs) -> o_prec o <> Some e0 ->
  o_prec o1 <> Some e0 /\ forall o', In o' (map snd ys) -> o_prec o' <> Some e0.
Proof.
  induction 1 as [o|ep fl sats bs o rs ys o' He Hr IH|fl ls np bs o p ys o' Hp Hr IH]; intros Hn Ho; cbn [data_epochs] in Hn.
  - split; [exact Ho|intros ? []].
  - destruct IH as [H1 H2]; [intros Hi; apply Hn; now right|cbn; intros E; apply Hn; left; congruence|].
    split; [exact H1|]. intros o2 Hi. rewrite map_app in Hi. apply in_app_or in Hi. destruct Hi as [Hi|Hi]; [|now apply H2].
    destruct (odt_eqb _ _); [contradiction|]. rewrite map_map in Hi. apply in_map_iff in Hi. destruct Hi as [r [<- _]]. exact Ho.
  - apply IH; [exact Hn|exact Ho].
Qed.

Lemma epoch_records_F types ep sats rs : epoch_records types ep sats rs -> Forall (fun r : orec => fst (fst r) = ep) rs.
Proof. induction 1 as [|s r sats rs [H _] Hr IH]; constructor; assumption. Qed.

(** while still in the run of first epochs, no difference has been found *)
Lemma leak_in ge types o bs ys o1 e0 rest : runs types o bs ys o1 -> o_prec o = Some e0 ->
  (exists k, data_epochs bs = repeat e0 k ++ rest) -> ~ In e0 rest ->
  forall n e ds o', 2 <= n -> collect_deltas n e ys ge o1 = Ok (ds, o') -> ds <> [] -> o_prec o' <> Some e0.
Proof.
  intros Hruns. induction Hruns as [o|ep fl sats bs o rs ys o1 He Hr IH|fl ls np bs o p ys o1 Hp Hr IH];
    intros Ho [k Hk] Hn n e ds o' Hn2 Hc Hds.
  - cbn in Hc. destruct e, ge; inversion Hc; subst; congruence.
  - cbn [data_epochs] in Hk. destruct k as [|k].
    + cbn [repeat app] in Hk. assert (Hne : ep <> e0) by (intros ->; apply Hn; rewrite <- Hk; now left).
      assert (Hbs : ~ In e0 (data_epochs bs)) by (intros Hi; apply Hn; rewrite <- Hk; now right).
      destruct (runs_snap _ _ _ _ _ e0 Hr Hbs) as [H1 H2]; [cbn; congruence|].
      assert (Hd : odt_eqb (Some ep) (o_prec o) = false).
      { rewrite Ho. cbn. destruct (dt_eqb ep e0) eqn:E; [apply dt_eqb_eq in E; congruence|reflexivity]. }
      rewrite Hd in Hc. destruct (collect_block ep o ys ge o1 rs (epoch_records_F _ _ _ _ He) n e Hn2) as [n' [e' [pre [Hn' Ec]]]].
      rewrite Ec in Hc. destruct (collect_deltas n' e' ys ge o1) as [[ds' o'']|x] eqn:Ec'; cbn [bind] in Hc; [|discriminate].
      inversion Hc; subst. destruct (collect_obj _ _ _ _ _ _ _ Ec') as [->|Hi]; [exact H1|now apply H2].
    + cbn [repeat app] in Hk. inversion Hk; subst ep.
      assert (Hd : odt_eqb (Some e0) (o_prec o) = true) by (rewrite Ho; cbn; now apply dt_eqb_eq).
      rewrite Hd in Hc. cbn [app] in Hc. eapply IH; [reflexivity|eauto|exact Hn|exact Hn2|exact Hc|exact Hds].
  - eapply IH; [exact Ho|eauto|exact Hn|exact Hn2|exact Hc|exact Hds].
Qed.
Lemma leak_first ge types o bs ys o1 e0 k rest : runs types o bs ys o1 -> o_prec o = None ->
  data_epochs bs = repeat e0 k ++ rest -> 1 <= k -> ~ In e0 rest ->
  forall n ds o', 2 <= n -> collect_deltas n None ys ge o1 = Ok (ds, o') -> ds <> [] -> o_prec o' <> Some e0.
Proof.
  intros Hruns. induction Hruns as [o|ep fl sats bs o rs ys o1 He Hr IH|fl ls np bs o p ys o1 Hp Hr IH];
    intros Ho Hk Hk1 Hn n ds o' Hn2 Hc Hds.
  - destruct k; [lia|discriminate].
  - cbn [data_epochs] in Hk. destruct k as [|k]; [lia|]. cbn [repeat app] in Hk. inversion Hk; subst ep.
    rewrite Ho in Hc. cbn [odt_eqb] in Hc.
    assert (Hex : exists e', collect_deltas n e' ys ge o1 = Ok (ds, o')).
    { destruct rs as [|[[ep prn] rec] rs]; [exists None; exact Hc|].
      pose proof (epoch_records_F _ _ _ _ He) as HF. pose proof (Forall_inv HF) as Hh. pose proof (Forall_inv_tail HF) as Ht. cbn in Hh. subst ep.
      exists (Some e0). rewrite <- Hc. cbn [map app collect_deltas].
      clear -Ht. induction Ht as [|[[ep prn] rec] l Hl Hls IH]; [reflexivity|]. cbn in Hl. subst ep. cbn [map app collect_deltas].
      rewrite (proj2 (dt_eqb_eq e0 e0) eq_refl). exact IH. }
    destruct Hex as [e' Hc']. eapply (leak_in _ _ _ _ _ _ e0 rest Hr); [reflexivity|eauto|exact Hn|exact Hn2|exact Hc'|exact Hds].
  - eapply IH; [exact Ho|exact Hk|exact Hk1|exact Hn|exact Hn2|exact Hc|exact Hds].
Qed.

(** a preceding epoch that is not the first one makes no difference *)
Lemma delivered_prec types p p' pos bs out : delivered types p pos bs out ->
  match data_epochs bs with e0 :: _ => p <> Some e0 /\ p' <> Some e0 | [] => True end -> delivered types p' pos bs out.
Proof.
  induction 1 as [prec pos|ep fl sats bs pos out Hd IH|ep fl sats bs prec pos rs out Hne He Hd IH|fl ls np bs prec pos pos' out Hnp Hd IH];
    cbn [data_epochs]; intros H.
  - constructor.
  - destruct H; congruence.
  - destruct H. apply dl_new; assumption.
  - eapply dl_event; [exact Hnp|]. apply IH. exact H.
Qed.

(** ** opening *)
Lemma run_body v types blocks body o : NoDup types -> body_lines (length types) blocks body ->
  exists ys o1, runs types o blocks ys o1 /\ run_records v types body o = (ys, GStop, o1).
Proof.
  intros Hn Hb. destruct (body_read v types blocks body Hn Hb o) as [ys [o1 [H1 H2]]].
  exists ys, o1. split; [exact H1|]. specialize (H2 []). rewrite app_nil_r in H2. rewrite H2. rewrite run_records_nil. now rewrite app_nil_r.
Qed.

Lemma open2_inv v header body file r : file_parts header body file -> open2 v file = Ok r ->
  exists h dt o iv, set_obs_num_types header = Ok (r_types r) /\ parse_header v header hdr0 = Ok h /\
    get_interval 10 v (r_types r) body (mkObj2 None h) = Ok (dt, o) /\ set_interval v (fmt_wf 10 3 dt) = Ok iv /\
    r_obj r = mkObj2 (o_prec o) (mkHdr (h_ver (o_hdr o)) (h_tofo (o_hdr o)) (h_xyz (o_hdr o)) (Some iv)) /\ r_rest r = body.
Proof.
  intros Hf H. destruct (file_parts_split _ _ _ Hf) as [E1 E2]. unfold open2 in H. rewrite E1, E2 in H.
  destruct (set_obs_num_types header) as [types|]; cbn [bind] in H; [|discriminate].
  destruct (parse_header v header hdr0) as [h|]; cbn [bind] in H; [|discriminate].
  destruct (get_interval 10 v types body (mkObj2 None h)) as [[dt o]|] eqn:Eg; cbn [bind] in H; [|discriminate].
  destruct (set_interval v (fmt_wf 10 3 dt)) as [iv|] eqn:Es; cbn [bind] in H; [|discriminate].
  inversion H; subst. exists h, dt, o, iv. cbn. auto 10.
Qed.

Definition with_pos (y : orec * obj2) : orec * position := (fst y, h_xyz (o_hdr (snd y))).

Lemma collect_end_irrelevant x o o' ys : forall n e, collect_deltas n e ys (GRaise x) o = collect_deltas n e ys (GRaise x) o'.
Proof.
  induction ys as [|[[[ep p] r] ob] ys IH]; intros n e; cbn [collect_deltas]; [reflexivity|]. destruct e as [e0|]; [|apply IH].
  destruct (dt_eqb e0 ep); [apply IH|]. destruct (_ =? 0)%Z; [apply IH|]. destruct n as [|[|n]]; try reflexivity. rewrite IH. reflexivity.
Qed.

(** reading a body that behaves like [blocks] (and may end in an error) through an opened reader *)
Lemma open2_delivers_gen v header body file r blocks ge :
  file_parts header body file -> open2 v file = Ok r -> first_epoch_once blocks ->
  (forall o, exists ys o1 o2, runs (r_types r) o blocks ys o1 /\ run_records v (r_types r) body o = (ys, ge, o2) /\ (ge = GStop -> o2 = o1)) ->
  exists ys o', records2 v r = (ys, ge, o') /\
    delivered (r_types r) None (h_xyz (o_hdr (r_obj r))) blocks (map with_pos ys).
Proof.
  intros Hf Ho [e0 [k [rest [Hk [Hnot Hk1]]]]] Hrun.
  destruct (open2_inv _ _ _ _ _ Hf Ho) as [h [dt [o [iv [H1 [H2 [H3 [H4 [H5 H6]]]]]]]]].
  unfold records2. rewrite H6. set (types := r_types r) in *.
  destruct (Hrun (r_obj r)) as [ys [o1 [o2 [R1 [R2 _]]]]].
  exists ys, o2. split; [exact R2|].
  apply delivered_prec with (p := o_prec (r_obj r)); [now apply runs_delivered in R1|].
  rewrite Hk. destruct k as [|k]; [lia|]. cbn [repeat app]. split; [|discriminate].
  unfold get_interval in H3.
  destruct (Hrun (mkObj2 None h)) as [ys0 [o0 [q0 [Q1 [Q2 Q3]]]]]. rewrite Q2 in H3.
  assert (Hc : collect_deltas 10 None ys0 ge q0 = collect_deltas 10 None ys0 ge o0).
  { destruct ge as [|x]; [now rewrite (Q3 eq_refl)|apply collect_end_irrelevant]. }
  rewrite Hc in H3.
  destruct (collect_deltas 10 None ys0 ge o0) as [[ds oo]|] eqn:Ec; cbn [bind] in H3; [|discriminate].
  rewrite H5. cbn [o_prec].
  destruct (best_key ds (nub_f [] ds)) as [m|] eqn:Em; inversion H3; subst.
  eapply (leak_first _ _ _ _ _ _ e0 (S k) rest Q1); [reflexivity|exact Hk|lia|exact Hnot| |exact Ec|]; [lia|].
  intros ->. discriminate.
Qed.
Lemma open2_delivers v header body file r blocks :
  file_parts header body file -> open2 v file = Ok r -> NoDup (r_types r) ->
  body_lines (length (r_types r)) blocks body -> first_epoch_once blocks ->
  exists ys o', records2 v r = (ys, GStop, o') /\
    delivered (r_types r) None (h_xyz (o_hdr (r_obj r))) blocks (map with_pos ys).
Proof.
  intros Hf Ho Hn Hb H1. eapply open2_delivers_gen; [exact Hf|exact Ho|exact H1|]. intros o.
  destruct (run_body v _ blocks body o Hn Hb) as [ys [o1 [R1 R2]]]. exists ys, o1, o1. auto.
Qed.
