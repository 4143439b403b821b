(** The comment lines of the result files. *)
From Verif Require Import Base PyStr PyFloat PyDate PyPath S_Text S_Time M_Header M_Rec M_Text S_Out P_Str P_Date P_Out.
Open Scope nat_scope.

(** ** the newest position *)
Section Newest.
  Variable g : xyz * xyz -> xyz.
  Definition dict_of (d : list (datetime * xyz)) (anns : list (datetime * xyz * xyz)) : list (datetime * xyz) :=
    fold_left (fun d y => dict_set dt_eqb (fst (fst y)) (g (snd (fst y), snd y)) d) anns d.
  Definition keys_ok (T : Z) (d : list (datetime * xyz)) : Prop := forall t p, In (t, p) d -> valid_datetime t /\ (instant t <= T)%Z.

  Lemma set_keys t p (d : list (datetime * xyz)) u q : In (u, q) (dict_set dt_eqb t p d) -> (u = t \/ In u (map fst d)).
  Proof.
    induction d as [|[k v] r IH]; cbn.
    - intros [E|[]]. injection E as <- <-. now left.
    - destruct (dt_eqb t k) eqn:E; cbn; intros [H|H].
      + injection H as <- <-. right. now left.
      + right. right. apply (in_map fst) in H. exact H.
      + injection H as <- <-. right. now left.
      + destruct (IH H) as [->|K]; [now left|right; now right].
  Qed.
  Lemma keys_set T t p d : keys_ok T d -> valid_datetime t -> (instant t <= T)%Z -> keys_ok T (dict_set dt_eqb t p d).
  Proof.
    intros H Hv Ht u q Hi. apply set_keys in Hi as [->|Hi]; [tauto|]. apply in_map_iff in Hi as [[u' v] [<- Hi]]. exact (H _ _ Hi).
  Qed.
  Definition distinct (d : list (datetime * xyz)) : Prop := NoDup (map fst d).
  Lemma distinct_set t p d : distinct d -> distinct (dict_set dt_eqb t p d).
  Proof.
    unfold distinct. induction d as [|[k v] r IH]; cbn; intros H.
    - repeat constructor. now intros [].
    - apply NoDup_cons_iff in H as [H1 H2]. destruct (dt_eqb t k) eqn:E; cbn; [now constructor|]. constructor; [|now apply IH].
      intros Hi. apply in_map_iff in Hi as [[u q] [E2 Hi]]. cbn in E2. subst u. apply set_keys in Hi as [Hi|Hi]; [|contradiction].
      assert (E3 : dt_eqb t k = true) by now apply dt_eqb_eq. congruence.
  Qed.
  (** [p] is stored under the greatest key *)
  Definition top (T : Z) (p : xyz) (d : list (datetime * xyz)) : Prop :=
    exists d1 u d2, d = d1 ++ (u, p) :: d2 /\ valid_datetime u /\ instant u = T /\
      (forall v q, In (v, q) (d1 ++ d2) -> valid_datetime v /\ (instant v < T)%Z).
  Lemma set_top t p d T : keys_ok T d -> distinct d -> valid_datetime t -> instant t = T -> top T p (dict_set dt_eqb t p d).
  Proof.
    unfold distinct. intros H Hn Hv Ht. induction d as [|[k v] r IH]; cbn.
    - exists [], t, []. repeat split; try assumption; try apply Hv; destruct H0.
    - cbn in Hn. apply NoDup_cons_iff in Hn as [N1 N2].
      destruct (dt_eqb t k) eqn:E.
      + apply dt_eqb_eq in E. subst k. exists [], t, r. split; [reflexivity|]. split; [exact Hv|]. split; [exact Ht|]. cbn [app]. intros w q Hi.
        destruct (H w q) as [V L]; [now right|]. split; [exact V|]. assert (instant w <> T); [|lia]. intros E2. apply N1.
        rewrite <- Ht in E2. apply instant_inj in E2; [|exact V|exact Hv]. subst w. apply (in_map fst) in Hi. exact Hi.
      + destruct IH as [d1 [u [d2 [E1 [V1 [T1 O]]]]]]; [intros a b Hi; apply (H a b); now right|exact N2|].
        exists ((k, v) :: d1), u, d2. split; [cbn; now rewrite E1|]. split; [exact V1|]. split; [exact T1|]. cbn [app]. intros w q [Hi|Hi]; [|now apply (O w q)].
        injection Hi as <- <-. destruct (H k v) as [V L]; [now left|]. split; [exact V|]. assert (instant k <> T); [|lia]. intros E2.
        rewrite <- Ht in E2. apply instant_inj in E2; [|exact V|exact Hv]. subst k. assert (dt_eqb t t = true) by now apply dt_eqb_eq. congruence.
  Qed.
  Lemma set_below t p' T p d : top T p d -> valid_datetime t -> (instant t < T)%Z -> top T p (dict_set dt_eqb t p' d).
  Proof.
    intros [d1 [u [d2 [-> [V [E O]]]]]] Hv Ht. 
    assert (K : forall d, (forall v q, In (v, q) d -> valid_datetime v /\ (instant v < T)%Z) -> forall v q, In (v, q) (dict_set dt_eqb t p' d) -> valid_datetime v /\ (instant v < T)%Z).
    { intros d Hd v q Hi. apply set_keys in Hi as [->|Hi]; [tauto|]. apply in_map_iff in Hi as [[u' w] [<- Hi]]. exact (Hd _ _ Hi). }
    assert (L : forall d1, dict_set dt_eqb t p' (d1 ++ (u, p) :: d2) = dict_set dt_eqb t p' d1 ++ (u, p) :: d2 \/
                dict_set dt_eqb t p' (d1 ++ (u, p) :: d2) = d1 ++ (u, p) :: dict_set dt_eqb t p' d2).
    { induction d0 as [|[k v] r IH]; cbn.
      - destruct (dt_eqb t u) eqn:E2; [apply dt_eqb_eq in E2; subst u; lia|]. now right.
      - destruct (dt_eqb t k); [now left|]. destruct IH as [->| ->]; [now left|now right]. }
    destruct (L d1) as [-> | ->].
    - exists (dict_set dt_eqb t p' d1), u, d2. split; [reflexivity|]. split; [exact V|]. split; [exact E|]. intros v q Hi. apply in_app_iff in Hi as [Hi|Hi].
      + apply (K d1) with (q := q); [|exact Hi]. intros a b Hab. apply (O a b), in_app_iff. now left.
      + apply (O v q), in_app_iff. now right.
    - exists d1, u, (dict_set dt_eqb t p' d2). split; [reflexivity|]. split; [exact V|]. split; [exact E|]. intros v q Hi. apply in_app_iff in Hi as [Hi|Hi].
      + apply (O v q), in_app_iff. now left.
      + apply (K d2) with (q := q); [|exact Hi]. intros a b Hab. apply (O a b), in_app_iff. now right.
  Qed.
  Lemma dt_ltb_instant a b : valid_datetime a -> valid_datetime b -> dt_ltb a b = (instant a <? instant b)%Z.
  Proof. intros Ha Hb. unfold dt_ltb. now rewrite !instant_eq. Qed.
  Lemma latest_from_skip d : forall t p, valid_datetime t -> (forall v q, In (v, q) d -> valid_datetime v /\ (instant v < instant t)%Z) -> latest_from t p d = p.
  Proof.
    induction d as [|[k v] r IH]; intros t p Ht H; cbn; [reflexivity|]. destruct (H k v) as [V L]; [now left|]. rewrite dt_ltb_instant by assumption.
    replace (instant t <? instant k)%Z with false by (symmetry; apply Z.ltb_ge; lia). apply IH; [exact Ht|]. intros a b Hi. apply (H a b). now right.
  Qed.
  Lemma latest_from_top d1 u p d2 T : valid_datetime u -> instant u = T ->
    (forall v q, In (v, q) (d1 ++ d2) -> valid_datetime v /\ (instant v < T)%Z) ->
    forall t q, valid_datetime t -> (instant t < T)%Z -> latest_from t q (d1 ++ (u, p) :: d2) = p.
  Proof.
    intros V E O. induction d1 as [|[k v] r IH]; intros t q Ht Hl; cbn.
    - rewrite dt_ltb_instant by assumption. replace (instant t <? instant u)%Z with true by (symmetry; apply Z.ltb_lt; lia).
      apply latest_from_skip; [exact V|]. intros a b Hi. rewrite E. apply (O a b). exact Hi.
    - destruct (O k v) as [Vk Lk]; [now left|]. rewrite dt_ltb_instant by assumption. 
      assert (O' : forall v q, In (v, q) (r ++ d2) -> valid_datetime v /\ (instant v < T)%Z) by (intros a b Hi; apply (O a b); now right).
      destruct (instant t <? instant k)%Z; [now apply IH|now apply IH].
  Qed.
  Lemma latest_top T p d : top T p d -> latest d = Ok p.
  Proof.
    intros [d1 [u [d2 [-> [V [E O]]]]]]. destruct d1 as [|[k v] r]; cbn.
    - f_equal. apply latest_from_skip; [exact V|]. intros a b Hi. rewrite E. now apply (O a b).
    - f_equal. destruct (O k v) as [Vk Lk]; [now left|]. apply (latest_from_top r u p d2 T V E); [|exact Vk|exact Lk]. intros a b Hi. apply (O a b). now right.
  Qed.
  Lemma dict_of_newest x anns : (forall y, In y anns -> valid_datetime (fst (fst y))) -> newest x anns -> latest (dict_of [] anns) = Ok (g (snd (fst x), snd x)).
  Proof.
    intros Hv [a [b [-> [Ha Hb]]]]. unfold dict_of. rewrite fold_left_app. cbn [fold_left].
    assert (Vx : valid_datetime (fst (fst x))) by (apply Hv, in_app_iff; right; now left).
    assert (KA : keys_ok (instant (fst (fst x))) (dict_of [] a) /\ distinct (dict_of [] a)).
    { assert (G : forall l d, keys_ok (instant (fst (fst x))) d -> distinct d ->
        (forall y, In y l -> valid_datetime (fst (fst y)) /\ (instant (fst (fst y)) <= instant (fst (fst x)))%Z) ->
        keys_ok (instant (fst (fst x))) (dict_of d l) /\ distinct (dict_of d l)).
      { induction l as [|y l IH]; intros d Hk Hd Hl; cbn; [tauto|]. destruct (Hl y) as [Vy Ly]; [now left|].
        apply IH; [now apply keys_set|now apply distinct_set|]. intros z Hz. apply Hl. now right. }
      apply G; [intros t p []|constructor|]. intros y Hy. split; [apply Hv, in_app_iff; now left|now apply Ha]. }
    destruct KA as [K D]. fold (dict_of [] a). apply (latest_top (instant (fst (fst x)))).
    assert (G : forall l d, top (instant (fst (fst x))) (g (snd (fst x), snd x)) d ->
      (forall y, In y l -> valid_datetime (fst (fst y)) /\ (instant (fst (fst y)) < instant (fst (fst x)))%Z) ->
      top (instant (fst (fst x))) (g (snd (fst x), snd x)) (dict_of d l)).
    { induction l as [|y l IH]; intros d Ht Hl; cbn; [exact Ht|]. destruct (Hl y) as [Vy Ly]; [now left|]. apply IH; [now apply set_below|]. intros z Hz. apply Hl. now right. }
    apply G; [now apply set_top|]. intros y Hy. split; [apply Hv, in_app_iff; right; now right|now apply Hb].
  Qed.
End Newest.
Lemma newest_ex anns : anns <> [] -> exists x, newest x anns.
Proof.
  induction anns as [|y anns IH] using rev_ind; [congruence|]. intros _. destruct anns as [|z r].
  - exists y. exists [], []. split; [reflexivity|]. split; intros ? [].
  - destruct IH as [x [a [b [E [Ha Hb]]]]]; [discriminate|]. rewrite E. clear E z r.
    destruct (Z_le_gt_dec (instant (fst (fst x))) (instant (fst (fst y)))).
    + exists y. exists (a ++ x :: b), []. split; [reflexivity|]. split; [|intros ? []]. intros w Hw. apply in_app_iff in Hw as [Hw|[<-|Hw]]; [specialize (Ha w Hw); cbn in *; lia|assumption|specialize (Hb w Hw); cbn in *; lia].
    + exists x. exists a, (b ++ [y]). split; [now rewrite <- app_assoc|]. split; [exact Ha|]. intros w Hw. apply in_app_iff in Hw as [Hw|[<-|[]]]; [now apply Hb|cbn in *; lia].
Qed.

Lemma commas_eq l : join_comma l = commas l.
Proof. induction l as [|a [|b r] IH]; cbn in *; congruence. Qed.
Lemma columns_commas l : columns_text l = commas l ++ (if List.length l =? 1 then lit "," else []).
Proof. unfold columns_text. destruct l as [|a [|b r]]; cbn [commas List.length Nat.eqb]; [reflexivity|reflexivity|]. rewrite app_nil_r. apply (commas_eq (a :: b :: r)). Qed.

(** ** the comment lines stay at the top of the file *)
Section Head.
  Variables (c : out_cfg) (name : str) (iv : pynum) (d : date) (f0 : fs).
  Hypothesis Hd : date_ok d.
  Hypothesis Hm : marker_of name <> [].
  Let target sat := result_file (oc_dir c) (marker_of name) sat d.
  Hypothesis target_inj : forall s s', target s = target s' -> s = s'.
  Definition base_writer (pre : list wop) : writer := mkWriter name iv None [] (dict_of fst [] (announced pre)) (dict_of snd [] (announced pre)).
  Definition starts (h content : str) : Prop := exists r, content = h ++ r.
  Definition hinv (done : list wop) (f : fs) (w : writer) : Prop :=
    w_xyz w = dict_of fst [] (announced done) /\ w_lbh w = dict_of snd [] (announced done) /\
    (forall sat s, dict_get seqb sat (w_sats w) = Some s -> exists pre t q post,
       done = pre ++ WRow sat (s_def s) (s_nav s) t q :: post /\ rows_of sat pre = [] /\ s_fout s = Some (target sat) /\
       exists content h, fs_get (target sat) f = Some content /\ header_text c (base_writer pre) s = Ok h /\ starts h content).
  Lemma announced_app a b : announced (a ++ b) = announced a ++ announced b.
  Proof. induction a as [|[t p l|s sd nav t q] a IH]; cbn; [reflexivity|now rewrite IH|exact IH]. Qed.
  Lemma dict_of_app g d0 a b : dict_of g d0 (a ++ b) = dict_of g (dict_of g d0 a) b.
  Proof. apply fold_left_app. Qed.
  Lemma header_same w w' s s' : w_obs w = w_obs w' -> w_interval w = w_interval w' -> w_xyz w = w_xyz w' -> w_lbh w = w_lbh w' -> s_def s = s_def s' -> s_nav s = s_nav s' ->
    header_text c w s = header_text c w' s'.
  Proof. intros E1 E2 E3 E4 E5 E6. unfold header_text. now rewrite E1, E2, E3, E4, E5, E6. Qed.

  Lemma step_head done f w f' w' o : winv c name iv d f0 done f w -> hinv done f w ->
    (forall s sd nav t q, o = WRow s sd nav t q -> dt_date t = d /\ no_slash s) -> do_op c (f, w) o = Ok (f', w') -> hinv (done ++ [o]) f' w'.
  Proof.
    intros W [H1 [H2 H3]] Ho. destruct o as [t p l|sat sd nav t q]; cbn [do_op].
    - intros E. injection E as <- <-. split; [|split]; cbn [update_xyz update_lbh w_xyz w_lbh w_sats].
      + now rewrite H1, announced_app, dict_of_app.
      + now rewrite H2, announced_app, dict_of_app.
      + intros sat s Hs. destruct (H3 sat s Hs) as [pre [t' [q [post [-> R]]]]]. exists pre, t', q, (post ++ [WPos t p l]). split; [now rewrite <- app_assoc|exact R].
    - intros E. destruct (Ho _ _ _ _ _ eq_refl) as [Ht Hs]. destruct W as (I1 & I2 & I3 & I4 & I5 & _).
      assert (HA : announced (done ++ [WRow sat sd nav t q]) = announced done) by (rewrite announced_app; cbn; apply app_nil_r).
      assert (Hext : forall s' pre t' q' post sd' nav', done = pre ++ WRow s' sd' nav' t' q' :: post ->
        done ++ [WRow sat sd nav t q] = pre ++ WRow s' sd' nav' t' q' :: (post ++ [WRow sat sd nav t q])) by (intros; subst done; now rewrite <- app_assoc).
      assert (Hpath : match w_path w with Some p => p | None => out_dir c (w_obs w) t end = out_dir c name t).
      { rewrite I1. destruct (w_path w) eqn:Ep; [|reflexivity]. now apply I3. }
      destruct (dict_get seqb sat (w_sats w)) as [s|] eqn:Es.
      + unfold write_data in E. cbv zeta in E. cbn [w_path w_obs w_interval w_sats w_xyz w_lbh] in E. rewrite Es in E. cbn [of_option bind] in E.
        destruct (H3 sat s Es) as [pre [t' [q' [post [Ed [Rp [Fo [content [h [G1 [G2 G3]]]]]]]]]]]. rewrite Fo in E. cbn [bind w_interval] in E.
        destruct (row_text _ _ _ _ _) as [row|]; [|discriminate]. cbn [bind] in E. injection E as <- <-.
        split; [|split]; cbn [w_xyz w_lbh w_sats]; [now rewrite HA|now rewrite HA|].
        intros sat0 s0 G. destruct (H3 sat0 s0 G) as [pre0 [t0 [q0 [post0 [Ed0 [Rp0 [Fo0 [content0 [h0 [K1 [K2 K3]]]]]]]]]]].
        exists pre0, t0, q0, (post0 ++ [WRow sat sd nav t q]). split; [exact (Hext _ _ _ _ _ _ _ Ed0)|]. split; [exact Rp0|]. split; [exact Fo0|].
        destruct (seqb sat0 sat) eqn:E0.
        * apply seqb_eq in E0. subst sat0. rewrite (fs_append_same _ _ _ _ K1). exists (content0 ++ row), h0. split; [reflexivity|]. split; [exact K2|].
          destruct K3 as [r ->]. exists (r ++ row). now rewrite app_assoc.
        * apply seqb_neq in E0. rewrite fs_append_other by (intros X; now apply E0, target_inj). exists content0, h0. auto.
      + unfold write_data, update_satellite in E. rewrite Es in E. cbv zeta in E. cbn [w_path w_obs w_interval w_sats w_xyz w_lbh] in E. rewrite sget_same in E. cbn [of_option bind s_fout s_def s_nav] in E.
        rewrite Hpath in E. rewrite I1 in E.
        assert (Htgt : path_join (out_dir c name t) (out_name name sat t) = target sat).
        { rewrite result_path; [|rewrite Ht; exact Hd|exact Hm|exact Hs]. now rewrite Ht. }
        rewrite Htgt in E. destruct (header_text c _ _) as [h|] eqn:Eh; [|discriminate]. cbn [bind w_interval] in E.
        destruct (row_text _ _ _ _ _) as [row|]; [|discriminate]. cbn [bind] in E. injection E as <- <-.
        split; [|split]; cbn [w_xyz w_lbh w_sats]; [now rewrite HA|now rewrite HA|].
        intros sat0 s0 G. destruct (seqb sat0 sat) eqn:E0.
        * apply seqb_eq in E0. subst sat0. rewrite sget_same in G. injection G as <-. cbn [s_def s_nav s_fout]. exists done, t, q, []. split; [reflexivity|].
          split; [now apply I5|]. split; [reflexivity|]. exists (h ++ row), h.
          split; [apply fs_append_same; rewrite (fs_append_same _ _ _ []); [reflexivity|]; apply sget_same|]. split; [|now exists row].
          erewrite header_same; [exact Eh|..]; cbn; try reflexivity; try congruence.
        * apply seqb_neq in E0. rewrite !sget_other in G by exact E0. destruct (H3 sat0 s0 G) as [pre0 [t0 [q0 [post0 [Ed0 [Rp0 [Fo0 [content0 [h0 [K1 [K2 K3]]]]]]]]]]].
          exists pre0, t0, q0, (post0 ++ [WRow sat sd nav t q]). split; [exact (Hext _ _ _ _ _ _ _ Ed0)|]. split; [exact Rp0|]. split; [exact Fo0|].
          assert (N : target sat0 <> target sat) by (intros X; now apply E0, target_inj).
          rewrite !fs_append_other by exact N. unfold fs_truncate. unfold fs_get. rewrite sget_other by exact N. exists content0, h0. auto.
  Qed.
  Lemma steps_head os : forall done f w f' w', winv c name iv d f0 done f w -> hinv done f w ->
    (forall s sd nav t q, In (WRow s sd nav t q) os -> dt_date t = d /\ no_slash s) ->
    do_ops c (f, w) os = Ok (f', w') -> winv c name iv d f0 (done ++ os) f' w' /\ hinv (done ++ os) f' w'.
  Proof.
    induction os as [|o os IH]; intros done f w f' w' W I Ho; cbn [do_ops].
    - intros E. injection E as <- <-. now rewrite app_nil_r.
    - destruct (do_op c (f, w) o) as [[f1 w1]|] eqn:E1; [|discriminate]. cbn [bind]. intros E.
      assert (Ho1 : forall s sd nav t q, o = WRow s sd nav t q -> dt_date t = d /\ no_slash s) by (intros s sd nav t q ->; apply (Ho s sd nav t q); now left).
      replace (done ++ o :: os) with ((done ++ [o]) ++ os) by (rewrite <- app_assoc; reflexivity).
      apply (IH (done ++ [o]) f1 w1); [|now apply (step_head done f w)|intros; apply (Ho s sd nav t q); now right|exact E].
      now apply (do_op_inv c name iv d f0 Hd Hm target_inj done f w).
  Qed.
End Head.

Lemma sampling_noted c iv : sampling_text c iv = sampling_note c iv.
Proof.
  unfold sampling_text, sampling_note. destruct (oc_sampling c) as [[|u|u]|]; cbn [Z.eqb];
    destruct (fltb _ _); rewrite ?app_nil_r; reflexivity.
Qed.
Lemma comment_top c f name iv os f' d pre sat sd nav t q post : date_ok d -> basename name <> [] -> all_of_day d os ->
  (forall s sd nav t q, In (WRow s sd nav t q) os -> no_slash s) -> (forall t p l, In (WPos t p l) os -> valid_datetime t) ->
  write_file c f name iv os = Ok f' ->
  os = pre ++ WRow sat sd nav t q :: post -> rows_of sat pre = [] ->
  exists t0 p l rows, newest (t0, p, l) (announced pre) /\
    fs_get (result_file (oc_dir c) (marker_of name) sat d) f' = Some (comment_text (comment_lines c name iv sd nav p l) ++ rows).
Proof.
  intros Hd Hb Ha Hs Hv Hw Eo Rp.
  assert (Hm : marker_of name <> []) by (unfold marker_of; destruct (basename name); [congruence|discriminate]).
  assert (Hinj : forall s s', result_file (oc_dir c) (marker_of name) s d = result_file (oc_dir c) (marker_of name) s' d -> s = s').
  { intros s s' E. apply result_file_inj in E; try assumption; try apply marker_no_slash. tauto. }
  unfold write_file in Hw. destruct (do_ops c (f, new_writer name iv) os) as [[f1 w1]|] eqn:E; [|discriminate]. cbn [bind] in Hw. injection Hw as <-.
  destruct (steps_head c name iv d f Hd Hm Hinj os [] f (new_writer name iv) f1 w1) as [W [_ [_ H3]]].
  - repeat split; cbn; try reflexivity; try discriminate.
  - repeat split; cbn; try reflexivity; try discriminate.
  - intros s sd' nav' t' q' H. split; [now apply (Ha s sd' nav' t' q')|now apply (Hs s sd' nav' t' q')].
  - exact E.
  - cbn [app] in *. destruct W as (_ & _ & _ & _ & I5 & _).
    destruct (dict_get seqb sat (w_sats w1)) as [s|] eqn:Es.
    2:{ exfalso. specialize (I5 sat Es). rewrite Eo, rows_of_app in I5. cbn in I5. rewrite seqb_refl in I5. destruct (rows_of sat pre); discriminate. }
    destruct (H3 sat s Es) as [pre' [t' [q' [post' [Eo' [Rp' [_ [content [h [G1 [G2 [r ->]]]]]]]]]]]].
    assert (Epre : pre = pre' /\ WRow sat sd nav t q = WRow sat (s_def s) (s_nav s) t' q').
    { clear - Eo Eo' Rp Rp'. subst os. revert pre' Rp' Eo'. induction pre as [|x pre IH]; intros [|y pre'] Rp' E; cbn in E.
      - injection E as -> -> -> -> _. auto.
      - injection E as E1 E2. subst y. cbn in Rp'. rewrite seqb_refl in Rp'. discriminate.
      - injection E as E1 E2. subst x. cbn in Rp. rewrite seqb_refl in Rp. discriminate.
      - injection E as <- E. destruct (IH) with (pre' := pre') as [-> E2]; [destruct x; cbn in Rp; [exact Rp|destruct (seqb sat sat0); [discriminate|exact Rp]]
          |destruct x; cbn in Rp'; [exact Rp'|destruct (seqb sat sat0); [discriminate|exact Rp']]|exact E|]. auto. }
    destruct Epre as [<- Er]. injection Er as -> -> <- <-.
    assert (Hv' : forall y, In y (announced pre) -> valid_datetime (fst (fst y))).
    { intros [[t1 p1] l1] Hy. apply (Hv t1 p1 l1). rewrite Eo. apply in_app_iff. left. clear - Hy. induction pre as [|[a b e|a b e g h] pre IH]; cbn in *; [contradiction| |right; now apply IH].
      destruct Hy as [Hy|Hy]; [injection Hy as -> -> ->; now left|right; now apply IH]. }
    assert (Hne : announced pre <> []).
    { intros X. unfold header_text, base_writer in G2. cbn [w_xyz] in G2. rewrite X in G2. discriminate. }
    destruct (newest_ex _ Hne) as [[[t0 p] l] Hx]. exists t0, p, l, r. split; [exact Hx|]. rewrite G1. f_equal. f_equal.
    unfold header_text, base_writer in G2. cbn [w_xyz w_lbh w_obs w_interval] in G2. rewrite (dict_of_newest fst _ _ Hv' Hx), (dict_of_newest snd _ _ Hv' Hx) in G2. cbn [bind fst snd] in G2.
    rewrite columns_commas in G2. injection G2 as <-. unfold comment_text, comment_lines, comment_line, show3, three, show_num, marker_of. destruct p as [[x y] z], l as [[a b] e]. rewrite sampling_noted. reflexivity.
Qed.
