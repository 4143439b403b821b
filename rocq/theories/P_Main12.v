(** The run: the positions announced to the writer. *)
From Coq Require Import ZifyBool ZifyNat.
From Verif Require Import Base PyStr PyFloat PyDate PyPath PyRegex S_Text S_Time S_Open2 M_Common M_Header M_Obs2 M_Obs3 M_Rec M_Text M_Cfg M_Label M_Names M_Xyz M_Nav M_NmUtils M_Num M_Tec M_Sat M_Main S_Names S_Xyz S_Main S_Fresh S_Out P_Str P_Date P_Nav P_Nav5 P_Out P_Out2 P_Main1 P_Main2 P_Main3 P_Main4 P_Main5 P_Main6 P_Main7 P_Main8.
Open Scope nat_scope.

(** ** the time of the first observation is a date of the calendar *)
Definition tofo_ok (h : hdr) : Prop := forall t ts, h_tofo h = Some (t, ts) -> valid_datetime t.
Lemma set_tofo_valid v line t ts : set_tofo v line = Ok (t, ts) -> valid_datetime t.
Proof.
  unfold set_tofo. destruct (mapM _ _) as [e|x]; cbn [bind]; [|discriminate]. destruct (py_float _) as [sec|x]; cbn [bind]; [|discriminate].
  destruct (sec2sec_ms sec) as [[s us]|x]; cbn [bind]; [|discriminate]. destruct e as [|y [|mo [|d [|h [|mi [|]]]]]]; try discriminate.
  destruct (validate_epoch y mo d h mi s us) as [t'|x] eqn:Ev; cbn [bind]; [|discriminate]. intros H. injection H as <- _.
  exact (proj1 (validate_epoch_sound _ _ _ _ _ _ _ _ Ev)).
Qed.
Lemma set_item_tofo v i line h h' : tofo_ok h -> set_item v i line h = Ok h' -> tofo_ok h'.
Proof.
  intros Hh. destruct i; cbn [set_item].
  - destruct (set_ver v line); cbn [bind]; [|discriminate]. intros H. injection H as <-. exact Hh.
  - destruct (set_tofo v line) as [[t ts]|] eqn:E; cbn [bind]; [|discriminate]. intros H. injection H as <-. intros t' ts' H. cbn in H. injection H as <- <-.
    exact (set_tofo_valid _ _ _ _ E).
  - destruct (set_xyz line); cbn [bind]; [|discriminate]. intros H. injection H as <-. exact Hh.
  - destruct (set_interval v line); cbn [bind]; [|discriminate]. intros H. injection H as <-. exact Hh.
Qed.
Lemma parse_header_tofo v lines h h' : tofo_ok h -> parse_header v lines h = Ok h' -> tofo_ok h'.
Proof.
  unfold parse_header. generalize [HVer; HTofo; HXyz; HInterval]. revert h. induction lines as [|line r IH]; intros h items Hh; cbn [parse_header_loop].
  { intros H. injection H as <-. exact Hh. }
  destruct (find _ items) as [i|]; [|now apply IH]. destruct (set_item v i line h) as [h1|] eqn:E; cbn [bind]; [|discriminate].
  apply IH. exact (set_item_tofo _ _ _ _ _ Hh E).
Qed.
Lemma read_sats_obj types ep prns : forall o lines ys r, read_sats types ep prns o lines = (ys, r) -> forall y o', In (y, o') ys -> o_hdr o' = o_hdr o.
Proof.
  induction prns as [|p prns IH]; intros o lines ys r; cbn [read_sats]; [intros [= <- _]; intros; contradiction|].
  destruct (read_obs_lines _ lines) as [[data rr]|e]; [|intros [= <- _]; intros; contradiction].
  destruct (make_record types data []) as [rec|e]; [|intros [= <- _]; intros; contradiction].
  destruct (read_sats types ep prns o rr) as [ys' e'] eqn:E. destruct (odt_eqb (Some ep) (o_prec o)); intros [= <- _].
  - exact (IH _ _ _ _ E).
  - intros y o' [Hin|Hin]; [now injection Hin as _ <-|exact (IH _ _ _ _ E y o' Hin)].
Qed.
Lemma read_records_tofo v types fuel : forall lines o ys e o', tofo_ok (o_hdr o) -> read_records fuel v types lines o = (ys, e, o') ->
  tofo_ok (o_hdr o') /\ forall y ob, In (y, ob) ys -> tofo_ok (o_hdr ob).
Proof.
  induction fuel as [|fuel IH]; intros lines o ys e o' Ho; cbn [read_records]; [intros H; injection H as <- _ <-; split; [exact Ho|intros; contradiction]|].
  destruct lines as [|line rest]; [intros H; injection H as <- _ <-; split; [exact Ho|intros; contradiction]|].
  destruct (read_epoch (rstrip line) rest) as [[er r]|x]; [|intros H; injection H as <- _ <-; split; [exact Ho|intros; contradiction]].
  destruct er as [flag num|ep flag prns].
  - destruct (take_recs (Z.to_nat num) r) as [[ls r']|x]; [|intros H; injection H as <- _ <-; split; [exact Ho|intros; contradiction]].
    destruct ((flag =? 3)%Z || (flag =? 4)%Z); [|now apply IH].
    destruct (parse_header v ls (o_hdr o)) as [h|x] eqn:Eh; [|intros H; injection H as <- _ <-; split; [exact Ho|intros; contradiction]]. apply IH.
    exact (parse_header_tofo _ _ _ _ Ho Eh).
  - destruct (read_sats types ep prns o r) as [ys1 e1] eqn:Es. pose proof (read_sats_obj _ _ _ _ _ _ _ Es) as Hsat. destruct e1 as [r'|x].
    + destruct (read_records fuel v types r' (mkObj2 (Some ep) (o_hdr o))) as [[ys2 e2] o2] eqn:Er. intros H. injection H as <- _ <-.
      destruct (IH _ (mkObj2 (Some ep) (o_hdr o)) _ _ _ Ho Er) as [H1 H2]. split; [exact H1|].
      intros y ob Hin. apply in_app_or in Hin. destruct Hin as [Hin|Hin]; [rewrite (Hsat _ _ Hin); exact Ho|exact (H2 _ _ Hin)].
    + intros H. injection H as <- _ <-. split; [exact Ho|]. intros y ob Hin. rewrite (Hsat _ _ Hin). exact Ho.
Qed.
Lemma collect_obj (P : obj2 -> Prop) n ys : forall epoch ge o_end ds o', P o_end -> (forall y ob, In (y, ob) ys -> P ob) ->
  collect_deltas n epoch ys ge o_end = Ok (ds, o') -> P o'.
Proof.
  revert n. induction ys as [|[[[ep sat] rec] o] ys IH]; intros n epoch ge o_end ds o' He Hy; cbn [collect_deltas].
  { destruct ge; [|discriminate]. intros H. injection H as _ <-. exact He. }
  assert (Hy' : forall y ob, In (y, ob) ys -> P ob) by (intros y ob Hin; apply (Hy y ob); now right).
  destruct epoch as [e0|]; [|now apply IH]. destruct (dt_eqb e0 ep); [now apply IH|]. cbv zeta. destruct (dt_sub ep e0 =? 0)%Z; [now apply IH|].
  destruct n as [|[|n]].
  - intros H. injection H as _ <-. apply (Hy _ _ (or_introl eq_refl)).
  - intros H. injection H as _ <-. apply (Hy _ _ (or_introl eq_refl)).
  - destruct (collect_deltas (S n) (Some ep) ys ge o_end) as [[ds1 o1]|] eqn:E; cbn [bind]; [|discriminate]. intros H. injection H as _ <-. exact (IH _ _ _ _ _ _ He Hy' E).
Qed.
Lemma open_obs_tofo w name b : open_obs w name = Ok b -> tofo_ok (b_hdr b).
Proof.
  unfold open_obs. destruct (expand_plan name) as [u|x]; cbn [bind]; [|discriminate]. cbv zeta. destruct (w_content w name); cbn [bind]; [|discriminate].
  destruct (obs_class _) as [v|x]; cbn [bind]; [|discriminate]. assert (H0 : tofo_ok hdr0) by (intros t ts; discriminate). destruct (ver_lt3 v).
  - destruct (open2 v _) as [r|x] eqn:Eo; cbn [bind]; [|discriminate].
    destruct (records2 v r) as [[ys e] o]. intros H. injection H as <-. cbn [b_hdr]. revert Eo. unfold open2.
    destruct (split_header _ _) as [header body]. destruct (set_obs_num_types header) as [types|x]; cbn [bind]; [|discriminate].
    destruct (parse_header v header hdr0) as [h|x] eqn:Eh; cbn [bind]; [|discriminate]. unfold get_interval.
    destruct (run_records v types body (mkObj2 None h)) as [[ys1 ge] o1] eqn:Er.
    destruct (read_records_tofo _ _ _ _ _ _ _ _ (parse_header_tofo _ _ _ _ H0 Eh : tofo_ok (o_hdr (mkObj2 None h))) Er) as [K1 K2].
    destruct (collect_deltas 10 None ys1 ge o1) as [[ds o2]|x] eqn:Ec; cbn [bind]; [|discriminate].
    pose proof (collect_obj (fun ob => tofo_ok (o_hdr ob)) _ _ _ _ _ _ _ K1 K2 Ec) as K3. destruct (best_key _ _) as [dt|]; cbn [bind]; [|discriminate].
    destruct (set_interval v _) as [iv|x]; cbn [bind]; [|discriminate]. intros H. injection H as <-. exact K3.
  - destruct (open3 _ v _) as [r|x] eqn:Eo; cbn [bind]; [|discriminate].
    destruct (records3 v r) as [[ys e] o]. intros H. injection H as <-. cbn [b_hdr]. revert Eo. unfold open3.
    destruct (split_header _ _) as [header body]. unfold parse_header3. cbn [o3_hdr o3_tab].
    destruct (parse_header v header hdr0) as [h|x] eqn:Eh; cbn [bind]; [|discriminate].
    destruct (set_sno _ _ _) as [tab|x]; cbn [bind]; [|discriminate]. destruct (det_interval _ _ _) as [iv|x]; cbn [bind]; [|discriminate].
    destruct (max_types _) as [m|x]; cbn [bind]; [|discriminate]. intros H. injection H as <-. exact (parse_header_tofo _ _ _ _ H0 Eh).
Qed.

(** ** what the writer knows *)
Lemma write_data_xyz c f w sat t q f' w' : write_data c f w sat t q = Ok (f', w') -> w_xyz w' = w_xyz w.
Proof.
  unfold write_data. cbv zeta. cbn [w_sats]. destruct (dict_get seqb sat (w_sats w)) as [s|]; cbn [of_option bind]; [|discriminate].
  destruct (s_fout s) as [out|]; cbn [bind].
  - destruct (row_text _ _ _ _ _); cbn [bind]; [|discriminate]. intros H. injection H as _ <-. reflexivity.
  - destruct (header_text _ _ _); cbn [bind]; [|discriminate]. destruct (row_text _ _ _ _ _); cbn [bind]; [|discriminate]. intros H. injection H as _ <-. reflexivity.
Qed.
Lemma do_op_xyz c f w o f' w' : do_op c (f, w) o = Ok (f', w') -> w_xyz w' = dict_of fst (w_xyz w) (announced [o]).
Proof.
  destruct o as [t p l|sat sd nav t q]; cbn [do_op announced].
  - intros H. injection H as _ <-. reflexivity.
  - cbv zeta. intros H. apply write_data_xyz in H. rewrite H. destruct (dict_get seqb sat (w_sats w)); reflexivity.
Qed.
Lemma do_ops_xyz c os : forall f w f' w', do_ops c (f, w) os = Ok (f', w') -> w_xyz w' = dict_of fst (w_xyz w) (announced os).
Proof.
  induction os as [|o os IH]; intros f w f' w'; cbn [do_ops]; [intros H; injection H as _ <-; reflexivity|].
  destruct (do_op c (f, w) o) as [[f1 w1]|] eqn:E; cbn [bind]; [|discriminate]. intros H. rewrite (IH _ _ _ _ H), (do_op_xyz _ _ _ _ _ _ E).
  change (o :: os) with ([o] ++ os). rewrite announced_app, dict_of_app. reflexivity.
Qed.
Lemma same_num_place a b : same_num a b = true -> a = b \/ feqb a b = true.
Proof. unfold same_num. destruct (feqb a b) eqn:E; [auto|]. cbn [orb]. destruct a, b; try discriminate. auto. Qed.
Lemma same_xyz_place p q : same_xyz p q = true -> same_place p q.
Proof.
  destruct p as [[x y] z], q as [[u v] t]. cbn. intros H. apply andb_prop in H. destruct H as [H H3]. apply andb_prop in H. destruct H as [H1 H2].
  auto using same_num_place.
Qed.

Section Announced.
Variable (w : world) (c : cfg).
Lemma row_step_site nav glo l s t sys n v op : row_step w c nav glo l s t sys n v = Ok (Some op) ->
  exists sd q, op = WRow (s_sat s) sd nav t q /\ shows_site q (l_xyz l) (l_lbh l).
Proof.
  destruct v as [[p el] az]. unfold row_step. destruct (if ceqb sys "R" then _ else _) as [[[f1 f2] k]|]; cbn [bind]; [|discriminate].
  cbv zeta. destruct (tec_columns _ _ _ _) as [tecs|]; cbn [bind]; [|discriminate]. destruct (s_types s sys) as [types|]; cbn [bind]; [|discriminate].
  destruct (record_validity types (s_rec s)) as [vv|e]; [|destruct e; discriminate]. intros H. assert (E : Some op = Some (WRow (s_sat s) (sat_def_of w sys (s_sat s) n k) nav t (chunk_of (parse_rec (s_rec s)) tecs vv el az p (l_xyz l) (l_lbh l)))) by (cut (Ok (Some op) = Ok (Some (WRow (s_sat s) (sat_def_of w sys (s_sat s) n k) nav t (chunk_of (parse_rec (s_rec s)) tecs vv el az p (l_xyz l) (l_lbh l))))); [congruence|symmetry; exact H]). apply some_inj in E. subst op.
  eexists. eexists. split; [reflexivity|]. destruct (l_xyz l) as [[x y] z], (l_lbh l) as [[a b] d]. repeat split.
Qed.
Lemma body_announce xyzs last k l s t sys n k' l' ops : record_body w c xyzs (Ok last) k l s t sys n = Ok (k', l', ops) ->
  (ops = [] \/ exists pos row, ops = pos ++ row /\
    (pos = [] /\ same_place (l_xyz l') last \/ pos = [WPos t (l_xyz l') (l_lbh l')]) /\
    (row = [] \/ exists sat sd nav q, row = [WRow sat sd nav t q] /\ shows_site q (l_xyz l') (l_lbh l'))).
Proof.
  unfold record_body. destruct (nav_step w c k l t sys) as [[[k1 l1] go]|e]; cbn [bind]; [|discriminate].
  destruct go; cbn [negb]; [|intros H; injection H as _ _ <-; now left].
  destruct (sat_step w k1 l1 t sys n) as [[k2 go]|e]; cbn [bind]; [|discriminate].
  destruct go; cbn [negb]; [|intros H; injection H as _ _ <-; now left].
  destruct (site_step w xyzs l1 s t) as [l2|e]; cbn [bind]; [|discriminate]. cbv zeta.
  destruct (of_option KeyError (dict_get sat_key_eqb _ _)) as [cur|e]; cbn [bind]; [|discriminate].
  assert (Hp : forall pos, pos = (if same_xyz (l_xyz l2) last then [] else [WPos t (l_xyz l2) (l_lbh l2)]) ->
    pos = [] /\ same_place (l_xyz l2) last \/ pos = [WPos t (l_xyz l2) (l_lbh l2)]).
  { intros pos ->. destruct (same_xyz _ _) eqn:E; [left; split; [reflexivity|now apply same_xyz_place]|now right]. }
  destruct (view w c _ cur sys) as [[v|]|e]; cbn [bind]; [| |discriminate].
  - destruct (of_option KeyError (dict_get date_eqb _ _)) as [files|e]; cbn [bind]; [|discriminate].
    destruct (of_option KeyError (dict_get ceqb _ _)) as [nav|e]; cbn [bind]; [|discriminate].
    destruct (row_step w c nav _ l2 s t sys n v) as [r|e] eqn:Er; cbn [bind]; [|discriminate]. intros H. injection H as _ <- <-. right.
    eexists. eexists. split; [reflexivity|]. split; [now apply Hp|]. destruct r as [op|]; [|now left].
    destruct (row_step_site _ _ _ _ _ _ _ _ _ Er) as [sd [q [-> Hs]]]. right. eexists. eexists. eexists. eexists. split; [reflexivity|exact Hs].
  - intros H. injection H as _ <- <-. right. eexists. exists []. split; [now rewrite app_nil_r|]. split; [now apply Hp|now left].
Qed.
Definition time_of_ann (y : datetime * xyz * xyz) : Z := instant (fst (fst y)).
Lemma newest_last anns x : (forall y, In y anns -> (time_of_ann y <= time_of_ann x)%Z) -> newest x (anns ++ [x]).
Proof. intros H. exists anns, []. split; [reflexivity|]. split; [exact H|intros y []]. Qed.
Lemma newest_same anns x y : (forall z, In z anns -> valid_datetime (fst (fst z))) -> newest x anns -> newest y anns -> snd (fst x) = snd (fst y).
Proof.
  intros Hv Hx Hy. pose proof (dict_of_newest fst x anns Hv Hx) as E1. pose proof (dict_of_newest fst y anns Hv Hy) as E2. cbn [fst] in *. congruence.
Qed.
(** the position known to the writer is the site of the row *)
Definition known_site (anns : list (datetime * xyz * xyz)) (q : quantity -> option pyval) : Prop :=
  exists site lbh, shows_site q site lbh /\ forall t1 p l, newest (t1, p, l) anns -> same_place site p.
Lemma place_refl p : same_place p p.
Proof. destruct p as [[x y] z]. cbn. auto. Qed.
Lemma latest_newest anns last : (forall z, In z anns -> valid_datetime (fst (fst z))) -> latest (dict_of fst [] anns) = Ok last ->
  forall t1 p l, newest (t1, p, l) anns -> p = last.
Proof. intros Hv Hl t1 p l Hn. pose proof (dict_of_newest fst _ anns Hv Hn) as E. cbn [fst snd] in E. rewrite Hl in E. now injection E. Qed.
Lemma dict_of_valid anns last : latest (dict_of fst [] anns) = Ok last -> anns <> [].
Proof. intros H ->. discriminate. Qed.

Lemma loop_announce b xyzs si steps : forall prior last k l st k' st' os e,
  Forall dated steps ->
  w_xyz (snd st) = dict_of fst [] prior -> (forall y, In y prior -> valid_datetime (fst (fst y))) ->
  (forall y s t, In y prior -> In s steps -> usable (b_date b) s -> s_epoch s = Some t -> (time_of_ann y <= instant t)%Z) ->
  (forall pre s post s' t t', steps = pre ++ s :: post -> In s' post -> usable (b_date b) s -> usable (b_date b) s' ->
     s_epoch s = Some t -> s_epoch s' = Some t' -> (instant t <= instant t')%Z) ->
  record_loop w c b xyzs si last k l st steps = (k', st', os, e) ->
  forall x sat sd nav t q y, os = x ++ WRow sat sd nav t q :: y -> known_site (prior ++ announced x) q.
Proof.
  induction steps as [|s r IH]; intros prior last k l st k' st' os e Hda Hx Hv Hle Hord; cbn [record_loop].
  { intros H. injection H as _ _ <- _. intros x sat sd nav t q y E. destruct x; discriminate. }
  apply Forall_cons_iff in Hda. destruct Hda as [Hds Hdr].
  assert (Hle' : forall y s' t, In y prior -> In s' r -> usable (b_date b) s' -> s_epoch s' = Some t -> (time_of_ann y <= instant t)%Z).
  { intros y s' t Hy Hs. apply Hle; [exact Hy|now right]. }
  assert (Hord' : forall pre s0 post s' t t', r = pre ++ s0 :: post -> In s' post -> usable (b_date b) s0 -> usable (b_date b) s' ->
     s_epoch s0 = Some t -> s_epoch s' = Some t' -> (instant t <= instant t')%Z).
  { intros pre s0 post s' t t' E. apply (Hord (s :: pre) s0 post s' t t'). now rewrite E. }
  destruct (record_ident s) as [[[t sys] n]|e0] eqn:Ei.
  2:{ intros H. injection H as _ _ <- _. intros x sat sd nav t q y E. destruct x; discriminate. }
  apply ident_iff in Ei. destruct (accept (b_date b) si last t sys) as [last'|] eqn:Ea; [|exact (IH prior _ _ _ _ _ _ _ _ Hdr Hx Hv Hle' Hord')].
  assert (Hu : usable (b_date b) s).
  { destruct (usable_dec (b_date b) s) as [Hu|Hu]; [exact Hu|]. rewrite (unusable_accept _ _ _ _ _ _ _ Ei Hu) in Ea. discriminate. }
  pose proof (Hds t (proj1 Ei)) as Hvt.
  destruct (latest (w_xyz (snd st))) as [lst|e0] eqn:El.
  2:{ assert (Hnil : forall X, record_body w c xyzs (Err e0) k l s t sys n = Ok X -> snd X = []).
      { intros X. clear. unfold record_body. destruct (nav_step _ _ _ _ _ _) as [[[k1 l1] go]|]; cbn [bind]; [|discriminate]. destruct go; cbn [negb]; [|intros H; injection H as <-; reflexivity].
        destruct (sat_step _ _ _ _ _ _) as [[k2 go]|]; cbn [bind]; [|discriminate]. destruct go; cbn [negb]; [|intros H; injection H as <-; reflexivity].
        destruct (site_step _ _ _ _ _); cbn [bind]; discriminate. }
      destruct (record_body w c xyzs (Err e0) k l s t sys n) as [[[k1 l1] ops]|e1] eqn:Eb.
      2:{ intros H. injection H as _ _ <- _. intros x sat sd nav t' q y E. destruct x; discriminate. }
      pose proof (Hnil _ eq_refl) as En. cbn [snd] in En. subst ops. cbn [do_ops].
      destruct (record_loop w c b xyzs si last' k1 l1 st r) as [[[k2 st2] os2] e2] eqn:Er. intros H. injection H as _ _ <- _. cbn [app].
      exact (IH prior _ _ _ _ _ _ _ _ Hdr Hx Hv Hle' Hord' Er). }
  destruct (record_body w c xyzs (Ok lst) k l s t sys n) as [[[k1 l1] ops]|e0] eqn:Eb.
  2:{ intros H. injection H as _ _ <- _. intros x sat sd nav t' q y E. destruct x; discriminate. }
  destruct (do_ops (out_of w c) st ops) as [st1|e0] eqn:Ed.
  2:{ intros H. injection H as _ _ <- _. intros x sat sd nav t' q y E. destruct x; discriminate. }
  destruct (record_loop w c b xyzs si last' k1 l1 st1 r) as [[[k2 st2] os2] e2] eqn:Er. intros H. injection H as _ _ <- _.
  assert (Hann : forall y, In y (announced ops) -> fst (fst y) = t).
  { destruct (body_announce _ _ _ _ _ _ _ _ _ _ _ Eb) as [->|[pos [row [-> [Hp Hr]]]]]; [intros y []|]. intros y Hy. rewrite announced_app in Hy.
    apply in_app_or in Hy. destruct Hy as [Hy|Hy].
    - destruct Hp as [[-> _]| ->]; [destruct Hy|]. destruct Hy as [<-|[]]. reflexivity.
    - destruct Hr as [->|[? [? [? [? [-> _]]]]]]; destruct Hy. }
  assert (HV : forall y, In y (prior ++ announced ops) -> valid_datetime (fst (fst y))).
  { intros y Hy. apply in_app_or in Hy. destruct Hy as [Hy|Hy]; [exact (Hv y Hy)|]. rewrite (Hann y Hy). exact Hvt. }
  assert (Hnow : forall y, In y prior -> (time_of_ann y <= instant t)%Z).
  { intros y Hy. exact (Hle y s t Hy (or_introl eq_refl) Hu (proj1 Ei)). }
  assert (Hrest : forall x sat sd nav t' q y, os2 = x ++ WRow sat sd nav t' q :: y -> known_site ((prior ++ announced ops) ++ announced x) q).
  { apply (IH (prior ++ announced ops) last' k1 l1 st1 k2 st2 os2 e2 Hdr); [|exact HV| |exact Hord'|exact Er].
    - destruct st as [f0 w0], st1 as [f1 w1]. cbn [snd] in *. rewrite (do_ops_xyz _ _ _ _ _ _ Ed), Hx, dict_of_app. reflexivity.
    - intros y s' t' Hy Hs Hus Hes. apply in_app_or in Hy. destruct Hy as [Hy|Hy]; [exact (Hle' y s' t' Hy Hs Hus Hes)|].
      unfold time_of_ann. rewrite (Hann y Hy). exact (Hord [] s r s' t t' eq_refl Hs Hu Hus (proj1 Ei) Hes). }
  intros x sat sd nav t' q y E.
  assert (Hcase : (exists x', x = ops ++ x' /\ os2 = x' ++ WRow sat sd nav t' q :: y) \/ (exists y', ops = x ++ WRow sat sd nav t' q :: y')).
  { clear -E. revert x E. induction ops as [|o ops IHo]; intros x E; cbn [app] in E; [left; exists x; auto|].
    destruct x as [|o' x]; cbn [app] in E.
    - injection E as <- _. right. exists ops. reflexivity.
    - injection E as <- E. destruct (IHo x E) as [[x' [-> ->]]|[y' ->]]; [left; exists x'; auto|right; exists y'; reflexivity]. }
  destruct Hcase as [[x' [-> E2]]|[y' E2]].
  - rewrite announced_app, app_assoc. exact (Hrest x' sat sd nav t' q y E2).
  - clear Hrest. rewrite Hx in El.
    destruct (body_announce _ _ _ _ _ _ _ _ _ _ _ Eb) as [->|[pos [row [-> [Hp Hr]]]]]; [destruct x; discriminate|].
    destruct Hr as [->|[sat1 [sd1 [nav1 [q1 [-> Hs]]]]]].
    { exfalso. destruct Hp as [[-> _]| ->]; destruct x as [|o [|]]; cbn in E2; discriminate. }
    destruct Hp as [[-> Hp]| ->].
    + cbn [app] in E2. destruct x as [|o [|? ?]]; cbn in E2; try discriminate. injection E2 as <- <- <- <- <- _. cbn [announced]. rewrite app_nil_r.
      exists (l_xyz l1), (l_lbh l1). split; [exact Hs|]. intros t1 p q2 Hn. rewrite (latest_newest prior lst Hv El t1 p q2 Hn). exact Hp.
    + cbn [app] in E2. destruct x as [|o x]; cbn in E2; [discriminate|]. injection E2 as <- E2. destruct x as [|o [|? ?]]; cbn in E2; try discriminate.
      injection E2 as <- <- <- <- <- _. cbn [announced]. exists (l_xyz l1), (l_lbh l1). split; [exact Hs|]. intros t1 p q2 Hn.
      assert (HV2 : forall z, In z (prior ++ [(t, l_xyz l1, l_lbh l1)]) -> valid_datetime (fst (fst z))).
      { intros z Hz. apply in_app_or in Hz. destruct Hz as [Hz|[<-|[]]]; [exact (Hv z Hz)|exact Hvt]. }
      pose proof (newest_same _ _ _ HV2 Hn (newest_last prior (t, l_xyz l1, l_lbh l1) Hnow)) as Es. cbn in Es. subst p. apply place_refl.
Qed.

(** ** which positions are announced *)
Lemma nav_step_place k l t sys k' l' go : nav_step w c k l t sys = Ok (k', l', go) -> l_xyz l' = l_xyz l /\ l_lbh l' = l_lbh l.
Proof.
  unfold nav_step. destruct (dict_mem ceqb sys (l_nav l)); [intros H; injection H as _ <- _; auto|]. cbv zeta.
  destruct (load_navigation_message _ _ _ _ _ _) as [[fn m]|e]; [intros H; injection H as _ <- _; auto|]. destruct e; try discriminate; intros H; injection H as _ <- _; auto.
Qed.
Lemma body_place xyzs lp k l s t sys n k' l' ops : geodetic w (l_xyz l) (l_lbh l) -> record_body w c xyzs lp k l s t sys n = Ok (k', l', ops) ->
  geodetic w (l_xyz l') (l_lbh l') /\ forall u p q, In (WPos u p q) ops -> u = t /\ p = l_xyz l' /\ q = l_lbh l' /\ site_of xyzs s t p.
Proof.
  intros Hg. unfold record_body. destruct (nav_step w c k l t sys) as [[[k1 l1] go]|e] eqn:En; cbn [bind]; [|discriminate].
  destruct (nav_step_place _ _ _ _ _ _ _ En) as [E1 E2]. rewrite <- E1, <- E2 in Hg.
  destruct go; cbn [negb]; [|intros H; injection H as _ <- <-; split; [exact Hg|intros ? ? ? []]].
  destruct (sat_step w k1 l1 t sys n) as [[k2 go]|e]; cbn [bind]; [|discriminate].
  destruct go; cbn [negb]; [|intros H; injection H as _ <- <-; split; [exact Hg|intros ? ? ? []]].
  destruct (site_step w xyzs l1 s t) as [l2|e] eqn:Es; cbn [bind]; [|discriminate].
  destruct (site_step_spec w xyzs l1 s t l2 Hg Es) as [Hg2 Hs2]. destruct lp as [last|e]; cbn [bind]; [|discriminate]. cbv zeta.
  assert (Hp : forall u p q, In (WPos u p q) (if same_xyz (l_xyz l2) last then [] else [WPos t (l_xyz l2) (l_lbh l2)]) ->
    u = t /\ p = l_xyz l2 /\ q = l_lbh l2 /\ site_of xyzs s t p).
  { intros u p q. destruct (same_xyz _ _); [intros []|]. intros [H|[]]. injection H as <- <- <-. auto. }
  destruct (of_option KeyError (dict_get sat_key_eqb _ _)) as [cur|e]; cbn [bind]; [|discriminate].
  destruct (view w c _ cur sys) as [[v|]|e]; cbn [bind]; [|intros H; injection H as _ <- <-; auto|discriminate].
  destruct (of_option KeyError (dict_get date_eqb _ _)) as [files|e]; cbn [bind]; [|discriminate].
  destruct (of_option KeyError (dict_get ceqb _ _)) as [nav|e]; cbn [bind]; [|discriminate].
  destruct (row_step w c nav _ l2 s t sys n v) as [r|e] eqn:Er; cbn [bind]; [|discriminate]. intros H. injection H as _ <- <-. split; [exact Hg2|].
  intros u p q Hin. apply in_app_or in Hin. destruct Hin as [Hin|Hin]; [exact (Hp u p q Hin)|]. destruct r as [op|]; [|destruct Hin].
  destruct (row_step_site _ _ _ _ _ _ _ _ _ Er) as [sd [q' [-> _]]]. destruct Hin as [Hin|[]]. discriminate.
Qed.
Lemma loop_place b xyzs si steps : forall last k l st k' st' os e, geodetic w (l_xyz l) (l_lbh l) ->
  record_loop w c b xyzs si last k l st steps = (k', st', os, e) ->
  forall t p q, In (WPos t p q) os -> exists s, In s steps /\ usable (b_date b) s /\ s_epoch s = Some t /\ site_of xyzs s t p /\ geodetic w p q.
Proof.
  induction steps as [|s r IH]; intros last k l st k' st' os e Hg; cbn [record_loop].
  { intros H. injection H as _ _ <- _. intros ? ? ? []. }
  assert (Hr : forall os', (forall t p q, In (WPos t p q) os' -> exists s, In s r /\ usable (b_date b) s /\ s_epoch s = Some t /\ site_of xyzs s t p /\ geodetic w p q) ->
    forall t p q, In (WPos t p q) os' -> exists s', In s' (s :: r) /\ usable (b_date b) s' /\ s_epoch s' = Some t /\ site_of xyzs s' t p /\ geodetic w p q).
  { intros os' H t p q Hin. destruct (H t p q Hin) as [s' [H1 H2]]. exists s'. split; [now right|exact H2]. }
  destruct (record_ident s) as [[[t sys] n]|e0] eqn:Ei; [|intros H; injection H as _ _ <- _; intros ? ? ? []].
  apply ident_iff in Ei. destruct (accept (b_date b) si last t sys) as [last'|] eqn:Ea; [|intros H; apply Hr; exact (IH _ _ _ _ _ _ _ _ Hg H)].
  assert (Hu : usable (b_date b) s).
  { destruct (usable_dec (b_date b) s) as [Hu|Hu]; [exact Hu|]. rewrite (unusable_accept _ _ _ _ _ _ _ Ei Hu) in Ea. discriminate. }
  destruct (record_body _ _ _ _ _ _ _ _ _ _) as [[[k1 l1] ops]|e0] eqn:Eb; [|intros H; injection H as _ _ <- _; intros ? ? ? []].
  destruct (body_place _ _ _ _ _ _ _ _ _ _ _ Hg Eb) as [Hg1 Hops].
  destruct (do_ops _ _ ops) as [st1|e0]; [|intros H; injection H as _ _ <- _; intros ? ? ? []].
  destruct (record_loop _ _ _ _ _ _ _ _ _ r) as [[[k2 st2] os2] e2] eqn:Er. intros H. injection H as _ _ <- _. intros u p q Hin.
  apply in_app_or in Hin. destruct Hin as [Hin|Hin]; [|exact (Hr os2 (IH _ _ _ _ _ _ _ _ Hg1 Er) u p q Hin)].
  destruct (Hops u p q Hin) as [-> [-> [-> Hs]]]. exists s. split; [now left|]. split; [exact Hu|]. split; [exact (proj1 Ei)|]. auto.
Qed.
Lemma file_announce f name ops : written w c f name ops -> ops <> [] ->
  exists b t0 ts lbh os xyzs, open_obs w name = Ok b /\ h_tofo (b_hdr b) = Some (t0, ts) /\ ops = WPos t0 (h_xyz (b_hdr b)) lbh :: os /\
    geodetic w (h_xyz (b_hdr b)) lbh /\ coordinates w c name xyzs /\
    (forall t p q, In (WPos t p q) os -> exists s, In s (b_steps b) /\ usable (b_date b) s /\ s_epoch s = Some t /\ site_of xyzs s t p /\ geodetic w p q) /\
    (in_order b -> forall x sat sd nav t q y, ops = x ++ WRow sat sd nav t q :: y -> known_site (announced x) q).
Proof.
  intros Hw Hne. destruct (written_file w c f name ops Hw) as [k1 [f1 [k2 [f2 [e [G H]]]]]].
  revert H. unfold file_step. destruct (open_obs w name) as [b|x] eqn:Eo.
  2:{ intros H. exfalso. apply Hne. destruct x; now injection H as _ _ <- _. }
  destruct (file_start w c b) as [[[[[[xyzs si] l] iv] pos]|]|x] eqn:Es.
  2,3: intros H; exfalso; apply Hne; now injection H as _ _ <- _.
  destruct (file_start_spec w c b xyzs si l iv pos Es) as [H1 [H2 [H3 [H4 [H5 [H6 [t0 [ts [H7 H8]]]]]]]]].
  assert (Hn : b_name b = name).
  { revert Eo. clear. unfold open_obs. destruct (expand_plan name); cbn [bind]; [|discriminate]. cbv zeta. destruct (w_content w name); cbn [bind]; [|discriminate]. destruct (obs_class _) as [v|]; cbn [bind]; [|discriminate].
    destruct (ver_lt3 v).
    - destruct (open2 _ _) as [r|]; cbn [bind]; [|discriminate]. destruct (records2 v r) as [[? ?] ?]. intros H. injection H as <-. reflexivity.
    - destruct (open3 _ _ _) as [r|]; cbn [bind]; [|discriminate]. destruct (records3 v r) as [[? ?] ?]. intros H. injection H as <-. reflexivity. }
  rewrite Hn in H4. subst pos. cbn [do_op].
  destruct (record_loop w c b xyzs si None k1 l _ (b_steps b)) as [[[k3 st3] os] e3] eqn:El. intros H. injection H as _ _ <- _.
  exists b, t0, ts, (l_lbh l), os, xyzs. split; [reflexivity|]. split; [exact H7|]. rewrite <- H3. split; [reflexivity|]. split; [exact H2|]. split; [exact H4|].
  split; [exact (loop_place _ _ _ _ _ _ _ _ _ _ _ _ H2 El)|]. intros [O1 O2] x sat sd nav t q y E.
  destruct x as [|o x]; [discriminate|]. cbn [app] in E. injection E as <- E. cbn [announced].
  change ((t0, l_xyz l, l_lbh l) :: announced x) with ([(t0, l_xyz l, l_lbh l)] ++ announced x).
  apply (loop_announce b xyzs si (b_steps b) [(t0, l_xyz l, l_lbh l)] None k1 l (f1, update_lbh (update_xyz (new_writer name iv) t0 (l_xyz l)) t0 (l_lbh l)) k3 st3 os e3 (open_obs_dated w name b Eo)) with (sat := sat) (sd := sd) (nav := nav) (t := t) (y := y); [reflexivity| | |exact O2|exact El|exact E].
  - intros z [<-|[]]. cbn [fst]. exact (open_obs_tofo w name b Eo t0 ts H7).
  - intros z s u [<-|[]] Hs Hu Hep. exact (O1 t0 ts s u H7 Hs Hu Hep).
Qed.
Lemma announced_in t p l os : In (t, p, l) (announced os) -> In (WPos t p l) os.
Proof. induction os as [|[u a b|s sd nav u q] os IH]; cbn; [auto| |auto]. intros [H|H]; [left; now injection H as <- <- <-|auto]. Qed.
Lemma file_comment f pre name ops post sat b before sd nav t q after : stopped_by w c f = None -> snd (fst (main w c f)) = pre ++ (name, ops) :: post ->
  (forall name' ops', In (name', ops') post -> rows_of sat ops' <> [] -> marker_of name' <> marker_of name \/ get_rinex_date name' <> get_rinex_date name) ->
  open_obs w name = Ok b -> in_order b -> ops = before ++ WRow sat sd nav t q :: after -> rows_of sat before = [] ->
  exists iv d p l site lbh rows, h_interval (b_hdr b) = Some iv /\ get_rinex_date name = Some d /\
    fs_get (result_file (c_outdir c) (marker_of name) sat d) (fst (fst (main w c f))) = Some (comment_text (comment_lines (out_of w c) name iv sd nav p l) ++ rows) /\
    geodetic w p l /\ shows_site q site lbh /\ same_place site p.
Proof.
  intros Hs Hlog Hpost Hob Hord Eops Hbef.
  assert (Hrow : rows_of sat ops <> []). { rewrite Eops, rows_of_app. cbn [rows_of]. rewrite seqb_refl. destruct (rows_of sat before); discriminate. }
  destruct (run_target w c f pre name ops post sat Hs Hlog Hrow Hpost) as [b' [iv [d [f1 [f2 [Ho [Hiv [Hd [Hw [[K1 [K2 [K3 K4]]] [E2 Ht]]]]]]]]]]].
  rewrite Hob in Ho. injection Ho as <-. exists iv, d.
  assert (Hne : ops <> []) by (rewrite Eops; destruct before; discriminate).
  destruct (file_announce f name ops Hw Hne) as [b2 [t0 [ts [lbh0 [os [xyzs [Ho2 [Htf [Eo2 [Hg0 [_ [Hlater Hnew]]]]]]]]]]]]. rewrite Hob in Ho2. injection Ho2 as <-.
  assert (Hval : forall u p l, In (WPos u p l) ops -> valid_datetime u /\ geodetic w p l).
  { intros u p l Hin. rewrite Eo2 in Hin. destruct Hin as [Hin|Hin].
    - injection Hin as <- <- <-. split; [exact (open_obs_tofo w name b Hob t0 ts Htf)|exact Hg0].
    - destruct (Hlater u p l Hin) as [s [S1 [_ [S2 [_ S3]]]]]. split; [|exact S3]. pose proof (open_obs_dated w name b Hob) as Hda. rewrite Forall_forall in Hda. exact (Hda s S1 u S2). }
  destruct (comment_top (out_of w c) f1 name iv ops f2 d before sat sd nav t q after K1 K2 K3 K4 (fun u p l H => proj1 (Hval u p l H)) E2 Eops Hbef) as [u [p [l [rows [Hn Hf]]]]].
  destruct (Hnew Hord before sat sd nav t q after Eops) as [site [lbh [Hsh Hpl]]].
  exists p, l, site, lbh, rows. split; [exact Hiv|]. split; [exact Hd|]. split; [rewrite Ht; exact Hf|]. split; [|split; [exact Hsh|exact (Hpl u p l Hn)]].
  destruct Hn as [a1 [a2 [Ea _]]]. assert (Hin : In (u, p, l) (announced before)) by (rewrite Ea; apply in_or_app; right; now left).
  apply announced_in in Hin. apply (Hval u p l). rewrite Eops. apply in_or_app. now left.
Qed.
End Announced.

(** ** which files are processed *)
Lemma sort_strongly l : Sorted.StronglySorted S_Label.str_le (sort_str l).
Proof. pose proof (P_Label.sort_sorted l) as H. induction H as [|x r HF Hs IH]; constructor; assumption. Qed.
Lemma P_Main12_ok {A} (a b : A) : Ok a = Ok b -> b = a.
Proof. congruence. Qed.
Section Processed.
Variable (w : world) (c : cfg).
Lemma files_names names : forall k f f' log e, files_loop w c k f names = (f', log, e) -> exists rest, names = map fst log ++ rest /\ (e = None -> rest = []).
Proof.
  induction names as [|nm r IH]; intros k f f' log e; cbn [files_loop]; [intros H; injection H as _ <- _; exists []; auto|].
  destruct (file_step w c k f nm) as [[[k1 f1] os] [x|]].
  - intros H. injection H as _ <- <-. exists r. split; [reflexivity|discriminate].
  - destruct (files_loop w c k1 f1 r) as [[f2 l2] e2] eqn:E. intros H. injection H as _ <- <-. destruct (IH _ _ _ _ _ E) as [rest [-> Hr]]. exists rest. auto.
Qed.
Lemma run_names f : exists rest,
  Permutation.Permutation (find_files (w_ls w) (c_obsdir c) RE_OBS) (map fst (snd (fst (main w c f))) ++ rest) /\
  Sorted.StronglySorted S_Label.str_le (map fst (snd (fst (main w c f))) ++ rest) /\ (stopped_by w c f = None -> rest = []).
Proof.
  pose proof (P_Label.sort_perm (find_files (w_ls w) (c_obsdir c) RE_OBS)) as Hp. pose proof (sort_strongly (find_files (w_ls w) (c_obsdir c) RE_OBS)) as Hs.
  unfold stopped_by, main. destruct (sort_str _) as [|nm r]; [exists []; cbn; auto|].
  destruct (files_loop w c no_caches f (nm :: r)) as [[f' log] e] eqn:E. destruct (files_names _ _ _ _ _ _ E) as [rest [En Hr]]. exists rest.
  cbn [fst snd]. rewrite <- En. auto.
Qed.
Lemma run_none f : find_files (w_ls w) (c_obsdir c) RE_OBS = [] -> main w c f = (f, [], Some SystemExit).
Proof. intros H. unfold main. rewrite H. reflexivity. Qed.
Lemma supports_iff s : supports s = true <-> In s systems.
Proof. unfold supports. rewrite existsb_exists. split; [intros [x [Hx E]]; apply ceqb_eq in E; subst; exact Hx|]. intros H. exists s. split; [exact H|apply ceqb_refl]. Qed.
Lemma file_suitable f name ops : written w c f name ops -> stopped_by w c f = None -> (ops <> [] <-> exists b, open_obs w name = Ok b /\ suitable b).
Proof.
  intros Hw Hst. destruct (written_done w c f name ops Hw Hst) as [k1 [f1 [k2 [f2 [G H]]]]]. unfold file_step in H.
  destruct (open_obs w name) as [b|e]; [|split; [intros Hne; exfalso; apply Hne; destruct e; try discriminate; now injection H as _ _ <-|intros [b [? _]]; discriminate]].
  destruct (file_start w c b) as [[[[[[xyzs si] l] iv] pos]|]|e] eqn:Es; [| |discriminate].
  - destruct (do_op _ _ pos) as [st|e]; [|discriminate]. destruct (record_loop _ _ _ _ _ _ _ _ _ _) as [[[k3 st3] os] e3]. injection H as _ _ <- _.
    split; [|intros _; clear; discriminate]. intros _. exists b. split; [reflexivity|]. revert Es. clear. unfold file_start, suitable.
    destruct (h_ver (b_hdr b)) as [[[rv ft] ss]|]; cbn [of_option bind]; [|discriminate].
    destruct (supports ss || ceqb ss "M") eqn:E1; cbn [negb]; [|discriminate]. destruct (h_tofo (b_hdr b)) as [[t0 ts]|]; cbn [of_option bind]; [|discriminate].
    destruct (seqb ts (lit "GPS")) eqn:E2; cbn [negb]; [|discriminate]. intros _. apply seqb_eq in E2. subst ts. split; [|now exists t0].
    exists rv, ft, ss. split; [reflexivity|]. apply orb_prop in E1. destruct E1 as [E1|E1]; [left; now apply supports_iff|right; now apply ceqb_eq].
  - injection H as _ _ <-. split; [intros X; now destruct X|]. intros [b' [E [[rv [ft [ss [H1 H2]]]] [t0 H3]]]]. apply P_Main12_ok in E. subst b'. exfalso. revert Es. unfold file_start.
    rewrite H1, H3. cbn [of_option bind].
    assert (E1 : supports ss || ceqb ss "M" = true). { destruct H2 as [H2| ->]; [apply supports_iff in H2; now rewrite H2|]. rewrite ceqb_refl. apply orb_true_r. }
    rewrite E1. cbn [negb]. rewrite seqb_refl. cbn [negb]. destruct (lbh_of w _); cbn [bind]; [|discriminate]. destruct (xyz_data _ _ _); cbn [bind]; [|discriminate].
    destruct (interval_of b); cbn [bind]; [|discriminate]. destruct (sampling_of c b); cbn [bind]; discriminate.
Qed.
End Processed.
