(** The positions, intervals and channels of a run are binary64 numbers. *)
From Coq Require Import ZifyBool ZifyNat.
From Verif Require Import Base PyStr PyFloat PyDate PyPath PyRegex S_Text S_Time S_Open2 M_Common M_Header M_Obs2 M_Obs3 M_Rec M_Text M_Cfg M_Label M_Names M_Xyz M_Nav M_NmUtils M_Num M_Tec M_Sat M_Main M_Run S_Names S_Xyz S_Main S_Fresh S_Out S_Show P_Str P_Date P_Nav P_Nav5 P_Out P_Out2 P_Errors2 P_Main1 P_Main2 P_Main3 P_Main4 P_Main5 P_Main6 P_Main7 P_Main8 P_Main12 P_Show1.
Open Scope nat_scope.

Lemma read_b64 s x : py_float s = Ok x -> is_b64 x.
Proof. exact (py_float_valid s x). Qed.
Definition iv_ok (v : pynum) : Prop := match v with PFloat x => is_b64 x | PInt _ => True end.
Definition num_ok (h : hdr) : Prop := is_b64_3 (h_xyz h) /\ forall v, h_interval h = Some v -> iv_ok v.
Lemma zero_ok : is_b64_3 (fzero, fzero, fzero).
Proof. repeat split. Qed.
Lemma set_interval_ok v line iv : set_interval v line = Ok iv -> iv_ok iv.
Proof.
  unfold set_interval. destruct (ver_is20 v).
  - destruct (py_int _); cbn [bind]; [|discriminate]. intros H. injection H as <-. exact I.
  - destruct (py_float _) as [x|] eqn:E; cbn [bind]; [|discriminate]. intros H. injection H as <-. exact (read_b64 _ _ E).
Qed.
Lemma set_item_num v i line h h' : num_ok h -> set_item v i line h = Ok h' -> num_ok h'.
Proof.
  intros [H1 H2]. destruct i; cbn [set_item].
  - destruct (set_ver v line); cbn [bind]; [|discriminate]. intros H. injection H as <-. split; assumption.
  - destruct (set_tofo v line); cbn [bind]; [|discriminate]. intros H. injection H as <-. split; assumption.
  - unfold set_xyz. destruct (py_float (slice 0 14 line)) as [x|] eqn:E1; cbn [bind]; [|discriminate]. destruct (py_float (slice 14 28 line)) as [y|] eqn:E2; cbn [bind]; [|discriminate].
    destruct (py_float (slice 28 42 line)) as [z|] eqn:E3; cbn [bind]; [|discriminate]. intros H. injection H as <-. split; [|exact H2].
    cbn [h_xyz]. split; [exact (read_b64 _ _ E1)|]. split; [exact (read_b64 _ _ E2)|exact (read_b64 _ _ E3)].
  - destruct (set_interval v line) as [iv|] eqn:E; cbn [bind]; [|discriminate]. intros H. injection H as <-. split; [exact H1|]. intros w Hw. cbn in Hw. injection Hw as <-. exact (set_interval_ok _ _ _ E).
Qed.
Lemma parse_header_num v lines h h' : num_ok h -> parse_header v lines h = Ok h' -> num_ok h'.
Proof.
  unfold parse_header. generalize [HVer; HTofo; HXyz; HInterval]. revert h. induction lines as [|line r IH]; intros h items Hh; cbn [parse_header_loop].
  { intros H. injection H as <-. exact Hh. }
  destruct (find _ items) as [i|]; [|now apply IH]. destruct (set_item v i line h) as [h1|] eqn:E; cbn [bind]; [|discriminate].
  apply IH. exact (set_item_num _ _ _ _ _ Hh E).
Qed.
Lemma read_records_num v types fuel : forall lines o ys e o', num_ok (o_hdr o) -> read_records fuel v types lines o = (ys, e, o') ->
  num_ok (o_hdr o') /\ forall y ob, In (y, ob) ys -> num_ok (o_hdr ob).
Proof.
  induction fuel as [|fuel IH]; intros lines o ys e o' Ho; cbn [read_records]; [intros H; injection H as <- _ <-; split; [exact Ho|intros; contradiction]|].
  destruct lines as [|line rest]; [intros H; injection H as <- _ <-; split; [exact Ho|intros; contradiction]|].
  destruct (read_epoch (rstrip line) rest) as [[er r]|x]; [|intros H; injection H as <- _ <-; split; [exact Ho|intros; contradiction]].
  destruct er as [flag num|ep flag prns].
  - destruct (take_recs (Z.to_nat num) r) as [[ls r']|x]; [|intros H; injection H as <- _ <-; split; [exact Ho|intros; contradiction]].
    destruct ((flag =? 3)%Z || (flag =? 4)%Z); [|now apply IH].
    destruct (parse_header v ls (o_hdr o)) as [h|x] eqn:Eh; [|intros H; injection H as <- _ <-; split; [exact Ho|intros; contradiction]]. apply IH.
    exact (parse_header_num _ _ _ _ Ho Eh).
  - destruct (read_sats types ep prns o r) as [ys1 e1] eqn:Es. pose proof (read_sats_obj _ _ _ _ _ _ _ Es) as Hsat. destruct e1 as [r'|x].
    + destruct (read_records fuel v types r' (mkObj2 (Some ep) (o_hdr o))) as [[ys2 e2] o2] eqn:Er. intros H. injection H as <- _ <-.
      destruct (IH _ (mkObj2 (Some ep) (o_hdr o)) _ _ _ Ho Er) as [H1 H2]. split; [exact H1|].
      intros y ob Hin. apply in_app_or in Hin. destruct Hin as [Hin|Hin]; [rewrite (Hsat _ _ Hin); exact Ho|exact (H2 _ _ Hin)].
    + intros H. injection H as <- _ <-. split; [exact Ho|]. intros y ob Hin. rewrite (Hsat _ _ Hin). exact Ho.
Qed.
Lemma handle_event_num v flag sp o o' : num_ok (o3_hdr o) -> handle_event v flag sp o = Ok o' -> num_ok (o3_hdr o').
Proof.
  intros Ho. unfold handle_event, parse_header3. destruct (flag =? 4)%Z; [|intros H; injection H as <-; exact Ho].
  destruct (parse_header v sp (o3_hdr o)) as [h|] eqn:Eh; cbn [bind]; [|discriminate]. destruct (set_sno _ _ _); cbn [bind]; [|discriminate]. intros H. injection H as <-.
  exact (parse_header_num _ _ _ _ Ho Eh).
Qed.
Lemma read_records3_num v chunks lines : forall s special o ys e o', num_ok (o3_hdr o) ->
  read_records3 v chunks lines s special o = (ys, e, o') -> forall y ob, In (y, ob) ys -> num_ok (o3_hdr ob).
Proof.
  induction lines as [|line rest IH]; intros s special o ys e o' Ho; cbn [read_records3]; [intros H; injection H as <- _ _; intros; contradiction|].
  destruct line as [|c0 l]; [intros H; injection H as <- _ _; intros; contradiction|].
  destruct (ceqb c0 ">").
  - destruct (parse_epoch3 (c0 :: l)) as [s'|x]; [|intros H; injection H as <- _ _; intros; contradiction]. now apply IH.
  - destruct s as [[[ep flag] n]|]; [|intros H; injection H as <- _ _; intros; contradiction].
    destruct (1 <? flag)%Z.
    + match goal with |- context [if (0 <? n)%Z then ?a else ?b] => destruct (if (0 <? n)%Z then a else b) as [sp n1] end. destruct (n1 =? 0)%Z; [|now apply IH].
      destruct (handle_event v flag sp o) as [o1|x] eqn:Eh; [|intros H; injection H as <- _ _; intros; contradiction]. apply IH. exact (handle_event_num _ _ _ _ _ Ho Eh).
    + cbv zeta. destruct (0 <? n)%Z; [|now apply IH].
      destruct (parse_obs3 chunks (o3_tab o) (c0 :: l)) as [[[sat types] vals]|x]; [|intros H; injection H as <- _ _; intros; contradiction].
      destruct (make_record types vals []) as [rec|x]; [|intros H; injection H as <- _ _; intros; contradiction].
      destruct (read_records3 v chunks rest _ special o) as [[ys1 e1] o1] eqn:Er. intros H. injection H as <- _ _.
      intros y ob [Hin|Hin]; [injection Hin as _ <-; exact Ho|]. exact (IH _ _ _ _ _ _ Ho Er _ _ Hin).
Qed.
Lemma open_obs_num w name b : open_obs w name = Ok b -> num_ok (b_hdr b) /\ forall s, In s (b_steps b) -> is_b64_3 (s_xyz s).
Proof.
  unfold open_obs. destruct (expand_plan name) as [u|x]; cbn [bind]; [|discriminate]. cbv zeta. destruct (w_content w name); cbn [bind]; [|discriminate].
  destruct (obs_class _) as [v|x]; cbn [bind]; [|discriminate]. assert (H0 : num_ok hdr0) by (split; [exact zero_ok|intros v' X; discriminate]). destruct (ver_lt3 v).
  - destruct (open2 v _) as [r|x] eqn:Eo; cbn [bind]; [|discriminate].
    destruct (records2 v r) as [[ys e] o] eqn:Erec. intros H. injection H as <-. cbn [b_hdr b_steps].
    assert (Hr : num_ok (o_hdr (r_obj r))).
    { revert Eo. unfold open2.
      destruct (split_header _ _) as [header body]. destruct (set_obs_num_types header) as [types|x]; cbn [bind]; [|discriminate].
      destruct (parse_header v header hdr0) as [h|x] eqn:Eh; cbn [bind]; [|discriminate]. unfold get_interval.
      destruct (run_records v types body (mkObj2 None h)) as [[ys1 ge] o1] eqn:Er.
      destruct (read_records_num _ _ _ _ _ _ _ _ (parse_header_num _ _ _ _ H0 Eh : num_ok (o_hdr (mkObj2 None h))) Er) as [K1 K2].
      destruct (collect_deltas 10 None ys1 ge o1) as [[ds o2]|x] eqn:Ec; cbn [bind]; [|discriminate].
      pose proof (collect_obj (fun ob => num_ok (o_hdr ob)) _ _ _ _ _ _ _ K1 K2 Ec) as K3. destruct (best_key _ _) as [dt|]; cbn [bind]; [|discriminate].
      destruct (set_interval v _) as [iv|x] eqn:Ei; cbn [bind]; [|discriminate]. intros H. injection H as <-. cbn [r_obj o_hdr].
      split; [exact (proj1 K3)|]. intros v' Hv. cbn in Hv. injection Hv as <-. exact (set_interval_ok _ _ _ Ei). }
    split; [exact Hr|]. intros s Hs. apply in_map_iff in Hs. destruct Hs as [[[[t sat] rec] ob] [<- Hin]]. cbn [step2 s_xyz].
    exact (proj1 (proj2 (read_records_num _ _ _ _ _ _ _ _ Hr Erec) _ _ Hin)).
  - destruct (open3 _ v _) as [r|x] eqn:Eo; cbn [bind]; [|discriminate].
    destruct (records3 v r) as [[ys e] o] eqn:Erec. intros H. injection H as <-. cbn [b_hdr b_steps].
    assert (Hr : num_ok (o3_hdr (r3_obj r))).
    { revert Eo. unfold open3.
      destruct (split_header _ _) as [header body]. unfold parse_header3. cbn [o3_hdr o3_tab].
      destruct (parse_header v header hdr0) as [h|x] eqn:Eh; cbn [bind]; [|discriminate].
      destruct (set_sno _ _ _) as [tab|x]; cbn [bind]; [|discriminate]. destruct (det_interval _ _ _) as [iv|x] eqn:Ei; cbn [bind]; [|discriminate].
      destruct (max_types _) as [m|x]; cbn [bind]; [|discriminate]. intros H. injection H as <-. cbn [r3_obj o3_hdr].
      split; [exact (proj1 (parse_header_num _ _ _ _ H0 Eh))|]. intros v' Hv. cbn in Hv. injection Hv as <-.
      revert Ei. unfold det_interval. destruct (next_epoch _ _) as [[e0 r0]|]; cbn [bind]; [|discriminate]. destruct (next_epoch _ _) as [[e1 r1]|]; cbn [bind]; [|discriminate].
      destruct (next_different _ _ _ _) as [e1'|]; cbn [bind]; [|discriminate]. destruct e0, e1'; try discriminate. cbv zeta. destruct (fleb _ _); [discriminate|]. apply set_interval_ok. }
    split; [exact Hr|]. intros s Hs. apply in_map_iff in Hs. destruct Hs as [[[[t sat] rec] ob] [<- Hin]]. cbn [step3 s_xyz].
    exact (proj1 (read_records3_num _ _ _ _ _ _ _ _ _ Hr Erec _ _ Hin)).
Qed.

(** ** the coordinates file *)
Definition all_b64 (d : list (datetime * xyz)) : Prop := forall t p, In (t, p) d -> is_b64_3 p.
Lemma dict_set_b64 t p d : all_b64 d -> is_b64_3 p -> all_b64 (dict_set dt_eqb t p d).
Proof.
  intros Hd Hp. induction d as [|[t' p'] d IH]; cbn [dict_set].
  - intros u q [H|[]]. injection H as _ <-. exact Hp.
  - assert (Hd' : all_b64 d) by (intros u q H; apply (Hd u q); now right). destruct (dt_eqb t t').
    + intros u q [H|H]; [injection H as _ <-; exact Hp|exact (Hd' u q H)].
    + intros u q [H|H]; [exact (Hd u q (or_introl H))|exact (IH Hd' u q H)].
Qed.
Lemma load_b64 recs : forall d d', all_b64 d -> load_xyz recs d = Ok d' -> all_b64 d'.
Proof.
  induction recs as [|rec r IH]; intros d d' Hd; cbn [load_xyz]; [intros H; injection H as <-; exact Hd|].
  destruct (load_xyz_line rec d) as [d1|] eqn:E; cbn [bind]; [|discriminate]. apply IH. revert E. unfold load_xyz_line. cbv zeta.
  destruct (is_comment (rstrip rec)); [intros H; injection H as <-; exact Hd|]. destruct (rstrip rec) as [|c0 l]; [intros H; injection H as <-; exact Hd|].
  destruct (re_split (c0 :: l)) as [|cd [|ct [|x [|y [|z [|]]]]]]; try discriminate. destruct (strptime_epoch _) as [t|]; cbn [bind]; [|discriminate].
  destruct (catch _ _ _) as [p|] eqn:Ec; cbn [bind]; [|discriminate]. intros H. injection H as <-. apply dict_set_b64; [exact Hd|].
  unfold catch in Ec. destruct (py_float x) as [fx|] eqn:E1; cbn [bind] in Ec; [|match type of Ec with (if ?b then _ else _) = _ => destruct b end; discriminate].
  destruct (py_float y) as [fy|] eqn:E2; cbn [bind] in Ec; [|match type of Ec with (if ?b then _ else _) = _ => destruct b end; discriminate].
  destruct (py_float z) as [fz|] eqn:E3; cbn [bind] in Ec; [|match type of Ec with (if ?b then _ else _) = _ => destruct b end; discriminate].
  injection Ec as <-. split; [exact (read_b64 _ _ E1)|]. split; [exact (read_b64 _ _ E2)|exact (read_b64 _ _ E3)].
Qed.
Lemma xyz_data_b64 w c name d : xyz_data w c name = Ok d -> all_b64 d.
Proof.
  unfold xyz_data. assert (H0 : all_b64 []) by (intros t p []). destruct (find_files _ _ _); [intros H; injection H as <-; exact H0|].
  destruct (find_xyz_file _ _) as [f|]; [|intros H; injection H as <-; exact H0]. destruct (w_crd w f) as [ls|]; cbn [bind]; [|discriminate]. exact (load_b64 ls [] d H0).
Qed.

(** ** the positions told to the writer *)
Section Run.
Variable (w : world) (c : cfg).
Lemma get_b64 (xyzs : list (datetime * xyz)) t p : all_b64 xyzs -> dict_get dt_eqb t xyzs = Some p -> is_b64_3 p.
Proof.
  intros H. induction xyzs as [|[u q] r IH]; cbn [dict_get]; [discriminate|]. destruct (dt_eqb t u).
  - intros E. injection E as <-. exact (H u q (or_introl eq_refl)).
  - apply IH. intros v x Hin. apply (H v x). now right.
Qed.
Lemma site_step_b64 xyzs l s t l' : all_b64 xyzs -> is_b64_3 (s_xyz s) -> is_b64_3 (l_xyz l) -> site_step w xyzs l s t = Ok l' -> is_b64_3 (l_xyz l').
Proof.
  intros Hx Hs Hl. unfold site_step. destruct (dict_get dt_eqb t xyzs) as [p|] eqn:E.
  - destruct (lbh_of w p); cbn [bind]; [|discriminate]. intros H. injection H as <-. exact (get_b64 _ _ _ Hx E).
  - destruct (same_xyz _ _); [intros H; injection H as <-; exact Hl|]. destruct (lbh_of w (s_xyz s)); cbn [bind]; [|discriminate]. intros H. injection H as <-. exact Hs.
Qed.
Lemma body_b64 xyzs lp k l s t sys n k' l' ops : all_b64 xyzs -> is_b64_3 (s_xyz s) -> is_b64_3 (l_xyz l) -> record_body w c xyzs lp k l s t sys n = Ok (k', l', ops) ->
  is_b64_3 (l_xyz l') /\ forall u p q, In (WPos u p q) ops -> is_b64_3 p.
Proof.
  intros Hx Hs Hl. unfold record_body. destruct (nav_step w c k l t sys) as [[[k1 l1] go]|e] eqn:En; cbn [bind]; [|discriminate].
  destruct (nav_step_place _ _ _ _ _ _ _ _ _ En) as [E1 _]. rewrite <- E1 in Hl.
  destruct go; cbn [negb]; [|intros H; injection H as _ <- <-; split; [exact Hl|intros ? ? ? []]].
  destruct (sat_step w k1 l1 t sys n) as [[k2 go]|e]; cbn [bind]; [|discriminate].
  destruct go; cbn [negb]; [|intros H; injection H as _ <- <-; split; [exact Hl|intros ? ? ? []]].
  destruct (site_step w xyzs l1 s t) as [l2|e] eqn:Es; cbn [bind]; [|discriminate].
  pose proof (site_step_b64 _ _ _ _ _ Hx Hs Hl Es) as H2. destruct lp as [last|e]; cbn [bind]; [|discriminate]. cbv zeta.
  assert (Hp : forall u p q, In (WPos u p q) (if same_xyz (l_xyz l2) last then [] else [WPos t (l_xyz l2) (l_lbh l2)]) -> is_b64_3 p).
  { intros u p q. destruct (same_xyz _ _); [intros []|]. intros [H|[]]. injection H as <- <- <-. exact H2. }
  destruct (of_option KeyError (dict_get sat_key_eqb _ _)) as [cur|e]; cbn [bind]; [|discriminate].
  destruct (view w c _ cur sys) as [[v|]|e]; cbn [bind]; [|intros H; injection H as _ <- <-; auto|discriminate].
  destruct (of_option KeyError (dict_get date_eqb _ _)) as [files|e]; cbn [bind]; [|discriminate].
  destruct (of_option KeyError (dict_get ceqb _ _)) as [nav|e]; cbn [bind]; [|discriminate].
  destruct (row_step w c nav _ l2 s t sys n v) as [r|e] eqn:Er; cbn [bind]; [|discriminate]. intros H. injection H as _ <- <-. split; [exact H2|].
  intros u p q Hin. apply in_app_or in Hin. destruct Hin as [Hin|Hin]; [exact (Hp u p q Hin)|]. destruct r as [op|]; [|destruct Hin].
  destruct (row_step_time w c _ _ _ _ _ _ _ _ _ Er) as [sd [q' ->]]. destruct Hin as [Hin|[]]. discriminate.
Qed.
Lemma loop_b64 b xyzs si steps : all_b64 xyzs -> (forall s, In s steps -> is_b64_3 (s_xyz s)) -> forall last k l st k' st' os e, is_b64_3 (l_xyz l) ->
  record_loop w c b xyzs si last k l st steps = (k', st', os, e) -> forall t p q, In (WPos t p q) os -> is_b64_3 p.
Proof.
  intros Hx. induction steps as [|s r IH]; intros Hs last k l st k' st' os e Hl; cbn [record_loop].
  { intros H. injection H as _ _ <- _. intros ? ? ? []. }
  assert (Hs' : forall s, In s r -> is_b64_3 (s_xyz s)) by (intros x Hin; apply Hs; now right).
  destruct (record_ident s) as [[[t sys] n]|e0]; [|intros H; injection H as _ _ <- _; intros ? ? ? []].
  destruct (accept (b_date b) si last t sys) as [last'|]; [|intros H; exact (IH Hs' _ _ _ _ _ _ _ _ Hl H)].
  destruct (record_body _ _ _ _ _ _ _ _ _ _) as [[[k1 l1] ops]|e0] eqn:Eb; [|intros H; injection H as _ _ <- _; intros ? ? ? []].
  destruct (body_b64 _ _ _ _ _ _ _ _ _ _ _ Hx (Hs s (or_introl eq_refl)) Hl Eb) as [Hl1 Hops].
  destruct (do_ops _ _ ops) as [st1|e0]; [|intros H; injection H as _ _ <- _; intros ? ? ? []].
  destruct (record_loop _ _ _ _ _ _ _ _ _ r) as [[[k2 st2] os2] e2] eqn:Er. intros H. injection H as _ _ <- _. intros u p q Hin.
  apply in_app_or in Hin. destruct Hin as [Hin|Hin]; [exact (Hops u p q Hin)|exact (IH Hs' _ _ _ _ _ _ _ _ Hl1 Er u p q Hin)].
Qed.
Lemma told_b64 f name ops : written w c f name ops -> forall t p q, In (WPos t p q) ops -> is_b64_3 p.
Proof.
  intros Hw. destruct (written_file w c f name ops Hw) as [k1 [f1 [k2 [f2 [e [G H]]]]]].
  revert H. unfold file_step. destruct (open_obs w name) as [b|x] eqn:Eo.
  2:{ intros H. destruct x; injection H as _ _ <- _; intros ? ? ? []. }
  destruct (open_obs_num _ _ _ Eo) as [[N1 N2] N3].
  destruct (file_start w c b) as [[[[[[xyzs si] l] iv] pos]|]|x] eqn:Es.
  2,3: intros H; injection H as _ _ <- _; intros ? ? ? [].
  assert (Hx : all_b64 xyzs /\ l_xyz l = h_xyz (b_hdr b) /\ exists u q, pos = WPos u (h_xyz (b_hdr b)) q).
  { revert Es. unfold file_start. destruct (of_option TypeError (h_ver (b_hdr b))) as [[[rv ft] ss]|]; cbn [bind]; [|discriminate]. destruct (negb _); [discriminate|].
    destruct (of_option TypeError (h_tofo (b_hdr b))) as [[t0 ts]|]; cbn [bind]; [|discriminate]. destruct (negb _); [discriminate|]. cbv zeta.
    destruct (lbh_of w _) as [q|]; cbn [bind]; [|discriminate]. destruct (xyz_data w c (b_name b)) as [xs|] eqn:Ex; cbn [bind]; [|discriminate].
    destruct (interval_of b); cbn [bind]; [|discriminate]. destruct (sampling_of c b); cbn [bind]; [|discriminate]. intros H. injection H as <- _ <- _ <-.
    split; [exact (xyz_data_b64 _ _ _ _ Ex)|]. split; [reflexivity|]. eauto. }
  destruct Hx as [Hx [El [u0 [q0 ->]]]].
  match goal with |- context [do_op ?a ?b ?d] => destruct (do_op a b d) as [st|x] eqn:Ed end; [|intros H; injection H as _ _ <- _; intros ? ? ? []].
  destruct (record_loop w c b xyzs si None k1 l st (b_steps b)) as [[[k3 st3] os3] e3] eqn:El3. intros H. injection H as _ _ <- _.
  intros t p q [Hin|Hin]; [injection Hin as _ <- _; exact N1|].
  refine (loop_b64 b xyzs si (b_steps b) Hx N3 _ _ _ _ _ _ _ _ _ El3 t p q Hin). rewrite El. exact N1.
Qed.
End Run.
