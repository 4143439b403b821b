(** Settings: the format and navIgnoreAbsence. *)
From Verif Require Import Base PyStr PyFloat PyDate PyPath PyRegex S_Text S_Time S_Open2 M_Common M_Header M_Obs2 M_Obs3 M_Rec M_Text M_Cfg M_Label M_Names M_Xyz M_Nav M_NmUtils M_Num M_Tec M_Sat M_Main S_Tec S_Main S_Settings P_Str P_Tec P_End4.
Open Scope nat_scope.

(** ** TEC columns *)
Lemma column_none (o : ops float) fields ds f tecs n : tec_columns o fields ds f = Ok tecs -> ~ In n M_Tec.tec_names -> dict_get seqb n tecs = None.
Proof.
  unfold tec_columns. generalize M_Tec.tec_names as l. intros l. revert tecs. induction l as [|a l IH]; intros tecs H Hin; cbn [mapM] in H; [injection H as <-; reflexivity|].
  destruct (tec_column o fields ds f a) as [v|] eqn:Ev; [|discriminate H]. cbn [bind] in H.
  destruct (mapM _ l) as [r|] eqn:Er; [|discriminate H]. cbn [bind] in H. injection H as <-. cbn [dict_get].
  destruct (seqb n a) eqn:E; [apply seqb_eq in E; subst a; exfalso; apply Hin; now left|]. apply IH; [reflexivity|]. intros Hn. apply Hin. now right.
Qed.
Lemma name_dec (n : str) l : In n l \/ ~ In n l.
Proof. destruct (existsb (seqb n) l) eqn:E; [left; apply existsb_exists in E; destruct E as [x [H E]]; apply seqb_eq in E; now subst|]. right. intros H.
  assert (existsb (seqb n) l = true) by (apply existsb_exists; exists n; split; [exact H|now apply seqb_eq]). congruence. Qed.
(** a requested column does not depend on the other columns *)
Lemma column_same (o : ops float) fields fields' ds f n : In n M_Tec.tec_names -> In (lit "tec." ++ n) fields -> In (lit "tec." ++ n) fields' ->
  (n = lit "l8c8" -> (In (lit "tec.l1c1") fields \/ In (lit "tec.l2c2") fields) /\ (In (lit "tec.l1c1") fields' \/ In (lit "tec.l2c2") fields')) ->
  tec_column o fields ds f n = tec_column o fields' ds f n.
Proof.
  intros Hn Hf Hf' H8.
  assert (P : forall fs m, In (lit "tec." ++ n) fs -> (lit "tec." ++ n) = m -> In m tec_p -> In m tec_all -> on_demand_p fs = true).
  { intros fs m X <- A B. exact (requested_in _ _ _ X A B). }
  assert (L : forall fs m, In (lit "tec." ++ n) fs -> (lit "tec." ++ n) = m -> In m tec_l -> In m tec_all -> on_demand_l fs = true).
  { intros fs m X <- A B. exact (requested_in _ _ _ X A B). }
  assert (C : forall fs, In (lit "tec.l1c1") fs \/ In (lit "tec.l2c2") fs -> on_demand_l1_c1 fs = true).
  { intros fs [A|A]; eapply requested_in; try exact A; cbn; tauto. }
  unfold tec_column. cbn in Hn.
  repeat destruct Hn as [<-|Hn]; try contradiction;
    repeat (match goal with |- context [seqb ?a ?b] => let v := eval vm_compute in (seqb a b) in change (seqb a b) with v end; cbv iota);
    try (rewrite (P _ _ Hf eq_refl), (P _ _ Hf' eq_refl) by (cbn; tauto)); try (rewrite (L _ _ Hf eq_refl), (L _ _ Hf' eq_refl) by (cbn; tauto));
    try (rewrite (C fields), (C fields') by (first [exact (proj1 (H8 eq_refl))|exact (proj2 (H8 eq_refl))|now left|now right]));
    reflexivity.
Qed.
Lemma lit_inj a b : lit a = lit b -> a = b.
Proof. intros H. rewrite <- (string_of_list_ascii_of_string a), <- (string_of_list_ascii_of_string b). unfold lit in H. now rewrite H. Qed.

(** ** the site's positions in a writer *)
Fixpoint xyz_of (os : list wop) (d : list (datetime * xyz)) : list (datetime * xyz) :=
  match os with
  | [] => d
  | WPos t p _ :: r => xyz_of r (dict_set dt_eqb t p d)
  | WRow _ _ _ _ _ :: r => xyz_of r d
  end.
Lemma write_data_xyz c f w sat t q f' w' : write_data c f w sat t q = Ok (f', w') -> w_xyz w' = w_xyz w.
Proof.
  unfold write_data. cbn [w_sats w_obs w_path w_interval w_xyz w_lbh]. destruct (dict_get seqb sat (w_sats w)) as [s|]; cbn [of_option bind]; [|discriminate].
  destruct (s_fout s) as [out|]; cbn [bind].
  - destruct (row_text _ _ _ _ _); cbn [bind]; [|discriminate]. intros E. injection E as _ <-. reflexivity.
  - destruct (header_text _ _ _); cbn [bind]; [|discriminate]. destruct (row_text _ _ _ _ _); cbn [bind]; [|discriminate]. intros E. injection E as _ <-. reflexivity.
Qed.
Lemma do_op_xyz c st o st' : do_op c st o = Ok st' -> w_xyz (snd st') = xyz_of [o] (w_xyz (snd st)).
Proof.
  destruct st as [f w], st' as [f' w']. destruct o as [t p l|sat sd nav t q]; cbn [do_op snd xyz_of].
  - intros E. injection E as _ <-. reflexivity.
  - intros E. apply write_data_xyz in E. rewrite E. destruct (dict_get seqb sat (w_sats w)); reflexivity.
Qed.
Lemma do_ops_xyz c os : forall st st', do_ops c st os = Ok st' -> w_xyz (snd st') = xyz_of os (w_xyz (snd st)).
Proof.
  induction os as [|o os IH]; intros st st'; cbn [do_ops].
  - intros E. injection E as <-. reflexivity.
  - destruct (do_op c st o) as [st1|] eqn:E1; cbn [bind]; [|discriminate]. intros E. rewrite (IH _ _ E), (do_op_xyz _ _ _ _ E1).
    destruct o; reflexivity.
Qed.

Section Two.
Variables (w : world) (c c' : cfg).
Hypothesis Hin : same_inputs c c'.
(** navIgnoreAbsence may be switched on in the second *)
Hypothesis Hig : c_ignore c = true -> c_ignore c' = true.
Inductive more : list wop -> list wop -> Prop :=
| m_nil : more [] []
| m_keep a b ops ops' : same_entry c c' a b -> more ops ops' -> more (a :: ops) (b :: ops')
| m_zeros b ops ops' : c_ignore c = false -> c_ignore c' = true -> row_of_zeros b -> more ops ops' -> more ops (b :: ops').
Lemma more_app a b a' b' : more a b -> more a' b' -> more (a ++ a') (b ++ b').
Proof. intros H. induction H; intros G; cbn [app]; [exact G|constructor; auto|constructor; auto]. Qed.
Lemma more_xyz a b : more a b -> forall d, xyz_of a d = xyz_of b d.
Proof.
  intros H. induction H as [|x y a b E H IH|y a b _ _ Hz H IH]; intros d; cbn [xyz_of]; [reflexivity| |].
  - destruct E; cbn [xyz_of]; apply IH.
  - destruct Hz as (sat & sd & nav & t & q & -> & _). cbn [xyz_of]. apply IH.
Qed.
Lemma priority_same sys : priority_of c sys = priority_of c' sys.
Proof. destruct Hin as (_ & _ & H1 & H2 & H3 & _). unfold priority_of. rewrite H1, H2, H3. reflexivity. Qed.
Lemma nav_step_set k l t sys : nav_step w c k l t sys = nav_step w c' k l t sys.
Proof. unfold nav_step. rewrite priority_same. destruct Hin as (_ & -> & _). reflexivity. Qed.

Lemma row_set nav glo l s t sys n v r r' : row_step w c nav glo l s t sys n v = Ok r -> row_step w c' nav glo l s t sys n v = Ok r' ->
  match r, r' with Some a, Some b => same_entry c c' a b | None, None => True | _, _ => False end.
Proof.
  destruct v as [[p el] az]. unfold row_step.
  destruct (if ceqb sys "R" then of_option KeyError glo else Ok (fzero, fzero, fzero)) as [[[f1 f2] k]|]; cbn [bind]; [|discriminate].
  destruct (tec_columns _ (rf_fields (c_format c)) _ _) as [tecs|] eqn:Et; cbn [bind]; [|discriminate].
  destruct (s_types s sys) as [types|]; cbn [bind]; [|discriminate].
  intros H H'. destruct (tec_columns _ (rf_fields (c_format c')) _ _) as [tecs'|] eqn:Et'; cbn [bind] in H'; [|discriminate H'].
  destruct (record_validity types (s_rec s)) as [validity|e]; [|destruct e; try discriminate; injection H as <-; injection H' as <-; exact I].
  injection H as <-. injection H' as <-. constructor. intros x Hx. destruct x as [| | |o|o|n0|a|a]; cbn [chunk_of]; try exact eq_refl.
  destruct (Hx n0 eq_refl) as [[W1 W2] [W1' W2']]. clear Hx.
  destruct (name_dec (lit n0) M_Tec.tec_names) as [Hn|Hn].
  - destruct (column_value _ _ _ _ _ _ Et Hn) as [v [V1 V2]], (column_value _ _ _ _ _ _ Et' Hn) as [v' [V1' V2']].
    rewrite V2, V2'. rewrite (column_same _ _ (rf_fields (c_format c')) _ _ _ Hn W1 W1') in V1; [|intros E; apply lit_inj in E; auto].
    rewrite V1 in V1'. injection V1' as <-. reflexivity.
  - rewrite (column_none _ _ _ _ _ _ Et Hn), (column_none _ _ _ _ _ _ Et' Hn). reflexivity.
Qed.
Lemma row_zeros nav glo l s t sys n r : row_step w c' nav glo l s t sys n ((fzero, fzero, fzero), fzero, fzero) = Ok (Some r) -> row_of_zeros r.
Proof.
  unfold row_step.
  destruct (if ceqb sys "R" then of_option KeyError glo else Ok (fzero, fzero, fzero)) as [[[f1 f2] k]|]; cbn [bind]; [|discriminate].
  destruct (tec_columns _ (rf_fields (c_format c')) _ _) as [tecs|] eqn:Et; cbn [bind]; [|discriminate].
  destruct (s_types s sys) as [types|]; cbn [bind]; [|discriminate].
  destruct (record_validity types (s_rec s)) as [validity|e]; [|destruct e; discriminate].
  intros E. injection E as <-. do 5 eexists. split; [reflexivity|]. repeat split.
Qed.
Lemma ok_inj {A} (a b : A) : Ok a = Ok b -> a = b.
Proof. intros H. exact (f_equal (fun r => match r with Ok x => x | Err _ => a end) H). Qed.
Lemma view_set site cur sys v v' : view w c site cur sys = Ok v -> view w c' site cur sys = Ok v' ->
  v = v' \/ (c_ignore c = false /\ c_ignore c' = true /\ v = None /\ v' = Some ((fzero, fzero, fzero), fzero, fzero)).
Proof.
  unfold view. destruct cur as [p|].
  - intros H H'. left. rewrite H in H'. exact (ok_inj _ _ H').
  - destruct (c_ignore c) eqn:E, (c_ignore c') eqn:E'; cbn [negb]; intros H H'.
    + left. rewrite H in H'. exact (ok_inj _ _ H').
    + exfalso. specialize (Hig eq_refl). congruence.
    + apply ok_inj in H. subst v. destruct (ceqb sys "R"); apply ok_inj in H'; subst v'; [now left|right]. auto.
    + left. rewrite H in H'. exact (ok_inj _ _ H').
Qed.
Lemma body_set xyzs lp k l s t sys n k1 l1 o1 k2 l2 o2 : record_body w c xyzs lp k l s t sys n = Ok (k1, l1, o1) ->
  record_body w c' xyzs lp k l s t sys n = Ok (k2, l2, o2) -> k1 = k2 /\ l1 = l2 /\ more o1 o2.
Proof.
  unfold record_body. rewrite nav_step_set. destruct (nav_step w c' k l t sys) as [[[ka la] go]|]; cbn [bind]; [|discriminate].
  destruct go; cbn [negb]; [|intros E E'; injection E as <- <- <-; injection E' as <- <- <-; repeat split; constructor].
  destruct (sat_step w ka la t sys n) as [[kb go]|]; cbn [bind]; [|discriminate].
  destruct go; cbn [negb]; [|intros E E'; injection E as <- <- <-; injection E' as <- <- <-; repeat split; constructor].
  destruct (site_step w xyzs la s t) as [lb|]; cbn [bind]; [|discriminate]. destruct lp as [last|]; cbn [bind]; [|discriminate].
  set (pos := if same_xyz (l_xyz lb) last then [] else [WPos t (l_xyz lb) (l_lbh lb)]).
  assert (Hpos : more pos pos). { unfold pos. destruct (same_xyz _ _); repeat constructor. }
  destruct (dict_get sat_key_eqb _ (k_xyz kb)) as [cur|]; cbn [of_option bind]; [|discriminate].
  destruct (view w c (l_xyz lb) cur sys) as [v|] eqn:Ev; cbn [bind]; [|discriminate].
  intros H H'. destruct (view w c' (l_xyz lb) cur sys) as [v'|] eqn:Ev'; cbn [bind] in H'; [|discriminate H'].
  destruct (view_set _ _ _ _ _ Ev Ev') as [->|(I1 & I2 & -> & ->)].
  - destruct v' as [v|]; [|injection H as <- <- <-; injection H' as <- <- <-; auto].
    destruct (dict_get date_eqb (dt_date t) (k_nav kb)) as [files|]; cbn [of_option bind] in H, H'; [|discriminate H].
    destruct (dict_get ceqb sys files) as [nav|]; cbn [of_option bind] in H, H'; [|discriminate H].
    destruct (row_step w c nav _ lb s t sys n v) as [r|] eqn:Er; cbn [bind] in H; [|discriminate H].
    destruct (row_step w c' nav _ lb s t sys n v) as [r'|] eqn:Er'; cbn [bind] in H'; [|discriminate H'].
    injection H as <- <- <-. injection H' as <- <- <-. repeat split. apply more_app; [exact Hpos|].
    pose proof (row_set _ _ _ _ _ _ _ _ _ _ Er Er') as Hr. destruct r, r'; try contradiction; repeat constructor. exact Hr.
  - injection H as <- <- <-.
    destruct (dict_get date_eqb (dt_date t) (k_nav kb)) as [files|]; cbn [of_option bind] in H'; [|discriminate H'].
    destruct (dict_get ceqb sys files) as [nav|]; cbn [of_option bind] in H'; [|discriminate H'].
    destruct (row_step w c' nav _ lb s t sys n _) as [r'|] eqn:Er'; cbn [bind] in H'; [|discriminate H'].
    injection H' as <- <- <-. repeat split. rewrite <- (app_nil_r pos) at 1. apply more_app; [exact Hpos|].
    destruct r' as [r|]; [|constructor]. apply m_zeros; [exact I1|exact I2|exact (row_zeros _ _ _ _ _ _ _ _ Er')|constructor].
Qed.
Lemma loop_set b xyzs si steps : forall last k l st st' k1 st1 o1 k2 st2 o2, w_xyz (snd st) = w_xyz (snd st') ->
  record_loop w c b xyzs si last k l st steps = (k1, st1, o1, None) -> record_loop w c' b xyzs si last k l st' steps = (k2, st2, o2, None) ->
  k1 = k2 /\ more o1 o2.
Proof.
  induction steps as [|s r IH]; intros last k l st st' k1 st1 o1 k2 st2 o2 Hx; cbn [record_loop].
  - intros E E'. injection E as <- _ <- _. injection E' as <- _ <- _. repeat constructor.
  - destruct (record_ident s) as [[[t sys] n]|e]; [|discriminate]. destruct (accept _ _ _ _ _) as [last'|]; [|exact (IH _ _ _ _ _ _ _ _ _ _ _ Hx)].
    rewrite <- Hx. destruct (record_body w c xyzs _ k l s t sys n) as [[[ka la] oa]|e] eqn:Ea; [|discriminate].
    destruct (do_ops (out_of w c) st oa) as [sta|] eqn:Eda; [|discriminate].
    destruct (record_loop w c b xyzs si last' ka la sta r) as [[[kc stc] oc] ec] eqn:Ec. intros E. injection E as <- <- <- ->.
    destruct (record_body w c' xyzs _ k l s t sys n) as [[[kb lb] ob]|e] eqn:Eb; [|discriminate].
    destruct (do_ops (out_of w c') st' ob) as [stb|] eqn:Edb; [|discriminate].
    destruct (record_loop w c' b xyzs si last' kb lb stb r) as [[[kd std] od] ed] eqn:Ed. intros E'. injection E' as <- <- <- ->.
    destruct (body_set _ _ _ _ _ _ _ _ _ _ _ _ _ _ Ea Eb) as [<- [<- Hm]].
    assert (Hx' : w_xyz (snd sta) = w_xyz (snd stb)).
    { rewrite (do_ops_xyz _ _ _ _ Eda), (do_ops_xyz _ _ _ _ Edb), Hx. apply more_xyz. exact Hm. }
    destruct (IH _ _ _ _ _ _ _ _ _ _ _ Hx' Ec Ed) as [<- Hm']. split; [reflexivity|]. now apply more_app.
Qed.
Lemma start_set b : file_start w c b = file_start w c' b.
Proof. unfold file_start, xyz_data, sampling_of. destruct Hin as (-> & _ & _ & _ & _ & ->). reflexivity. Qed.
Lemma file_set k f f' name k1 f1 o1 k2 f2 o2 : file_step w c k f name = (k1, f1, o1, None) -> file_step w c' k f' name = (k2, f2, o2, None) ->
  k1 = k2 /\ more o1 o2.
Proof.
  unfold file_step. destruct (open_obs w name) as [b|e].
  2:{ destruct e; try discriminate; intros E E'; injection E as <- _ <-; injection E' as <- _ <-; repeat constructor. }
  rewrite start_set. destruct (file_start w c' b) as [[[[[[xyzs si] l] iv] pos]|]|e]; [| |discriminate].
  2:{ intros E E'; injection E as <- _ <-; injection E' as <- _ <-; repeat constructor. }
  destruct (do_op (out_of w c) (f, new_writer name iv) pos) as [st|] eqn:E1; [|discriminate].
  destruct (record_loop w c b xyzs si None k l st (b_steps b)) as [[[ka sta] oa] ea] eqn:Ea. intros E. injection E as <- _ <- ->.
  destruct (do_op (out_of w c') (f', new_writer name iv) pos) as [st'|] eqn:E2; [|discriminate].
  destruct (record_loop w c' b xyzs si None k l st' (b_steps b)) as [[[kb stb] ob] eb] eqn:Eb. intros E. injection E as <- _ <- ->.
  assert (Hx : w_xyz (snd st) = w_xyz (snd st')). { rewrite (do_op_xyz _ _ _ _ E1), (do_op_xyz _ _ _ _ E2). reflexivity. }
  destruct (loop_set _ _ _ _ _ _ _ _ _ _ _ _ _ _ _ Hx Ea Eb) as [<- Hm]. split; [reflexivity|]. apply m_keep; [|exact Hm].
  assert (Hp : forall o, (exists t p q, o = WPos t p q) \/ exists sat sd nav t q, o = WRow sat sd nav t q) by (intros []; eauto 10).
  destruct (Hp pos) as [[t [p [q ->]]]|[sat [sd [nav [t [q ->]]]]]]; constructor. reflexivity.
Qed.
Lemma files_set names : forall k f f' f1 l1 f2 l2, files_loop w c k f names = (f1, l1, None) -> files_loop w c' k f' names = (f2, l2, None) ->
  Forall2 (fun a b => fst a = fst b /\ more (snd a) (snd b)) l1 l2.
Proof.
  induction names as [|nm r IH]; intros k f f' f1 l1 f2 l2; cbn [files_loop].
  - intros E E'. injection E as _ <-. injection E' as _ <-. constructor.
  - destruct (file_step w c k f nm) as [[[ka fa] oa] [e|]] eqn:Ea; [discriminate|].
    destruct (files_loop w c ka fa r) as [[fc lc] ec] eqn:Ec. intros E. injection E as _ <- ->.
    destruct (file_step w c' k f' nm) as [[[kb fb] ob] [e|]] eqn:Eb; [discriminate|].
    destruct (files_loop w c' kb fb r) as [[fd ld] ed] eqn:Ed. intros E. injection E as _ <- ->.
    destruct (file_set _ _ _ _ _ _ _ _ _ _ Ea Eb) as [<- Hm]. constructor; [split; [reflexivity|exact Hm]|]. exact (IH _ _ _ _ _ _ _ Ec Ed).
Qed.
Lemma main_set f f' : stopped_by w c f = None -> stopped_by w c' f' = None ->
  Forall2 (fun a b => fst a = fst b /\ more (snd a) (snd b)) (snd (fst (main w c f))) (snd (fst (main w c' f'))).
Proof.
  unfold stopped_by, main. destruct Hin as (<- & _). destruct (sort_str _) as [|nm r]; [discriminate|].
  destruct (files_loop w c no_caches f (nm :: r)) as [[f1 l1] e1] eqn:E1, (files_loop w c' no_caches f' (nm :: r)) as [[f2 l2] e2] eqn:E2. cbn [fst snd].
  intros -> ->. exact (files_set _ _ _ _ _ _ _ _ E1 E2).
Qed.
End Two.

Lemma set_format w c c' : same_inputs c c' -> c_ignore c = c_ignore c' -> forall f f', stopped_by w c f = None -> stopped_by w c' f' = None ->
  Forall2 (same_entries c c') (snd (fst (main w c f))) (snd (fst (main w c' f'))).
Proof.
  intros Hin Hig f f' H H'. assert (G : c_ignore c = true -> c_ignore c' = true) by congruence.
  pose proof (main_set w c c' Hin G f f' H H') as F. induction F as [|a b l l' [E Hm] F IH]; constructor; [|exact IH]. split; [exact E|].
  induction Hm; [constructor|constructor; assumption|congruence].
Qed.
Lemma set_ignore w c c' : same_inputs c c' -> c_ignore c = false -> c_ignore c' = true -> forall f f', stopped_by w c f = None -> stopped_by w c' f' = None ->
  Forall2 (zeros_more c c') (snd (fst (main w c f))) (snd (fst (main w c' f'))).
Proof.
  intros Hin Hi Hi' f f' H H'. pose proof (main_set w c c' Hin (fun _ => Hi') f f' H H') as F. induction F as [|a b l l' [E Hm] F IH]; constructor; [|exact IH].
  split; [exact E|]. induction Hm; [apply wz_nil|apply wz_keep; assumption|apply wz_zeros; assumption].
Qed.
