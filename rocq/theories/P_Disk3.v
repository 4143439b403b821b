(** Disk contents: the operations of a run. *)
From Verif Require Import Base PyStr PyFloat PyDate PyPath PyRegex M_Common M_Header M_Obs2 M_Obs3 M_Rec M_Text M_Cfg M_Label M_Names M_Xyz M_Nav M_NmUtils M_Num M_Tec M_Sat M_Main M_Disk.
From Verif Require Import S_Time S_Main S_Out P_Str P_Out P_Main1 P_Main3 P_Main4 P_Main6 P_Main7 P_Main8 P_Run4 P_Disk1 P_Disk2.
Open Scope nat_scope.

Lemma body_ops w c xyzs lp k l s t sys n k' l' ops : record_body w c xyzs lp k l s t sys n = Ok (k', l', ops) ->
  exists a r, ops = a ++ r /\ Forall (fun o => exists u p q, o = WPos u p q) a /\ (r = [] \/ exists sd nav q, r = [WRow (s_sat s) sd nav t q]).
Proof.
  unfold record_body. destruct (nav_step w c k l t sys) as [[[k1 l1] [|]]|e]; cbn [bind negb]; [| |discriminate].
  2:{ intros H. injection H as _ _ <-. exists [], []. auto. }
  destruct (sat_step w k1 l1 t sys n) as [[k2 [|]]|e]; cbn [bind negb]; [| |discriminate].
  2:{ intros H. injection H as _ _ <-. exists [], []. auto. }
  destruct (site_step w xyzs l1 s t) as [l2|e]; cbn [bind]; [|discriminate]. destruct lp as [last|e]; cbn [bind]; [|discriminate].
  set (pos := if same_xyz (l_xyz l2) last then [] else [WPos t (l_xyz l2) (l_lbh l2)]).
  assert (Hp : Forall (fun o => exists u p q, o = WPos u p q) pos) by (unfold pos; destruct (same_xyz _ _); repeat constructor; eauto).
  destruct (of_option KeyError _) as [cur|e]; cbn [bind]; [|discriminate]. destruct (view w c (l_xyz l2) cur sys) as [[v|]|e]; cbn [bind]; [| |discriminate].
  2:{ intros H. injection H as _ _ <-. exists pos, []. rewrite app_nil_r. auto. }
  destruct (of_option KeyError _) as [files|e]; cbn [bind]; [|discriminate]. destruct (of_option KeyError _) as [nav|e]; cbn [bind]; [|discriminate].
  destruct (row_step _ _ _ _ _ _ _ _ _ _) as [r|e] eqn:Er; cbn [bind]; [|discriminate]. intros H. injection H as _ _ <-.
  exists pos, (match r with Some op => [op] | None => [] end). split; [reflexivity|]. split; [exact Hp|]. destruct r as [op|]; [right|now left].
  revert Er. unfold row_step. destruct v as [[p elev] az]. destruct (if ceqb sys "R" then _ else _) as [[[f1 f2] nn]|e]; cbn [bind]; [|discriminate].
  destruct (tec_columns _ _ _ _) as [tecs|e]; cbn [bind]; [|discriminate]. destruct (s_types s sys) as [types|e]; cbn [bind]; [|discriminate].
  destruct (record_validity types (s_rec s)) as [v|e]; [|destruct e; discriminate]. intros H. injection H as <-. eauto.
Qed.
Definition is_pos (o : wop) : Prop := exists u p q, o = WPos u p q.
Lemma pos_events c a : Forall is_pos a -> forall w, exists w', ops_events c w a = ([], Ok w').
Proof.
  induction 1 as [|o a [u [p [q ->]]] _ IH]; intros w; cbn [ops_events op_events]; [eauto|].
  destruct (IH (update_lbh (update_xyz w u p) u q)) as [w' ->]. eauto.
Qed.

Section Run.
Variables (w : world) (c : cfg).
(** a call that failed *)
Definition failed (wr : writer) (good_row : str -> datetime -> Prop) (ev : list event) : Prop :=
  exists a w1 sat sd nav t q e, Forall is_pos a /\ ops_events (out_of w c) wr a = ([], Ok w1) /\
    op_events (out_of w c) w1 (WRow sat sd nav t q) = (ev, Err e) /\ good_row sat t.
Lemma loop_shape b xyzs si steps : forall last k l f wr k' f' wr' os e,
  record_loop w c b xyzs si last k l (f, wr) steps = (k', (f', wr'), os, e) ->
  exists ev0 ev1, record_events w c b xyzs si last k l wr steps = (ev0 ++ ev1, k', wr', e) /\ ops_events (out_of w c) wr os = (ev0, Ok wr') /\
    (e = None -> ev1 = []) /\
    (ev1 = [] \/ failed wr' (fun sat t => exists s, In s steps /\ usable (b_date b) s /\ s_sat s = sat /\ s_epoch s = Some t) ev1).
Proof.
  induction steps as [|s r IH]; intros last k l f wr k' f' wr' os e; cbn [record_loop record_events].
  { intros H. injection H as <- _ <- <- <-. exists [], []. auto. }
  destruct (record_ident s) as [[[t sys] n]|e0] eqn:Ei.
  2:{ intros H. injection H as <- _ <- <- <-. exists [], []. auto. }
  apply ident_iff in Ei. destruct (accept (b_date b) si last t sys) as [last'|] eqn:Ea.
  2:{ intros H. destruct (IH _ _ _ _ _ _ _ _ _ _ H) as [ev0 [ev1 [H1 [H2 [H3 H4]]]]]. exists ev0, ev1. repeat (split; [assumption|]).
      destruct H4 as [H4|[a [w1 [sat [sd [nav [t' [q [e' [G1 [G2 [G3 [s' [G4 G5]]]]]]]]]]]]]]; [now left|]. right.
      exists a, w1, sat, sd, nav, t', q, e'. repeat (split; [assumption|]). exists s'. split; [now right|exact G5]. }
  pose proof (accept_usable _ _ _ _ _ _ _ _ Ei Ea) as Hu. cbn [snd].
  destruct (record_body w c xyzs (latest (w_xyz wr)) k l s t sys n) as [[[k1 l1] ops]|e0] eqn:Eb.
  2:{ intros H. injection H as <- _ <- <- <-. exists [], []. auto. }
  pose proof (ops_same (out_of w c) ops f wr) as Hs. destruct (do_ops (out_of w c) (f, wr) ops) as [[f1 wr1]|e0].
  - destruct Hs as [ev [Hev _]]. rewrite Hev. destruct (record_loop w c b xyzs si last' k1 l1 (f1, wr1) r) as [[[k2 [f2 wr2]] os2] e2] eqn:El.
    intros H. injection H as <- <- <- <- <-. destruct (IH _ _ _ _ _ _ _ _ _ _ El) as [ev0 [ev1 [H1 [H2 [H3 H4]]]]]. rewrite H1.
    exists (ev ++ ev0), ev1. split; [now rewrite app_assoc|]. split.
    { rewrite ops_events_app, Hev, H2. reflexivity. }
    split; [exact H3|]. destruct H4 as [H4|[a [w1 [sat [sd [nav [t' [q [e' [G1 [G2 [G3 [s' [G4 G5]]]]]]]]]]]]]]; [now left|]. right.
    exists a, w1, sat, sd, nav, t', q, e'. repeat (split; [assumption|]). exists s'. split; [now right|exact G5].
  - destruct Hs as [ev Hev]. rewrite Hev. intros H. injection H as <- <- <- <- <-. exists [], ev. split; [reflexivity|]. split; [reflexivity|]. split; [discriminate|].
    right. destruct (body_ops _ _ _ _ _ _ _ _ _ _ _ _ _ Eb) as [a [rr [-> [Ha Hr]]]]. destruct (pos_events (out_of w c) a Ha wr) as [w1 H1].
    rewrite ops_events_app, H1 in Hev. destruct Hr as [->|[sd [nav [q ->]]]]; [cbn [ops_events] in Hev; discriminate|]. cbn [ops_events] in Hev.
    destruct (op_events (out_of w c) w1 (WRow (s_sat s) sd nav t q)) as [ev2 [w2|e2]] eqn:E2; [discriminate|]. cbn [app] in Hev. injection Hev as <- <-.
    exists a, w1, (s_sat s), sd, nav, t, q, e2. split; [exact Ha|]. split; [exact H1|]. split; [exact E2|]. exists s. split; [now left|]. split; [exact Hu|].
    split; [reflexivity|]. exact (proj1 Ei).
Qed.

(** the operations of one observation file, and its calls *)
Definition row_ok (name sat : str) (t : datetime) : Prop := get_rinex_date name = Some (dt_date t) /\ no_slash sat /\ valid_datetime t.
Definition shape (name : str) (os : list wop) (ev : list event) (e : option exn) : Prop :=
  exists iv ev0 wr ev1, job_of w name os iv /\ ops_events (out_of w c) (new_writer name iv) os = (ev0, Ok wr) /\ ev = ev0 ++ ev1 /\
    (e = None -> ev1 = end_events wr) /\ (e <> None -> ev1 = [] \/ basename name <> [] /\ failed wr (row_ok name) ev1).
Lemma usable_row name b s sat t : open_obs w name = Ok b -> In s (b_steps b) -> usable (b_date b) s -> s_sat s = sat -> s_epoch s = Some t -> row_ok name sat t.
Proof.
  intros Ho Hs [t' [sys [n [Hi [Hin Hday]]]]] <- Et. pose proof (proj1 Hi) as Et'. rewrite Et in Et'. apply some_inj in Et'. subst t'.
  rewrite (open_date w name b Ho) in Hday. split; [exact Hday|]. split.
  - destruct Hi as [_ [dg [-> Hp]]]. pose proof (int_no_slash _ _ Hp) as Hns. intros [X|X]; [|exact (Hns X)]. subst sys.
    cbn in Hin. repeat (destruct Hin as [X|Hin]; [discriminate|]). exact Hin.
  - pose proof (open_obs_dated w name b Ho) as Hda. rewrite Forall_forall in Hda. exact (Hda s Hs t Et).
Qed.
Lemma file_shape k f name k' f' os e : file_step w c k f name = (k', f', os, e) ->
  exists ev, file_events w c k name = (ev, k', e) /\ shape name os ev e.
Proof.
  unfold file_step, file_events.
  assert (Hn : forall kx fx ex, (kx, fx, @nil wop, ex) = (k', f', os, e) -> kx = k -> shape name os [] e /\ k' = k /\ e = ex).
  { intros kx fx ex E ->. injection E as <- _ <- <-. split; [|auto]. exists (PInt 0), [], (new_writer name (PInt 0)), []. split; [now left|]. split; [reflexivity|].
    split; [reflexivity|]. split; [reflexivity|]. now left. }
  destruct (open_obs w name) as [b|e0] eqn:Eo.
  2:{ destruct e0; intros H; destruct (Hn _ _ _ H eq_refl) as [H1 [-> ->]]; exists []; auto. }
  destruct (file_start w c b) as [[[[[[xyzs si] l] iv] pos]|]|e0] eqn:Es.
  2,3: intros H; destruct (Hn _ _ _ H eq_refl) as [H1 [-> ->]]; exists []; auto.
  destruct (file_start_spec w c b xyzs si l iv pos Es) as [_ [_ [_ [_ [_ [Hiv [t0 [ts [_ ->]]]]]]]]].
  cbn [do_op op_events]. set (wr := update_lbh (update_xyz (new_writer name iv) t0 (l_xyz l)) t0 (l_lbh l)).
  destruct (record_loop w c b xyzs si None k l (f, wr) (b_steps b)) as [[[k1 [f1 wr1]] os1] e1] eqn:Er. intros H. injection H as <- <- <- <-.
  destruct (loop_shape b xyzs si (b_steps b) None k l f wr k1 f1 wr1 os1 e1 Er) as [ev0 [ev1 [H1 [H2 [H3 H4]]]]]. rewrite H1.
  eexists. split; [reflexivity|]. exists iv, ev0, wr1, (ev1 ++ match e1 with None => end_events wr1 | Some _ => [] end). split; [right; exists b; auto|].
  split; [cbn [ops_events op_events]; fold wr; now rewrite H2|]. split; [cbn [app]; now rewrite app_assoc|]. split.
  - intros ->. rewrite H3 by reflexivity. reflexivity.
  - intros He. destruct e1 as [e1|]; [|congruence]. rewrite app_nil_r. destruct H4 as [H4|[a [w1 [sat [sd [nav [t [q [e' [G1 [G2 [G3 [s [G4 [G5 [G6 G7]]]]]]]]]]]]]]]]; [now left|]. right.
    split; [exact (open_base w name b Eo)|]. exists a, w1, sat, sd, nav, t, q, e'. repeat (split; [assumption|]). exact (usable_row name b s sat t Eo G4 G5 G6 G7).
Qed.
(** ... and of all *)
Inductive shapes : list (str * list wop) -> list (str * list event) -> option exn -> Prop :=
| shapes_nil : shapes [] [] None
| shapes_stop name os ev e : shape name os ev (Some e) -> shapes [(name, os)] [(name, ev)] (Some e)
| shapes_cons name os ev log l e : shape name os ev None -> shapes log l e -> shapes ((name, os) :: log) ((name, ev) :: l) e.
Lemma files_shape names : forall k f f' log e, files_loop w c k f names = (f', log, e) ->
  exists l, files_events w c k names = (l, e) /\ shapes log l e.
Proof.
  induction names as [|nm r IH]; intros k f f' log e; cbn [files_loop files_events].
  { intros H. injection H as _ <- <-. exists []. split; [reflexivity|constructor]. }
  destruct (file_step w c k f nm) as [[[k1 f1] os] e1] eqn:Ef. destruct (file_shape k f nm k1 f1 os e1 Ef) as [ev [-> Hs]]. destruct e1 as [e1|].
  - intros H. injection H as _ <- <-. eexists. split; [reflexivity|]. now constructor.
  - destruct (files_loop w c k1 f1 r) as [[f2 log2] e2] eqn:El. intros H. injection H as _ <- <-. destruct (IH _ _ _ _ _ El) as [l [-> Hl]].
    eexists. split; [reflexivity|]. now constructor.
Qed.
Lemma main_shape f : exists l, main_events w c = (l, stopped_by w c f) /\
  (snd (fst (main w c f)) = [] /\ l = [] \/ shapes (snd (fst (main w c f))) l (stopped_by w c f)).
Proof.
  unfold main_events, stopped_by, main. destruct (sort_str _) as [|nm r]; [exists []; auto|].
  destruct (files_loop w c no_caches f (nm :: r)) as [[f' log] e] eqn:El. destruct (files_shape _ _ _ _ _ _ El) as [l [-> Hl]]. exists l. cbn [fst snd]. auto.
Qed.
End Run.
