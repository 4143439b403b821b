(** Disk contents: one observation file, then all. *)
From Verif Require Import Base PyStr PyFloat PyDate PyPath PyRegex M_Common M_Header M_Obs2 M_Obs3 M_Rec M_Text M_Cfg M_Label M_Names M_Xyz M_Nav M_NmUtils M_Num M_Tec M_Sat M_Main M_Disk.
From Verif Require Import S_Time S_Main S_Out S_Disk P_Str P_Out P_Main1 P_Main3 P_Main4 P_Main6 P_Main7 P_Main8 P_Run4 P_Disk1 P_Disk2 P_Disk3.
Open Scope nat_scope.

Lemma rows_pos sat a : Forall is_pos a -> rows_of sat a = [].
Proof. induction 1 as [|o a [u [p [q ->]]] _ IH]; [reflexivity|exact IH]. Qed.
Lemma file_rows_begin oc iv : exists full, file_of_rows oc iv [] full.
Proof. exists (concat (map comment_line (repeat [] 11))), (concat (map comment_line (repeat [] 11))), []. split; [now rewrite app_nil_r|]. split; [|constructor]. exists (repeat [] 11). split; reflexivity. Qed.
Lemma row_exists (os : list wop) : (exists sat sd nav t q, In (WRow sat sd nav t q) os) \/ Forall is_pos os.
Proof.
  induction os as [|o os IH]; [right; constructor|]. destruct o as [t p l|sat sd nav t q]; [|left; exists sat, sd, nav, t, q; now left].
  destruct IH as [[sat [sd [nav [t' [q H]]]]]|H]; [left; exists sat, sd, nav, t', q; now right|]. right. constructor; [|exact H]. exists t, p, l. reflexivity.
Qed.

Lemma date_ok_dec (d : date) : date_ok d \/ ~ date_ok d.
Proof.
  destruct d as [[y m] dd]. unfold date_ok, valid_date.
  assert (H : forall a b, (a <= b)%Z \/ ~ (a <= b)%Z) by (intros; lia).
  destruct (H 1 y)%Z, (H y 9999)%Z, (H 1 m)%Z, (H m 12)%Z, (H 1 dd)%Z, (H dd (month_len y m))%Z; tauto.
Qed.

Section Run.
Variables (w : world) (c : cfg).
Let oc := out_of w c.
Let target name sat d := result_file (c_outdir c) (marker_of name) sat d.

Definition rows_good (name : str) (os : list wop) : Prop := forall sat sd nav t q, In (WRow sat sd nav t q) os -> row_ok name sat t.
Lemma written_good f name os : written w c f name os -> rows_good name os.
Proof.
  intros Hw sat sd nav t q Hin. destruct (rows_fresh w c f name os Hw _ _ _ _ _ Hin) as [b [s [xyzs [Ho [Hs [Hu [_ Hr]]]]]]].
  destruct Hr as [t' [sys' [n' [site [lbh [pos [elev [az [sd' [nav' [q' [Hi [E _]]]]]]]]]]]]]. injection E as -> -> -> -> ->.
  exact (usable_row w name b s _ t' Ho Hs Hu eq_refl (proj1 Hi)).
Qed.
Lemma day_of name os : rows_good name os -> exists d, date_ok d /\ Forall (of_row d) os /\ forall sat sd nav t q, In (WRow sat sd nav t q) os -> get_rinex_date name = Some d.
Proof.
  intros H. destruct (row_exists os) as [[sat [sd [nav [t [q Hin]]]]]|Hp].
  - destruct (H _ _ _ _ _ Hin) as [Hd [_ Hv]]. exists (dt_date t). split; [exact (proj1 Hv)|]. split; [|auto]. apply Forall_forall. intros o Ho s' sd' nav' t' q' ->.
    destruct (H _ _ _ _ _ Ho) as [Hd' [Hs _]]. split; [congruence|exact Hs].
  - exists (2000, 1, 1)%Z. split; [vm_compute; intuition discriminate|]. rewrite Forall_forall in Hp. split.
    + apply Forall_forall. intros o Ho s' sd' nav' t' q' ->. destruct (Hp _ Ho) as [u [p [q E]]]. discriminate.
    + intros s' sd' nav' t' q' Ho. destruct (Hp _ Ho) as [u [p [q0 E]]]. discriminate.
Qed.
Lemma rows_in (sat : str) (os : list wop) : rows_of sat os <> [] -> exists sd nav t q, In (WRow sat sd nav t q) os.
Proof.
  induction os as [|o os IH]; [intros H; destruct (H eq_refl)|]. cbn [rows_of]. destruct o as [t p l|s sd nav t q].
  - intros H. destruct (IH H) as [sd [nav [t' [q X]]]]. exists sd, nav, t', q. now right.
  - destruct (seqb sat s) eqn:E.
    + intros _. apply seqb_eq in E. subst s. exists sd, nav, t, q. now left.
    + cbn [app]. intros H. destruct (IH H) as [sd' [nav' [t' [q' X]]]]. exists sd', nav', t', q'. now right.
Qed.
(** what a path holds at some point of the processing of one observation file *)
Definition part_of (name : str) (os : list wop) (e : option exn) (p : str) (x : str) : Prop :=
  exists sat d iv full, date_ok d /\ get_rinex_date name = Some d /\ p = target name sat d /\ begins x full /\ file_of_rows oc iv (rows_of sat os) full /\ (rows_of sat os <> [] \/ e <> None) /\
    job_of w name os iv.
Lemma one_shape name os ev e : rows_good name os -> shape w c name os ev e ->
  tidy [] ev /\
  (forall f p, fs_get p (sem f ev) = fs_get p f \/ exists x, fs_get p (sem f ev) = Some x /\ part_of name os e p x) /\
  (forall sat, rows_of sat os <> [] -> exists d iv x, date_ok d /\ get_rinex_date name = Some d /\ job_of w name os iv /\ file_of_rows oc iv (rows_of sat os) x /\
     forall f, fs_get (target name sat d) (sem f ev) = Some x) /\
  (e = None -> opened ev [] = [] /\ exists iv, job_of w name os iv /\ forall f, write_file oc f name iv os = Ok (sem f ev)).
Proof.
  intros Hg [iv [ev0 [wr [ev1 [Hj [H0 [-> [H1 H2]]]]]]]].
  assert (Hos : ops_events oc (new_writer name iv) os = (ev0, Ok wr)) by exact H0.
  assert (Hwf : forall f, do_ops oc (f, new_writer name iv) os = Ok (sem f ev0, wr)).
  { intros f. pose proof (ops_same oc os f (new_writer name iv)) as H. destruct (do_ops oc (f, new_writer name iv) os) as [[f1 w1]|e1].
    - destruct H as [ev [E <-]]. rewrite Hos in E. injection E as <- <-. reflexivity.
    - destruct H as [ev E]. rewrite Hos in E. discriminate. }
  assert (Hcase : (ev1 = [] /\ e <> None \/ e = None /\ ev1 = end_events wr) \/ e <> None /\ basename name <> [] /\ failed w c wr (row_ok name) ev1).
  { destruct e as [e|]; [|left; right; auto]. destruct (H2 ltac:(discriminate)) as [->|[Hb Hf]]; [left; left; split; [reflexivity|discriminate]|right; split; [discriminate|auto]]. }
  (* the day *)
  assert (Hday : exists d, date_ok d /\ Forall (of_row d) os /\ (forall sat, rows_of sat os <> [] -> get_rinex_date name = Some d) /\
    (forall sat t, row_ok name sat t -> get_rinex_date name = Some d /\ dt_date t = d) ).
  { destruct (day_of name os Hg) as [d [D1 [D2 D3]]]. destruct (row_exists os) as [[sat [sd [nav [t [q Hin]]]]]|Hp].
    - exists d. split; [exact D1|]. split; [exact D2|]. pose proof (D3 _ _ _ _ _ Hin) as Hd. split; [auto|]. intros sat' t' [R1 _]. split; [exact Hd|congruence].
    - destruct (get_rinex_date name) as [d'|] eqn:Ed.
      + destruct (date_ok_dec d') as [Hok|Hno].
        * exists d'. split; [exact Hok|]. split; [|split; [auto|]].
          -- rewrite Forall_forall in *. intros o Ho s' sd' nav' t' q' ->. destruct (Hp _ Ho) as [u [p [q0 E]]]. discriminate.
          -- intros sat' t' [R1 _]. split; [reflexivity|congruence].
        * exists d. split; [exact D1|]. split; [exact D2|]. split; [intros sat Hr; rewrite rows_pos in Hr by exact Hp; congruence|].
          intros sat' t' [R1 [_ R2]]. exfalso. apply Hno. rewrite Ed in R1. apply some_inj in R1. subst d'. exact (proj1 R2).
      + exists d. split; [exact D1|]. split; [exact D2|]. split; [intros sat Hr; rewrite rows_pos in Hr by exact Hp; congruence|]. intros sat' t' [R1 _]. congruence. }
  destruct Hday as [d [D1 [D2 [D3 D4]]]].
  (* no calls at all, or the file has a name *)
  assert (Hb : (os = [] /\ ev0 = [] /\ wr = new_writer name iv) \/ basename name <> []).
  { destruct Hj as [->|[b [Ho _]]]; [left; cbn [ops_events] in Hos; injection Hos as <- <-; auto|right; exact (open_base w name b Ho)]. }
  assert (Hempty : os = [] -> ev0 = [] -> wr = new_writer name iv -> ev1 = [] \/ e = None /\ ev1 = end_events wr -> ev0 ++ ev1 = [] ).
  { intros -> -> -> [->|[_ ->]]; reflexivity. }
  destruct (Nat.eq_dec (length (basename name)) 0) as [Hz|Hnz].
  { destruct (basename name) as [|x y] eqn:Eb; [|discriminate]. destruct Hb as [[-> [-> ->]]|Hb]; [|congruence].
    destruct Hcase as [Hc|[_ [X _]]]; [|congruence]. rewrite (Hempty eq_refl eq_refl eq_refl) by (destruct Hc as [[? _]|?]; auto).
    split; [exact I|]. split; [intros f p; now left|]. split; [intros sat Hr; destruct (Hr eq_refl)|]. intros He. split; [reflexivity|]. exists iv. split; [exact Hj|reflexivity]. }
  assert (Hbn : basename name <> []) by (intros X; rewrite X in Hnz; apply Hnz; reflexivity). clear Hz || idtac.
  assert (Hm : marker_of name <> []) by (unfold marker_of; destruct (basename name); [congruence|discriminate]).
  assert (Hinj : forall s s', result_file (oc_dir oc) (marker_of name) s d = result_file (oc_dir oc) (marker_of name) s' d -> s = s').
  { intros s s' X. apply result_file_inj in X; try assumption; try apply marker_no_slash. tauto. }
  destruct (ops_linked oc name iv d D1 Hm Hinj os _ _ _ _ (linked_new oc name iv d) D2 Hos) as [T0 L0].
  assert (Hone : forall f, write_file oc f name iv os = Ok (sem f ev0)) by (intros f; unfold write_file; rewrite Hwf; reflexivity).
  assert (Hsem : forall f p, fs_get p (sem f ev0) = fs_get p f \/ exists x, fs_get p (sem f ev0) = Some x /\ part_of name os e p x).
  { intros f p. destruct (one_file oc f name iv os (sem f ev0) d D1 Hbn) as [O1 O2].
    - intros s sd nav t q Hin. rewrite Forall_forall in D2. exact (proj1 (D2 _ Hin _ _ _ _ _ eq_refl)).
    - intros s sd nav t q Hin. rewrite Forall_forall in D2. exact (proj2 (D2 _ Hin _ _ _ _ _ eq_refl)).
    - apply Hone.
    - destruct (row_dec c os p name) as [[sat [d' [R1 [R2 R3]]]]|Hno].
      + right. assert (d' = d) by (specialize (D3 sat R1); congruence). subst d'. destruct (O1 sat R1) as [x [X1 X2]]. exists x. split; [rewrite R3; exact X1|].
        exists sat, d, iv, x. split; [exact D1|]. split; [exact R2|]. split; [exact R3|]. split; [apply begins_refl|]. split; [exact X2|]. split; [now left|exact Hj].
      + left. apply O2. intros sat Hr. exact (Hno sat d Hr (D3 sat Hr)). }
  assert (Hfull : forall sat, rows_of sat os <> [] -> exists d iv x, date_ok d /\ get_rinex_date name = Some d /\ job_of w name os iv /\ file_of_rows oc iv (rows_of sat os) x /\
     forall f, fs_get (target name sat d) (sem f ev0) = Some x).
  { intros sat Hr. exists d, iv. destruct (one_file oc [] name iv os (sem [] ev0) d D1 Hbn) as [O1 _].
    - intros s sd nav t q Hin. rewrite Forall_forall in D2. exact (proj1 (D2 _ Hin _ _ _ _ _ eq_refl)).
    - intros s sd nav t q Hin. rewrite Forall_forall in D2. exact (proj2 (D2 _ Hin _ _ _ _ _ eq_refl)).
    - apply Hone.
    - destruct (O1 sat Hr) as [x [X1 X2]]. exists x. split; [exact D1|]. split; [exact (D3 sat Hr)|]. split; [exact Hj|]. split; [exact X2|]. intros f.
      assert (T0' : tidy [] (ev0 ++ [])) by (rewrite app_nil_r; exact T0).
      destruct (tidy_split (result_file (oc_dir oc) (marker_of name) sat d) ev0 [] [] T0' (fun X => X)) as [X|[_ [x' [y [_ X]]]]].
      + rewrite (sem_untouched _ _ [] X) in X1. discriminate.
      + destruct (X []) as [Y1 _]. destruct (X f) as [Y2 _]. rewrite X1 in Y1. injection Y1 as ->. exact Y2. }
  destruct Hcase as [[[-> He]|[-> ->]]|[He [_ [a [w1 [sat [sd [nav [t [q [e' [F1 [F2 [F3 F4]]]]]]]]]]]]]].
  - rewrite app_nil_r. split; [exact T0|]. split; [exact Hsem|]. split; [exact Hfull|]. congruence.
  - assert (Hq : forall f, sem f (ev0 ++ end_events wr) = sem f ev0) by (intros f; rewrite sem_app; apply ends_sem).
    split; [apply tidy_app; split; [exact T0|apply ends_tidy]|]. split; [intros f p; rewrite Hq; apply Hsem|].
    split; [intros sat Hr; destruct (Hfull sat Hr) as [d' [iv' [x [X1 [X2 [X3 [X4 X5]]]]]]]; exists d', iv', x; repeat (split; [assumption|]); intros f; rewrite Hq; apply X5|].
    intros _. split.
    + rewrite opened_app. apply (ends_none oc name iv d wr _ _ L0). intros p Hp. destruct (opened_tidy p ev0 [] [] T0 (incl_refl _) Hp) as [[]|[[]|X]].
      apply began_in. now right.
    + exists iv. split; [exact Hj|]. intros f. rewrite Hq. apply Hone.
  - destruct (D4 sat t F4) as [Hdn Hdt].
    assert (La : linked oc name iv d w1 (began ev0 [])).
    { destruct (ops_linked oc name iv d D1 Hm Hinj a wr (began ev0 []) [] w1 L0) as [_ X]; [|exact F2|exact X].
      rewrite Forall_forall in *. intros o Ho s' sd' nav' t' q' ->. destruct (F1 _ Ho) as [u [p [q0 E]]]. discriminate. }
    destruct (fail_linked oc name iv d D1 Hm w1 _ (WRow sat sd nav t q) ev1 e' La) as [T1 T2]; [|exact F3|].
    { intros s' sd' nav' t' q' E. injection E as <- <- <- <- <-. split; [exact Hdt|exact (proj1 (proj2 F4))]. }
    split; [apply tidy_app; auto|].
    assert (Hr : forall f, (forall p, fs_get p (sem f ev1) = fs_get p f) \/ rows_of sat os = [] /\ exists h, fs_get (target name sat d) (sem f ev1) = Some h /\
      (h = [] \/ comments h) /\ forall p, p <> target name sat d -> fs_get p (sem f ev1) = fs_get p f).
    { intros f. destruct (T2 f) as [X|[sat' [sd' [nav' [t' [q' [h [E [Hn [Hh [Hc Ho]]]]]]]]]]]; [now left|]. injection E as <- <- <- <- <-. right.
      split; [|exists h; auto]. destruct (rows_of sat os) as [|r0 rr] eqn:Er; [reflexivity|]. exfalso. apply Hn.
      destruct (Hfull sat ltac:(rewrite Er; discriminate)) as [d' [iv' [x [_ [X2 [_ [_ X5]]]]]]]. assert (d' = d) by congruence. subst d'.
      destruct (tidy_untouched (target name sat d) ev0 [] [] T0) as [X|X]; [|exact X]. rewrite X5 in X. discriminate. }
    split; [|split; [|congruence]].
    2:{ intros sat' Hr'. destruct (Hfull sat' Hr') as [d' [iv' [x [X1 [X2 [X3 [X4 X5]]]]]]]. exists d', iv', x. repeat (split; [assumption|]). intros f. rewrite sem_app.
        assert (d' = d) by congruence. subst d'. destruct (Hr (sem f ev0)) as [Hsame|[Hr0 [h [_ [_ Ho]]]]]; [rewrite Hsame; apply X5|]. rewrite Ho; [apply X5|].
        intros X. apply (Hinj sat' sat) in X. subst sat'. contradiction. }
    intros f p. rewrite sem_app.
    destruct (Hr (sem f ev0)) as [Hsame|[Hr0 [h [Hh [Hc Ho]]]]]; [rewrite Hsame; apply Hsem|].
    destruct (path_dec p (target name sat d)) as [->|Hp]; [|rewrite Ho by exact Hp; apply Hsem].
    right. exists h. split; [exact Hh|]. exists sat, d, iv. rewrite Hr0. destruct Hc as [->|Hc].
    + destruct (file_rows_begin oc iv) as [full Hf]. exists full. split; [exact D1|]. split; [exact Hdn|]. split; [reflexivity|]. split; [exists full; reflexivity|]. split; [exact Hf|]. split; [now right|exact Hj].
    + exists h. split; [exact D1|]. split; [exact Hdn|]. split; [reflexivity|]. split; [apply begins_refl|]. split; [exists h, []; split; [now rewrite app_nil_r|split; [exact Hc|constructor]]|]. split; [now right|exact Hj].
Qed.
End Run.
