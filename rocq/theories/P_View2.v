(** What a RINEX 2 reader delivers does not depend on the header values it holds. *)
From Coq Require Import ZifyBool ZifyNat.
From Verif Require Import Base PyStr PyFloat PyDate M_Common M_Header M_Obs2.
From Verif Require Import S_Text S_Time S_Obs2 S_Open2 P_Str P_Float P_Sec P_Date P_Common P_Obs2 P_Obs2b P_Obs2c P_Open2 P_Open2b.
Open Scope nat_scope.

(** the records, the way the reading ended, the epoch bookkeeping: all but the header values *)
Definition vw (t : trace2) : list (orec * option datetime) * gend * option datetime :=
  let '(ys, e, o) := t in (map (fun y => (fst y, o_prec (snd y))) ys, e, o_prec o).

Definition okb {A} (x : res A) : res unit := match x with Ok _ => Ok Datatypes.tt | Err e => Err e end.
Lemma set_item_indep v i l h h' : okb (set_item v i l h) = okb (set_item v i l h').
Proof.
  destruct i; cbn [set_item].
  - destruct (set_ver v l); reflexivity.
  - destruct (set_tofo v l); reflexivity.
  - destruct (set_xyz l); reflexivity.
  - destruct (set_interval v l); reflexivity.
Qed.
Lemma parse_loop_indep v ls : forall items h h', okb (parse_header_loop v items ls h) = okb (parse_header_loop v items ls h').
Proof.
  induction ls as [|l ls IH]; intros items h h'; cbn [parse_header_loop]; [reflexivity|].
  destruct (find _ items) as [i|]; [|apply IH].
  pose proof (set_item_indep v i l h h') as E. destruct (set_item v i l h) as [a|e], (set_item v i l h') as [a'|e']; cbn [okb bind] in *; try discriminate.
  - apply IH.
  - exact E.
Qed.
Lemma parse_header_indep v ls h h' : okb (parse_header v ls h) = okb (parse_header v ls h').
Proof. apply parse_loop_indep. Qed.

Lemma read_sats_view types ep prns o o' : o_prec o = o_prec o' -> forall lines,
  map (fun y => (fst y, o_prec (snd y))) (fst (read_sats types ep prns o lines)) = map (fun y => (fst y, o_prec (snd y))) (fst (read_sats types ep prns o' lines)) /\
  snd (read_sats types ep prns o lines) = snd (read_sats types ep prns o' lines).
Proof.
  intros Hp. induction prns as [|p prns IH]; intros lines; cbn [read_sats]; [auto|].
  destruct (read_obs_lines _ lines) as [[d r]|e]; [|auto]. destruct (make_record types d []) as [rec|e]; [|auto].
  specialize (IH r). destruct (read_sats types ep prns o r) as [ys1 e1], (read_sats types ep prns o' r) as [ys2 e2]. cbn [fst snd] in IH.
  destruct IH as [IH1 IH2]. rewrite <- Hp. destruct (odt_eqb (Some ep) (o_prec o)); cbn [fst snd map]; [auto|]. rewrite IH1, Hp. auto.
Qed.

Lemma read_records_view v types : forall fuel lines o o', o_prec o = o_prec o' ->
  vw (read_records fuel v types lines o) = vw (read_records fuel v types lines o').
Proof.
  induction fuel as [|f IH]; intros lines o o' Hp; cbn [read_records]; [cbn; rewrite Hp; reflexivity|].
  destruct lines as [|line rest]; [cbn; rewrite Hp; reflexivity|].
  destruct (read_epoch (rstrip line) rest) as [[[fl n|ep fl prns] r]|e]; [| |cbn; rewrite Hp; reflexivity].
  - destruct (take_recs (Z.to_nat n) r) as [[ls r']|e]; [|cbn; rewrite Hp; reflexivity].
    destruct ((fl =? 3)%Z || (fl =? 4)%Z)%bool; [|apply IH; exact Hp].
    pose proof (parse_header_indep v ls (o_hdr o) (o_hdr o')) as E.
    destruct (parse_header v ls (o_hdr o)) as [h|e], (parse_header v ls (o_hdr o')) as [h'|e']; cbn [okb] in E; try discriminate.
    + apply IH. exact Hp.
    + cbn. congruence.
  - destruct (read_sats_view types ep prns o o' Hp r) as [E1 E2].
    destruct (read_sats types ep prns o r) as [ys1 e1], (read_sats types ep prns o' r) as [ys2 e2]. cbn [fst snd] in E1, E2. subst e2.
    destruct e1 as [r'|e]; [|cbn [vw]; congruence].
    specialize (IH r' (mkObj2 (Some ep) (o_hdr o)) (mkObj2 (Some ep) (o_hdr o')) eq_refl).
    destruct (read_records f v types r' (mkObj2 (Some ep) (o_hdr o))) as [[ys1' e1'] o1'].
    destruct (read_records f v types r' (mkObj2 (Some ep) (o_hdr o'))) as [[ys2' e2'] o2'].
    cbn [vw] in *. rewrite !map_app, E1. injection IH as I1 I2 I3. congruence.
Qed.
Lemma run_records_view v types lines o o' : o_prec o = o_prec o' -> vw (run_records v types lines o) = vw (run_records v types lines o').
Proof. apply read_records_view. Qed.

(** ** the epochs an interval is computed from *)
Definition collectv (t : trace2) : res (list float * option datetime) :=
  let '(ys, ge, o) := t in
  match collect_deltas 10 None ys ge o with Ok (ds, o') => Ok (ds, o_prec o') | Err e => Err e end.
Lemma collect_view : forall ys ys' ge o o' n e,
  map (fun y : orec * obj2 => (fst y, o_prec (snd y))) ys = map (fun y => (fst y, o_prec (snd y))) ys' -> o_prec o = o_prec o' ->
  match collect_deltas n e ys ge o, collect_deltas n e ys' ge o' with
  | Ok (ds, a), Ok (ds', b) => ds = ds' /\ o_prec a = o_prec b
  | Err x, Err y => x = y
  | _, _ => False
  end.
Proof.
  induction ys as [|[[[ep p] r] ob] ys IH]; intros [|[[[ep' p'] r'] ob'] ys'] ge o o' n e Hm Hp; cbn [map fst snd] in Hm; try discriminate.
  - cbn [collect_deltas]. destruct ge; auto.
  - injection Hm as <- <- <- Hob Hm. cbn [collect_deltas]. destruct e as [e0|]; [|apply IH; assumption].
    destruct (dt_eqb e0 ep); [apply IH; assumption|]. destruct (dt_sub ep e0 =? 0)%Z; [apply IH; assumption|].
    destruct n as [|[|n]]; [auto|auto|].
    specialize (IH ys' ge o o' (S n) (Some ep) Hm Hp).
    destruct (collect_deltas (S n) (Some ep) ys ge o) as [[d1 a1]|], (collect_deltas (S n) (Some ep) ys' ge o') as [[d2 a2]|]; cbn [bind]; try contradiction; [|exact IH].
    destruct IH as [-> ->]. auto.
Qed.

(** What a user of the reader gets from a file: interval, records, how the reading ended. *)
Definition observations2 (v : ver) (file : list str) : res (option pynum * list orec * gend) :=
  match open2 v file with
  | Err e => Err e
  | Ok r => let '(ys, e, _) := records2 v r in Ok (h_interval (o_hdr (r_obj r)), map fst ys, e)
  end.

Lemma vw_fst ys e o ys' e' o' : vw (ys, e, o) = vw (ys', e', o') -> map fst ys = map fst ys' /\ e = e'.
Proof.
  cbn [vw]. intros H. injection H as H1 H2 _. split; [|exact H2].
  apply (f_equal (map fst)) in H1. rewrite !map_map in H1. exact H1.
Qed.

Lemma open2_parts_eq v header eoh body : Forall (fun l => is_end_regex l = false) header -> has_label end_of_header eoh ->
  open2 v (header ++ eoh :: body) =
  (do types <- set_obs_num_types header;
   do h <- parse_header v header hdr0;
   do (dt, o) <- get_interval 10 v types body (mkObj2 None h);
   do iv <- set_interval v (fmt_wf 10 3 dt);
   Ok (mkReader2 types (mkObj2 (o_prec o) (mkHdr (h_ver (o_hdr o)) (h_tofo (o_hdr o)) (h_xyz (o_hdr o)) (Some iv))) body)).
Proof.
  intros Hh He. unfold open2.
  assert (Hfp : file_parts header body (header ++ eoh :: body)).
  { exists eoh. split; [reflexivity|]. split; [|exact He]. revert Hh. apply Forall_impl. intros l Hl. now apply contains_false. }
  destruct (file_parts_split _ _ _ Hfp) as [E1 E2]. rewrite E1, E2. reflexivity.
Qed.

(** equal views of the bodies give equal observations *)
Lemma observations_view v header eoh b1 b2 : Forall (fun l => is_end_regex l = false) header -> has_label end_of_header eoh ->
  (forall types o, set_obs_num_types header = Ok types -> vw (run_records v types b1 o) = vw (run_records v types b2 o)) ->
  observations2 v (header ++ eoh :: b1) = observations2 v (header ++ eoh :: b2).
Proof.
  intros Hh He Hv. unfold observations2. rewrite !open2_parts_eq by assumption.
  destruct (set_obs_num_types header) as [types|] eqn:Et; cbn [bind]; [|reflexivity].
  destruct (parse_header v header hdr0) as [h|]; cbn [bind]; [|reflexivity].
  unfold get_interval. pose proof (Hv types (mkObj2 None h) eq_refl) as E.
  destruct (run_records v types b1 (mkObj2 None h)) as [[ys1 e1] o1] eqn:R1. destruct (run_records v types b2 (mkObj2 None h)) as [[ys2 e2] o2] eqn:R2.
  cbn [vw] in E. injection E as E1 E2 E3. subst e2.
  pose proof (collect_view ys1 ys2 e1 o1 o2 10 None E1 E3) as C.
  destruct (collect_deltas 10 None ys1 e1 o1) as [[d1 a1]|x1], (collect_deltas 10 None ys2 e1 o2) as [[d2 a2]|x2]; cbn [bind]; try contradiction; [|congruence].
  destruct C as [-> C]. destruct (best_key d2 (nub_f [] d2)) as [m|]; cbn [bind]; [|reflexivity].
  destruct (set_interval v (fmt_wf 10 3 m)) as [iv|]; cbn [bind]; [|reflexivity].
  unfold records2. cbn [r_types r_rest r_obj].
  set (q1 := mkObj2 (o_prec a1) _). set (q2 := mkObj2 (o_prec a2) _).
  pose proof (Hv types q1 eq_refl) as V1. rewrite (run_records_view v types b2 q1 q2) in V1 by (cbn; exact C).
  destruct (run_records v types b1 q1) as [[z1 g1] p1], (run_records v types b2 q2) as [[z2 g2] p2].
  destruct (vw_fst _ _ _ _ _ _ V1) as [-> ->]. cbn. reflexivity.
Qed.

(** ** an event record is as good as absent *)
Lemma event_read v types (pre tfl tn rest : str) fl (ls : list str) np o (tail : list str) : length pre = 26 -> int_field 3 tfl fl -> (1 < fl)%Z -> int_field 3 tn (Z.of_nat (length ls)) ->
  ((fl = 3 \/ fl = 4)%Z /\ event_lines ls np \/ (fl <> 3 /\ fl <> 4)%Z /\ np = None) ->
  exists p, np_ok np (h_xyz (o_hdr o)) p /\
    run_records v types (((pre ++ tfl ++ tn ++ rest) :: ls) ++ tail) o = run_records v types tail (mkObj2 (o_prec o) (set_pos (o_hdr o) p)).
Proof.
  intros H1 H2 H3 H4 H5. cbn [app]. rewrite run_records_cons. unfold step2.
  pose proof (event_line_read pre tfl tn rest fl _ (ls ++ tail) H1 H2 H3 H4) as Hre. unfold str in *. rewrite Hre.
  rewrite Nat2Z.id, take_recs_exact.
  destruct H5 as [[Hf Hev]|[[Hf3 Hf4] ->]].
  - replace ((fl =? 3)%Z || (fl =? 4)%Z)%bool with true by lia.
    destruct (parse_event v ls np Hev [HVer; HTofo; HXyz; HInterval] (o_hdr o)) as [p [E Hp]]; [cbn; tauto|].
    unfold parse_header. rewrite E. exists p. split; [exact Hp|reflexivity].
  - replace ((fl =? 3)%Z || (fl =? 4)%Z)%bool with false by lia.
    exists (h_xyz (o_hdr o)). split; [reflexivity|]. rewrite set_pos_same. destruct o. reflexivity.
Qed.
Lemma event_absent_obs n v types b ls (tail : list str) o : (exists fl evl np, b = BEvent fl evl np) -> block_lines n b ls ->
  vw (run_records v types (ls ++ tail) o) = vw (run_records v types tail o).
Proof.
  intros [fl [evl [np ->]]] H. inversion H as [|pre tfl tn rest fl' ls' np' H1 H2 H3 H4 H5]; subst.
  destruct (event_read v types pre tfl tn rest fl evl np o tail H1 H2 H3 H4 H5) as [p [_ E]]. unfold str in *. rewrite E. apply run_records_view. reflexivity.
Qed.

Lemma vw_app ys ys' e o : vw (ys ++ ys', e, o) = (map (fun y => (fst y, o_prec (snd y))) ys ++ fst (fst (vw (ys', e, o))), e, o_prec o).
Proof. cbn [vw fst]. rewrite map_app. reflexivity. Qed.

(** ... wherever it stands after well-formed blocks *)
Lemma event_absent_mid v types blocks (pre : list str) b (ls tail : list str) o : NoDup types -> body_lines (length types) blocks pre ->
  (exists fl evl np, b = BEvent fl evl np) -> block_lines (length types) b ls ->
  vw (run_records v types (pre ++ ls ++ tail) o) = vw (run_records v types (pre ++ tail) o).
Proof.
  intros Hn Hb Hev Hl. destruct (body_read v types blocks pre Hn Hb o) as [ys [o1 [_ R]]]. rewrite !R.
  pose proof (event_absent_obs _ v types b ls tail o1 Hev Hl) as E.
  destruct (run_records v types (ls ++ tail) o1) as [[y1 e1] q1], (run_records v types tail o1) as [[y2 e2] q2].
  rewrite !vw_app. cbn [vw fst] in *. injection E as -> -> ->. reflexivity.
Qed.
