(** Proofs about the RINEX 2 reader: events, blocks, whole bodies. *)
From Coq Require Import ZifyBool ZifyNat.
From Verif Require Import Base PyStr PyFloat PyDate M_Common M_Header M_Obs2.
From Verif Require Import S_Text S_Time S_Obs2 P_Str P_Float P_Sec P_Date P_Common P_Obs2 P_Obs2b.
Open Scope nat_scope.

(** ** header labels *)
Lemma line_label_rstrip l : line_label (rstrip l) = line_label l.
Proof.
  unfold line_label, from. destruct (rstrip_decomp l) as [w [E Hw]]. rewrite E at 2.
  rewrite skipn_app. symmetry. apply rstrip_app_white.
  rewrite <- (firstn_skipn (60 - length (rstrip l)) w) in Hw. apply white_app in Hw. tauto.
Qed.
Lemma label_has lab line : lab <> [] -> line_label line = lab -> has_label lab line.
Proof.
  unfold line_label, from. intros Hn H. destruct (rstrip_decomp (skipn 60 line)) as [w [E Hw]]. rewrite H in E.
  exists (firstn 60 line), w. split; [|split; [|exact Hw]].
  - apply firstn_length_le. destruct (le_lt_dec 60 (length line)) as [|Hlt]; [assumption|].
    rewrite skipn_all2 in E by lia. destruct lab; [congruence|discriminate].
  - rewrite <- E. symmetry. apply firstn_skipn.
Qed.
Lemma has_label_label lab line : rstrip lab = lab -> has_label lab line -> line_label line = lab.
Proof.
  intros Hr [cols [w [Hl [-> Hw]]]]. unfold line_label, from. rewrite skipn_app_exact by exact Hl.
  now rewrite rstrip_app_white.
Qed.
Lemma find_none_items line items : (forall lab, In lab known_labels -> ~ has_label lab line) ->
  find (fun i => seqb (hlabel_text i) (line_label (rstrip line))) items = None.
Proof.
  intros H. induction items as [|i items IH]; cbn [find]; [reflexivity|].
  destruct (seqb (hlabel_text i) (line_label (rstrip line))) eqn:E; [|exact IH].
  apply seqb_eq in E. rewrite line_label_rstrip in E. exfalso. apply (H (hlabel_text i)).
  - destruct i; cbn; tauto.
  - apply label_has; [destruct i; discriminate|congruence].
Qed.
Lemma parse_other_lines v ls : forall items h, Forall (fun l => event_line l None) ls ->
  parse_header_loop v items (map rstrip ls) h = Ok h.
Proof.
  induction ls as [|l ls IH]; intros items h H; cbn [map parse_header_loop]; [reflexivity|].
  inversion H as [|x y Hl Hr]; subst. inversion Hl; subst. rewrite find_none_items by assumption. now apply IH.
Qed.

Definition xyz_label : str := lit "APPROX POSITION XYZ".
Lemma xyz_label_black : ends_black xyz_label.
Proof. exists (lit "APPROX POSITION XY"), "Z"%char. split; reflexivity. Qed.
Definition set_pos (h : hdr) (p : position) : hdr := mkHdr (h_ver h) (h_tofo h) p (h_interval h).


Lemma fix_near w s neg m : fix_field w 4 s neg m -> w <= 300 -> exists f, py_float s = Ok f /\ near4 f (neg, m).
Proof. intros H Hw. destruct (py_float_fix _ _ _ _ _ H Hw) as [f [H1 [_ H2]]]. exists f. split; [exact H1|exact H2]. Qed.

Lemma parse_pos_line v l d h items : event_line l (Some d) -> In HXyz items ->
  exists p, near_position p d /\
    find (fun i => seqb (hlabel_text i) (line_label (rstrip l))) items = Some HXyz /\
    set_item v HXyz (rstrip l) h = Ok (set_pos h p).
Proof.
  intros Hl Hin. inversion Hl as [tx ty tz nx mx ny my nz mz mid w Hx Hy Hz Hm Hw E1 E2|]; subst. clear Hl.
  destruct (fix_near _ _ _ _ Hx ltac:(lia)) as [x [Fx Nx]]. destruct (fix_near _ _ _ _ Hy ltac:(lia)) as [y [Fy Ny]].
  destruct (fix_near _ _ _ _ Hz ltac:(lia)) as [z [Fz Nz]].
  exists (x, y, z). split; [split; [exact Nx|split; assumption]|].
  set (ps := [tx; ty; tz; mid]).
  assert (E : tx ++ ty ++ tz ++ mid ++ lit "APPROX POSITION XYZ" ++ w = concat ps ++ xyz_label ++ w).
  { unfold ps. cbn [concat]. rewrite app_nil_r, <- !app_assoc. reflexivity. }
  rewrite E. clear E.
  assert (Hlen : length (concat ps) = 60).
  { unfold ps. cbn [concat]. rewrite !app_length. cbn [length]. destruct Hx as [-> _], Hy as [-> _], Hz as [-> _]. lia. }
  split.
  - rewrite line_label_rstrip. assert (Hll : line_label (concat ps ++ xyz_label ++ w) = xyz_label).
    { apply has_label_label; [reflexivity|]. exists (concat ps), w. auto. }
    rewrite Hll. clear -Hin. induction items as [|i items IH]; [contradiction|]. cbn [find].
    destruct Hin as [->|Hin]; [reflexivity|]. destruct i; cbn; auto.
  - assert (Hr : rstrip (concat ps ++ xyz_label ++ w) = concat ps ++ xyz_label).
    { rewrite app_assoc. rewrite rstrip_ends_black by (apply ends_black_app, xyz_label_black).
      rewrite rstrip_white_nil by exact Hw. now rewrite app_nil_r. }
    rewrite Hr. set (rec := concat ps ++ xyz_label).
    assert (S : forall q, In q (pieces ps 0) -> slice (fst (fst q)) (snd (fst q)) rec = snd q).
    { intros q Hq. unfold rec. apply (slice_pieces ps 0 [] _ q); [reflexivity|exact Hq]. }
    assert (Hpc : pieces ps 0 = [(0, 14, tx); (14, 28, ty); (28, 42, tz); (42, 60, mid)]).
    { unfold ps. cbn [pieces]. destruct Hx as [-> _], Hy as [-> _], Hz as [-> _]. rewrite Hm. reflexivity. }
    rewrite Hpc in S.
    pose proof (S (0, 14, tx) ltac:(cbn; tauto)) as S0. pose proof (S (14, 28, ty) ltac:(cbn; tauto)) as S1.
    pose proof (S (28, 42, tz) ltac:(cbn; tauto)) as S2. cbn [fst snd] in S0, S1, S2.
    cbn [set_item]. unfold set_xyz. rewrite S0, S1, S2, Fx, Fy, Fz. reflexivity.
Qed.

Definition np_ok (np : option dec_position) (p0 p : position) : Prop :=
  match np with Some d => near_position p d | None => p = p0 end.
Lemma set_pos_same h : set_pos h (h_xyz h) = h.
Proof. destruct h; reflexivity. Qed.

Lemma parse_event v ls np : event_lines ls np -> forall items h, In HXyz items ->
  exists p, parse_header_loop v items (map rstrip ls) h = Ok (set_pos h p) /\ np_ok np (h_xyz h) p.
Proof.
  induction 1 as [|l ls np Hl Hr IH|l ls d Hl Hr]; intros items h Hin; cbn [map parse_header_loop].
  - exists (h_xyz h). split; [now rewrite set_pos_same|reflexivity].
  - inversion Hl; subst. rewrite find_none_items by assumption. now apply IH.
  - destruct (parse_pos_line v l d h items Hl Hin) as [p [Hp [Hf Hs]]]. rewrite Hf, Hs. cbn [bind].
    exists p. split; [|exact Hp]. now rewrite parse_other_lines.
Qed.

Lemma take_recs_exact ls tail : take_recs (length ls) (ls ++ tail) = Ok (map rstrip ls, tail).
Proof.
  induction ls as [|l ls IH]; [reflexivity|]. cbn [length app take_recs next_rec bind map]. rewrite IH. reflexivity.
Qed.

(** ** what the reader does on a list of blocks, with object snapshots *)
Inductive runs (types : list str) : obj2 -> list block -> list (orec * obj2) -> obj2 -> Prop :=
| rn_nil o : runs types o [] [] o
| rn_data ep fl sats bs o rs ys o' : epoch_records types ep sats rs ->
    runs types (mkObj2 (Some ep) (o_hdr o)) bs ys o' ->
    runs types o (BData ep fl sats :: bs)
      ((if odt_eqb (Some ep) (o_prec o) then [] else map (fun r => (r, o)) rs) ++ ys) o'
| rn_event fl ls np bs o p ys o' : np_ok np (h_xyz (o_hdr o)) p ->
    runs types (mkObj2 (o_prec o) (set_pos (o_hdr o) p)) bs ys o' ->
    runs types o (BEvent fl ls np :: bs) ys o'.

Lemma event_line_read pre tfl tn rest fl n tail : length pre = 26 -> int_field 3 tfl fl -> (1 < fl)%Z ->
  int_field 3 tn n -> read_epoch (rstrip (pre ++ tfl ++ tn ++ rest)) tail = Ok (EEvent fl n, tail).
Proof.
  intros Hp Hf Hfl Hn.
  assert (E : rstrip (pre ++ tfl ++ tn ++ rest) = concat [pre; tfl; tn] ++ rstrip rest).
  { replace (pre ++ tfl ++ tn ++ rest) with ((pre ++ tfl ++ tn) ++ rest) by now rewrite <- !app_assoc.
    rewrite rstrip_ends_black; [cbn [concat]; now rewrite app_nil_r|]. do 2 apply ends_black_app. eapply int_field_black. exact Hn. }
  rewrite E. set (ps := [pre; tfl; tn]).
  assert (S : forall q, In q (pieces ps 0) -> slice (fst (fst q)) (snd (fst q)) (concat ps ++ rstrip rest) = snd q).
  { intros q Hq. apply (slice_pieces ps 0 [] _ q); [reflexivity|exact Hq]. }
  assert (Hpc : pieces ps 0 = [(0, 26, pre); (26, 29, tfl); (29, 32, tn)]).
  { unfold ps. cbn [pieces]. rewrite Hp. destruct Hf as [-> _], Hn as [-> _]. reflexivity. }
  rewrite Hpc in S. pose proof (S (26, 29, tfl) ltac:(cbn; tauto)) as S1. pose proof (S (29, 32, tn) ltac:(cbn; tauto)) as S2.
  cbn [fst snd] in S1, S2. unfold read_epoch. rewrite S1, (py_int_field _ _ _ Hf). cbn [catch bind].
  replace (1 <? fl)%Z with true by lia. rewrite S2, (py_int_field _ _ _ Hn). reflexivity.
Qed.

(** The composition theorem: well-formed blocks followed by anything. *)
Lemma body_read v types blocks ls : NoDup types -> body_lines (length types) blocks ls ->
  forall o, exists ys o1, runs types o blocks ys o1 /\ forall tail,
    run_records v types (ls ++ tail) o =
      (let '(ys', e, o') := run_records v types tail o1 in (ys ++ ys', e, o')).
Proof.
  intros Hn Hb. induction Hb as [|b bs l ls Hl Hb IH]; intros o.
  - exists [], o. split; [constructor|]. intros tail. cbn [app]. destruct (run_records v types tail o) as [[ys e] o']. reflexivity.
  - inversion Hl as [ep fl sats els sls He Hs|pre tfl tn rest fl els np Hp Hf Hfl Hnn Hk]; subst.
    + destruct (epoch_lines_read _ _ _ _ He) as [line [more [-> Hre]]].
      destruct (sats_read types ep o sats Hn sls Hs) as [rs [Hrs Hsr]].
      destruct (IH (mkObj2 (Some ep) (o_hdr o))) as [ys [o1 [Hr1 Hr2]]].
      eexists _, o1. split; [eapply rn_data; eassumption|]. intros tail.
      rewrite <- !app_assoc. cbn [app]. rewrite run_records_cons. unfold step2. rewrite Hre, Hsr, Hr2.
      destruct (run_records v types tail o1) as [[ys' e] o']. now rewrite app_assoc.
    + assert (Hpar : exists p, np_ok np (h_xyz (o_hdr o)) p /\
        (if ((fl =? 3) || (fl =? 4))%Z%bool then parse_header v (map rstrip els) (o_hdr o) = Ok (set_pos (o_hdr o) p) else p = h_xyz (o_hdr o))).
      { destruct Hk as [[Hk1 Hk2]|[Hk1 ->]].
        - destruct (parse_event v els np Hk2 [HVer; HTofo; HXyz; HInterval] (o_hdr o)) as [p [P1 P2]]; [cbn; tauto|].
          exists p. split; [exact P2|]. replace ((fl =? 3) || (fl =? 4))%Z%bool with true by lia. exact P1.
        - exists (h_xyz (o_hdr o)). split; [reflexivity|]. replace ((fl =? 3) || (fl =? 4))%Z%bool with false by lia. reflexivity. }
      destruct Hpar as [p [Hp1 Hp2]].
      destruct (IH (mkObj2 (o_prec o) (set_pos (o_hdr o) p))) as [ys [o1 [Hr1 Hr2]]].
      exists ys, o1. split; [eapply rn_event; eassumption|]. intros tail.
      pose proof (event_line_read pre tfl tn rest fl _ ((els ++ ls) ++ tail) Hp Hf Hfl Hnn) as Hre.
      change (((pre ++ tfl ++ tn ++ rest) :: els) ++ ls) with ((pre ++ tfl ++ tn ++ rest) :: (els ++ ls)).
      cbn [app]. rewrite run_records_cons. unfold step2. rewrite Hre. rewrite Nat2Z.id, <- app_assoc, take_recs_exact.
      destruct ((fl =? 3) || (fl =? 4))%Z%bool.
      * rewrite Hp2. apply Hr2.
      * subst p. rewrite set_pos_same in Hr2. destruct o as [op oh]. apply Hr2.
Qed.

Lemma runs_delivered types o blocks ys o1 : runs types o blocks ys o1 ->
  delivered types (o_prec o) (h_xyz (o_hdr o)) blocks (map (fun y => (fst y, h_xyz (o_hdr (snd y)))) ys).
Proof.
  induction 1 as [o|ep fl sats bs o rs ys o' He Hr IH|fl ls np bs o p ys o' Hp Hr IH].
  - constructor.
  - cbn [o_prec o_hdr] in IH. destruct (odt_eqb (Some ep) (o_prec o)) eqn:E.
    + cbn [app]. unfold odt_eqb in E. destruct (o_prec o) as [e|] eqn:Eo; [|discriminate]. apply dt_eqb_eq in E. subst e.
      now constructor.
    + rewrite map_app, map_map. cbn [fst snd].
      apply dl_new with (fl := fl) (prec := o_prec o); [|exact He|exact IH].
      intros E2. rewrite E2 in E. cbn in E. pose proof (proj2 (dt_eqb_eq ep ep) eq_refl). congruence.
  - eapply dl_event; [|exact IH]. cbn [o_hdr set_pos h_xyz]. exact Hp.
Qed.
