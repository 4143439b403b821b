(** Proofs about the RINEX 3 reader: events, blocks, whole bodies, observation type table. *)
From Coq Require Import ZifyBool ZifyNat.
From Verif Require Import Base PyStr PyFloat PyDate M_Common M_Header M_Obs2 M_Obs3.
From Verif Require Import S_Text S_Time S_Obs2 S_Errors2 S_Obs3 P_Str P_Float P_Sec P_Date P_Common P_Obs2 P_Obs2b P_Obs2c P_Errors2 P_Obs3.
Open Scope nat_scope.

(** ** the lines collected from events *)
Definition sno_text : str := lit "SYS / # / OBS TYPES".
Lemma plain_no_item l items : plain_line l -> find (fun i => seqb (hlabel_text i) (line_label l)) items = None.
Proof.
  intros [H _]. rewrite <- line_label_rstrip. apply find_none_items. intros lab Hin. apply H. now right.
Qed.
Lemma plain_no_sno l : plain_line l -> seqb sno_label (line_label l) = false.
Proof.
  intros [H _]. apply seqb_neq. intros E. apply (H sno_text); [now left|]. apply label_has; [discriminate|]. now rewrite <- E.
Qed.
Lemma pos_label l d : event_line l (Some d) -> line_label l = xyz_label.
Proof.
  intros H. inversion H as [tx ty tz nx mx ny my nz mz mid w Hx Hy Hz Hm Hw E1 E2|]; subst.
  apply has_label_label; [reflexivity|]. exists (tx ++ ty ++ tz ++ mid), w. split; [|split; [now rewrite <- !app_assoc|exact Hw]].
  rewrite !app_length. destruct Hx as [-> _], Hy as [-> _], Hz as [-> _]. lia.
Qed.
Lemma pos_not_epoch l d : event_line l (Some d) -> exists c r, l = c :: r /\ c <> ">"%char.
Proof.
  intros H. inversion H as [tx ty tz nx mx ny my nz mz mid w Hx Hy Hz Hm Hw E1 E2|]; subst.
  destruct Hx as [Hl [b [ip [fp [-> [Hb [Hi [Hf [_ [Hn _]]]]]]]]]].
  assert (G : exists c r, b ++ (if nx then ["-"%char] else []) ++ ip ++ ["."%char] ++ fp = c :: r /\ c <> ">"%char).
  { destruct b as [|c b].
    - cbn [app]. destruct nx; cbn [app]; [eexists _, _; split; [reflexivity|discriminate]|].
      destruct ip as [|c ip]; cbn [app]; eexists _, _; (split; [reflexivity|]); [discriminate|].
      inversion Hi; subst. intros ->. unfold digit in *. cbn in *. lia.
    - inversion Hb; subst. eexists _, _. split; [reflexivity|discriminate]. }
  destruct G as [c [r [E Hc]]]. rewrite E. exists c. eexists. split; [reflexivity|exact Hc].
Qed.

(** the position is set from the unstripped line *)
Lemma set_xyz_line l d : event_line l (Some d) -> exists p, near_position p d /\ set_xyz l = Ok p.
Proof.
  intros H. inversion H as [tx ty tz nx mx ny my nz mz mid w Hx Hy Hz Hm Hw E1 E2|]; subst.
  destruct (fix_near _ _ _ _ Hx ltac:(lia)) as [x [Fx Nx]]. destruct (fix_near _ _ _ _ Hy ltac:(lia)) as [y [Fy Ny]].
  destruct (fix_near _ _ _ _ Hz ltac:(lia)) as [z [Fz Nz]].
  exists (x, y, z). split; [split; [exact Nx|split; assumption]|].
  set (ps := [tx; ty; tz]). set (rest := mid ++ lit "APPROX POSITION XYZ" ++ w).
  assert (E : tx ++ ty ++ tz ++ rest = concat ps ++ rest).
  { unfold ps. cbn [concat]. rewrite app_nil_r, <- !app_assoc. reflexivity. }
  rewrite E.
  assert (S : forall q, In q (pieces ps 0) -> slice (fst (fst q)) (snd (fst q)) (concat ps ++ rest) = snd q).
  { intros q Hq. apply (slice_pieces ps 0 [] _ q); [reflexivity|exact Hq]. }
  assert (Hpc : pieces ps 0 = [(0, 14, tx); (14, 28, ty); (28, 42, tz)]).
  { unfold ps. cbn [pieces]. destruct Hx as [-> _], Hy as [-> _], Hz as [-> _]. reflexivity. }
  rewrite Hpc in S.
  pose proof (S (0, 14, tx) ltac:(cbn; tauto)) as S0. pose proof (S (14, 28, ty) ltac:(cbn; tauto)) as S1.
  pose proof (S (28, 42, tz) ltac:(cbn; tauto)) as S2. cbn [fst snd] in S0, S1, S2.
  unfold set_xyz. rewrite S0, S1, S2, Fx, Fy, Fz. reflexivity.
Qed.

Definition plain_or_pos (l : str) : Prop := plain_line l \/ exists d, event_line l (Some d).
(** [d] is the first position among the lines *)
Inductive specials : list str -> option dec_position -> Prop :=
| sp_nil : specials [] None
| sp_other l ls np : plain_line l -> specials ls np -> specials (l :: ls) np
| sp_pos l ls d : event_line l (Some d) -> Forall plain_or_pos ls -> specials (l :: ls) (Some d).

Lemma specials_F ls np : specials ls np -> Forall plain_or_pos ls.
Proof. induction 1; constructor; auto; [now left|right; eauto]. Qed.
Lemma event3_specials ls np : event3_lines ls np -> specials ls np.
Proof.
  induction 1 as [|l ls np H0 H1 IH|l ls p H0 H1]; [constructor|now constructor|].
  apply sp_pos; [exact H0|]. eapply Forall_impl; [|exact H1]. intros a Ha. now left.
Qed.
Lemma specials_app a np b np' : specials a np -> specials b np' -> specials (a ++ b) (match np with Some d => Some d | None => np' end).
Proof.
  induction 1 as [|l ls np H0 H1 IH|l ls d H0 H1]; intros Hb; cbn [app]; [exact Hb| |].
  - apply sp_other; auto.
  - apply sp_pos; [exact H0|]. apply Forall_app. split; [exact H1|]. eapply specials_F. exact Hb.
Qed.

Lemma ignored_items l items : ~ In HXyz items -> plain_or_pos l -> find (fun i => seqb (hlabel_text i) (line_label l)) items = None.
Proof.
  intros Hn [Hl|[d Hl]]; [now apply plain_no_item|]. rewrite (pos_label _ _ Hl).
  induction items as [|i items IH]; [reflexivity|]. cbn [find].
  destruct i; cbn [hlabel_text]; try (exfalso; apply Hn; now left); apply IH; intros Hin; apply Hn; now right.
Qed.
Lemma ignored_lines v items ls : ~ In HXyz items -> Forall plain_or_pos ls -> forall h, parse_header_loop v items ls h = Ok h.
Proof.
  intros Hn. induction 1 as [|l ls Hl Hr IH]; intros h; [reflexivity|]. cbn [parse_header_loop].
  rewrite ignored_items by assumption. apply IH.
Qed.
Lemma specials_parse v ls np : specials ls np -> forall items h, In HXyz items ->
  exists p, parse_header_loop v items ls h = Ok (set_pos h p) /\ np_ok np (h_xyz h) p.
Proof.
  induction 1 as [|l ls np H0 H1 IH|l ls d H0 H1]; intros items h Hin; cbn [parse_header_loop].
  - exists (h_xyz h). split; [now rewrite set_pos_same|reflexivity].
  - rewrite plain_no_item by assumption. now apply IH.
  - rewrite (pos_label _ _ H0).
    assert (Hf : find (fun i => seqb (hlabel_text i) xyz_label) items = Some HXyz).
    { clear -Hin. induction items as [|i items IH]; [contradiction|]. cbn [find].
      destruct Hin as [->|Hin]; [reflexivity|]. destruct i; cbn; auto. }
    rewrite Hf. destruct (set_xyz_line _ _ H0) as [p [Hp Hs]]. cbn [set_item]. rewrite Hs. cbn [bind].
    exists p. split; [|exact Hp]. apply ignored_lines; [|exact H1].
    rewrite filter_In. intros [_ E]. discriminate.
Qed.
Lemma specials_no_sno ls : Forall plain_or_pos ls -> filter (fun l => seqb sno_label (line_label l)) ls = [].
Proof.
  induction 1 as [|l ls Hl Hr IH]; [reflexivity|]. cbn [filter].
  replace (seqb sno_label (line_label l)) with false; [exact IH|]. symmetry.
  destruct Hl as [Hl|[d Hl]]; [now apply plain_no_sno|]. rewrite (pos_label _ _ Hl). reflexivity.
Qed.
Lemma specials_header3 v ls np o : specials ls np ->
  exists p, parse_header3 v ls o = Ok (mkObj3 (set_pos (o3_hdr o) p) (o3_tab o)) /\ np_ok np (h_xyz (o3_hdr o)) p.
Proof.
  intros H. destruct (specials_parse v ls np H [HVer; HTofo; HXyz; HInterval] (o3_hdr o)) as [p [Hp1 Hp2]]; [cbn; tauto|].
  exists p. split; [|exact Hp2]. unfold parse_header3, parse_header. rewrite Hp1. cbn [bind].
  rewrite (specials_no_sno ls (specials_F _ _ H)). reflexivity.
Qed.

(** ** what the reader does on a list of blocks *)
Definition join_np (np np' : option dec_position) : option dec_position := match np with Some d => Some d | None => np' end.
Inductive runs3 (T : list (ascii * list str)) : obj3 -> option dec_position -> list block3 -> list (orec3 * obj3) -> obj3 -> option dec_position -> Prop :=
| rn3_nil o np : runs3 T o np [] [] o np
| rn3_data ep fl sats bs o np rs ys o' np' : epoch_records3 T ep sats rs -> runs3 T o np bs ys o' np' ->
    runs3 T o np (B3Data ep fl sats :: bs) (map (fun r => (r, o)) rs ++ ys) o' np'
| rn3_event fl ls np0 np p bs o ys o' np' :
    (fl = 4%Z /\ ls <> [] -> np_ok (join_np np np0) (h_xyz (o3_hdr o)) p) ->
    (~ (fl = 4%Z /\ ls <> []) -> p = h_xyz (o3_hdr o)) ->
    (ls = [] -> np0 = None) ->
    runs3 T (mkObj3 (set_pos (o3_hdr o) p) (o3_tab o)) (join_np np np0) bs ys o' np' ->
    runs3 T o np (B3Event fl ls np0 :: bs) ys o' np'.

Lemma plain_or_pos_head l : plain_or_pos l -> exists c r, l = c :: r /\ ceqb c ">"%char = false.
Proof.
  intros H. assert (G : exists c r, l = c :: r /\ c <> ">"%char).
  { destruct H as [[_ H]|[d H]]; [exact H|eapply pos_not_epoch; exact H]. }
  destruct G as [c [r [E Hc]]]. exists c, r. split; [exact E|]. destruct (ceqb c ">") eqn:Ec; [apply ceqb_eq in Ec; congruence|reflexivity].
Qed.

Lemma events_read_n v chunks ep fl (lines : list str) : (1 < fl)%Z -> lines <> [] -> Forall plain_or_pos lines -> forall n special o tail o',
  n = Z.of_nat (length lines) -> handle_event v fl (special ++ lines) o = Ok o' ->
  read_records3 v chunks (lines ++ tail) (Some (ep, fl, n)) special o =
  read_records3 v chunks tail (Some (ep, fl, 0%Z)) (special ++ lines) o'.
Proof.
  intros Hfl. induction lines as [|l lines IH]; intros Hne HF n special o tail o' Hn He; [congruence|].
  inversion HF as [|x y Hl HF']; subst x y. destruct (plain_or_pos_head l Hl) as [c [r [-> Hc]]].
  rewrite <- app_comm_cons. cbn [read_records3]. rewrite Hc.
  replace (1 <? fl)%Z with true by lia. replace (0 <? n)%Z with true by (cbn [length] in Hn; lia).
  assert (Hn' : (n - 1)%Z = Z.of_nat (length lines)) by (cbn [length] in Hn; lia).
  destruct lines as [|l2 lines].
  - change (Z.of_nat (length (@nil str))) with 0%Z in Hn'. rewrite Hn'. cbn [Z.eqb]. unfold str in *. rewrite He. reflexivity.
  - replace (n - 1 =? 0)%Z with false by (cbn [length] in Hn'; lia).
    assert (E : special ++ (c :: r) :: l2 :: lines = (special ++ [c :: r]) ++ l2 :: lines) by (rewrite <- app_assoc; reflexivity).
    unfold str in *. rewrite E in He |- *. exact (IH ltac:(discriminate) HF' (n - 1)%Z (special ++ [c :: r]) o tail o' Hn' He).
Qed.
Lemma events_read v chunks ep fl (lines : list str) : (1 < fl)%Z -> lines <> [] -> Forall plain_or_pos lines -> forall special o tail o',
  handle_event v fl (special ++ lines) o = Ok o' ->
  read_records3 v chunks (lines ++ tail) (Some (ep, fl, Z.of_nat (length lines))) special o =
  read_records3 v chunks tail (Some (ep, fl, 0%Z)) (special ++ lines) o'.
Proof. intros. now apply events_read_n. Qed.

Definition tables_ok (chunks : nat) (T : list (ascii * list str)) : Prop :=
  NoDup (map fst T) /\ forall c types, In (c, types) T -> NoDup types /\ length types <= chunks.

Lemma types_of_unique T name ts ts' : NoDup (map fst T) -> types_of T name ts -> types_of T name ts' -> ts = ts'.
Proof.
  intros Hn [c [r [E H]]] [c' [r' [E' H']]]. assert (c = c') by congruence. subst c'.
  pose proof (tab_of_get T c ts Hn H). pose proof (tab_of_get T c ts' Hn H'). congruence.
Qed.

Lemma read3_obs v chunks line rest ep fl n special o sat types vals r : (exists c l, line = c :: l /\ ceqb c ">"%char = false) ->
  (fl = 0 \/ fl = 1)%Z -> (0 < n)%Z -> parse_obs3 chunks (o3_tab o) line = Ok (sat, types, vals) -> make_record types vals [] = Ok r ->
  read_records3 v chunks (line :: rest) (Some (ep, fl, n)) special o =
  (let '(ys, e, o') := read_records3 v chunks rest (Some (ep, 0%Z, (n - 1)%Z)) special o in (((ep, sat, r), o) :: ys, e, o')).
Proof.
  intros [c [l [-> Hc]]] Hfl Hn Hp Hm. cbn [read_records3]. rewrite Hc.
  replace (1 <? fl)%Z with false by lia. replace (0 <? n)%Z with true by lia.
  replace (if (fl =? 1)%Z then 0%Z else fl) with 0%Z by (destruct Hfl as [->| ->]; reflexivity).
  rewrite Hp, Hm. reflexivity.
Qed.

Lemma sats3_read v chunks T ep special o : tables_ok chunks T -> o3_tab o = tab_of T -> forall sats lines,
  Forall2 (fun s l => (exists types, types_of T (fst s) types /\ length (snd s) = length types) /\ sat3_line (fst s) (snd s) l) sats lines ->
  forall fl, (fl = 0 \/ fl = 1)%Z -> exists rs fl', epoch_records3 T ep sats rs /\ (fl' = 0 \/ fl' = 1)%Z /\ forall n tail, (0 <= n)%Z ->
    read_records3 v chunks (lines ++ tail) (Some (Some ep, fl, Z.of_nat (length sats) + n)%Z) special o =
    (let '(ys', e, o') := read_records3 v chunks tail (Some (Some ep, fl', n)) special o in (map (fun r => (r, o)) rs ++ ys', e, o')).
Proof.
  intros [Hnt Hty] Htab sats lines H. induction H as [|s l sats lines [[types [Ht Hlen]] Hl] Hr IH]; intros fl Hfl.
  - exists [], fl. split; [constructor|]. split; [exact Hfl|]. intros n tail Hn. cbn [app length map]. replace (Z.of_nat 0 + n)%Z with n by lia.
    destruct (read_records3 v chunks tail _ special o) as [[ys e] o']. reflexivity.
  - destruct Ht as [c [rn [En Hin]]]. destruct (Hty c types Hin) as [Hnd Hch].
    destruct (sat3_read T chunks (fst s) (snd s) types l Hnt ltac:(exists c, rn; auto) Hnd Hlen Hch Hl) as [vs [r [Hp [Hm Hs]]]].
    destruct (IH 0%Z ltac:(lia)) as [rs [fl' [Hrs [Hfl' Hread]]]].
    exists ((Some ep, fst s, r) :: rs), fl'. split.
    { constructor; [|exact Hrs]. cbn [fst snd]. split; [reflexivity|]. split; [reflexivity|]. exists types. split; [exists c, rn; auto|exact Hs]. }
    split; [exact Hfl'|]. intros n tail Hn.
    destruct (sat3_cols _ _ _ Hl) as [tsat [Hsat [_ [lr El]]]].
    assert (Hhead : exists c0 r0, l = c0 :: r0 /\ ceqb c0 ">"%char = false).
    { inversion Hsat as [a d0 d1 Ha Hgt Hd1 Hd0 E1 E2]. rewrite <- E1 in El. exists a. eexists. split; [exact El|].
      destruct (ceqb a ">") eqn:Ec; [apply ceqb_eq in Ec; congruence|reflexivity]. }
    rewrite <- app_comm_cons.
    etransitivity; [eapply read3_obs; [exact Hhead|exact Hfl|cbn [length]; lia|rewrite Htab; exact Hp|exact Hm]|].
    match goal with |- context [Some (_, 0%Z, ?N)] => replace N with (Z.of_nat (length sats) + n)%Z by (cbn [length]; lia) end.
    rewrite Hread by exact Hn. destruct (read_records3 v chunks tail _ special o) as [[ys e] o']. reflexivity.
Qed.

Lemma body3_read v chunks T blocks ls : tables_ok chunks T -> body3_lines T blocks ls -> forall s special np o,
  specials special np -> o3_tab o = tab_of T ->
  exists ys o1 special1 np1 s1, runs3 T o np blocks ys o1 np1 /\ specials special1 np1 /\ o3_tab o1 = tab_of T /\
    (blocks = [] /\ s1 = s \/ exists e f, s1 = Some (e, f, 0%Z)) /\
    forall tail, read_records3 v chunks (ls ++ tail) s special o =
      (let '(ys', e, o') := read_records3 v chunks tail s1 special1 o1 in (ys ++ ys', e, o')).
Proof.
  intros Hok Hb. induction Hb as [|b bs l ls Hl Hb IH]; intros s special np o Hsp Htab.
  - exists [], o, special, np, s. split; [constructor|]. split; [exact Hsp|]. split; [exact Htab|]. split; [left; auto|].
    intros tail. cbn [app]. destruct (read_records3 v chunks tail s special o) as [[ys e] o']. reflexivity.
  - inversion Hl as [ep fl sats line lines Hfl He Hs|fl line lines np0 ep Hfl He Hev]; subst.
    + destruct (epoch3_line_read _ _ _ _ He) as [Hpe [er Eer]].
      destruct (sats3_read v chunks T ep special o Hok Htab sats lines Hs fl Hfl) as [rs [fl' [Hrs [Hfl' Hread]]]].
      destruct (IH (Some (Some ep, fl', 0%Z)) special np o Hsp Htab) as [ys [o1 [sp1 [np1 [s1 [R1 [R2 [R3 [R4 R5]]]]]]]]].
      exists (map (fun r => (r, o)) rs ++ ys), o1, sp1, np1, s1. split; [now apply rn3_data|]. split; [exact R2|]. split; [exact R3|].
      split. { right. destruct R4 as [[_ ->]|R4]; [eauto|exact R4]. }
      intros tail. rewrite <- app_assoc. rewrite <- app_comm_cons. rewrite Eer at 1. cbn [read_records3].
      change (ceqb ">" ">") with true. cbv iota. rewrite <- Eer, Hpe.
      pose proof (Hread 0%Z (ls ++ tail) ltac:(lia)) as Hr. rewrite Z.add_0_r in Hr. rewrite Hr, R5.
      destruct (read_records3 v chunks tail s1 sp1 o1) as [[ys' e] o']. now rewrite app_assoc.
    + destruct (epoch3_line_read _ _ _ _ He) as [Hpe [er Eer]].
      pose proof (event3_specials _ _ Hev) as Hsp0.
      assert (Hsp' : specials (special ++ lines) (join_np np np0)) by now apply specials_app.
      assert (Hh : exists p, handle_event v fl (special ++ lines) o = Ok (mkObj3 (set_pos (o3_hdr o) (if (fl =? 4)%Z then p else h_xyz (o3_hdr o))) (o3_tab o)) /\ np_ok (join_np np np0) (h_xyz (o3_hdr o)) p).
      { destruct (specials_header3 v _ _ o Hsp') as [p [P1 P2]]. exists p. split; [|exact P2]. unfold handle_event.
        destruct (fl =? 4)%Z; [exact P1|]. rewrite set_pos_same. destruct o; reflexivity. }
      destruct Hh as [p0 [Hh Hnp]]. set (q := if (fl =? 4)%Z then p0 else h_xyz (o3_hdr o)) in *.
      set (p := if lines then h_xyz (o3_hdr o) else q).
      destruct (IH (Some (ep, fl, 0%Z)) (special ++ lines) (join_np np np0) (mkObj3 (set_pos (o3_hdr o) p) (o3_tab o)) Hsp' Htab)
        as [ys [o1 [sp1 [np1 [s1 [R1 [R2 [R3 [R4 R5]]]]]]]]].
      exists ys, o1, sp1, np1, s1. split.
      { apply rn3_event with (p := p); [| | |exact R1].
        - intros [-> Hne]. unfold p, q. destruct lines; [congruence|]. exact Hnp.
        - intros Hn. unfold p, q. destruct lines; [reflexivity|]. destruct (Z.eqb_spec fl 4); [|reflexivity]. exfalso. apply Hn. split; [assumption|discriminate].
        - intros ->. inversion Hev. reflexivity. }
      split; [exact R2|]. split; [exact R3|].
      split. { right. destruct R4 as [[_ ->]|R4]; [eauto|exact R4]. }
      intros tail. rewrite <- app_assoc. rewrite <- app_comm_cons. rewrite Eer at 1. cbn [read_records3].
      change (ceqb ">" ">") with true. cbv iota. rewrite <- Eer, Hpe. rewrite <- R5.
      destruct lines as [|l0 lines0] eqn:El.
      * cbn [app length]. unfold p. rewrite app_nil_r, set_pos_same. destruct o; reflexivity.
      * rewrite <- El in *. rewrite (events_read v chunks ep fl lines Hfl ltac:(congruence) (specials_F _ _ Hsp0) special o (ls ++ tail) _ Hh).
        unfold p. rewrite El. reflexivity.
Qed.
