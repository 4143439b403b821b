(** Proofs about the RINEX 3 reader: opening a file, interval, termination, malformed records. *)
From Coq Require Import Reals ZifyBool ZifyNat.
From Verif Require Import Base PyStr PyFloat PyDate M_Common M_Header M_Obs2 M_Obs3.
From Verif Require Import S_Text S_Time S_Obs2 S_Open2 S_Errors2 S_Obs3 P_Str P_Float P_Date P_Obs2 P_Obs2b P_Obs2c P_Errors2 P_Open2 P_Interval P_Nav4 P_Obs3 P_Obs3b P_Obs3c.
Open Scope nat_scope.

Lemma file3_split header body file : file3_parts header body file -> split_header is_end_label file = (header, body).
Proof. intros [eoh [-> [H1 H2]]]. now apply split_header_label. Qed.

Lemma open3_inv fuel v header body file r : file3_parts header body file -> open3 fuel v file = Ok r ->
  exists o iv m, parse_header3 v header (mkObj3 hdr0 []) = Ok o /\ det_interval fuel v body = Ok iv /\ max_types (o3_tab o) = Ok m /\
    r = mkReader3 m (mkObj3 (mkHdr (h_ver (o3_hdr o)) (h_tofo (o3_hdr o)) (h_xyz (o3_hdr o)) (Some iv)) (o3_tab o)) body.
Proof.
  intros Hp H. unfold open3 in H. rewrite (file3_split _ _ _ Hp) in H.
  destruct (parse_header3 v header (mkObj3 hdr0 [])) as [o|] eqn:E1; [|discriminate]. cbn [bind] in H.
  destruct (det_interval fuel v body) as [iv|] eqn:E2; [|discriminate]. cbn [bind] in H.
  destruct (max_types (o3_tab o)) as [m|] eqn:E3; [|discriminate]. cbn [bind] in H. injection H as <-.
  exists o, iv, m. auto.
Qed.

Lemma parse_header3_inv v header o : parse_header3 v header (mkObj3 hdr0 []) = Ok o -> parse_header v header hdr0 = Ok (o3_hdr o).
Proof.
  unfold parse_header3. cbn [o3_hdr o3_tab]. destruct (parse_header v header hdr0) as [h|]; [|discriminate]. cbn [bind].
  destruct (set_sno _ _ _) as [tab|]; [|discriminate]. cbn [bind]. intros H. injection H as <-. reflexivity.
Qed.

(** C09 *)
Lemma open3_table fuel v header body file sel table r : file3_parts header body file -> labelled sno_text header sel ->
  table_lines table sel -> NoDup (map fst table) -> open3 fuel v file = Ok r ->
  o3_tab (r3_obj r) = tab_of (read_table v table).
Proof.
  intros Hp Hl Ht Hn Ho. destruct (open3_inv _ _ _ _ _ _ Hp Ho) as [o [iv [m [H1 [_ [_ ->]]]]]]. cbn [r3_obj o3_tab].
  rewrite (header3_read v header sel table (o3_hdr o) Hl Ht Hn (parse_header3_inv _ _ _ H1)) in H1. injection H1 as <-. reflexivity.
Qed.

Lemma list_max_in l n : In n l -> n <= list_max l.
Proof. intros H. pose proof (proj1 (list_max_le l (list_max l)) (le_n _)) as F. rewrite Forall_forall in F. auto. Qed.
Lemma max_types_ok T m : max_types (tab_of T) = Ok m -> forall c types, In (c, types) T -> length types <= m.
Proof.
  intros H c types Hin. unfold max_types in H. destruct (tab_of T) as [|x y] eqn:E.
  { destruct T; [contradiction|discriminate]. }
  rewrite <- E in H. injection H as <-. apply list_max_in. unfold tab_of. rewrite map_map. cbn [snd]. apply in_map_iff. exists (c, types). auto.
Qed.
Lemma max_types_def T : T <> [] -> exists m, max_types (tab_of T) = Ok m.
Proof. intros H. destruct T as [|[c ts] T]; [congruence|]. eexists. reflexivity. Qed.

Definition types_distinct (T : list (ascii * list str)) : Prop := forall c types, In (c, types) T -> NoDup types.
Lemma reader3_tables fuel v header body file sel table r : file3_parts header body file -> labelled sno_text header sel ->
  table_lines table sel -> NoDup (map fst table) -> types_distinct (read_table v table) -> open3 fuel v file = Ok r ->
  tables_ok (r3_chunks r) (read_table v table) /\ o3_tab (r3_obj r) = tab_of (read_table v table) /\ r3_rest r = body.
Proof.
  intros Hp Hl Ht Hn Hd Ho. pose proof (open3_table _ _ _ _ _ _ _ _ Hp Hl Ht Hn Ho) as Htab.
  destruct (open3_inv _ _ _ _ _ _ Hp Ho) as [o [iv [m [H1 [_ [Hm ->]]]]]]. cbn [r3_obj o3_tab r3_chunks r3_rest] in *.
  rewrite Htab in Hm. split; [|auto]. split.
  - unfold read_table. rewrite map_map. exact Hn.
  - intros c types Hin. split; [exact (Hd c types Hin)|]. exact (max_types_ok _ _ Hm c types Hin).
Qed.

Lemma runs3_delivered T o np bs ys o1 np1 : runs3 T o np bs ys o1 np1 -> delivered3 T bs (map fst ys).
Proof.
  induction 1 as [o np|ep fl sats bs o np rs ys o' np' He Hr IH|fl ls np0 np p bs o ys o' np' H1 H2 H3 Hr IH]; [constructor| |now constructor].
  rewrite map_app, map_map. cbn [fst]. rewrite map_id. now constructor.
Qed.

(** C08 *)
Lemma open3_delivers fuel v header body file sel table r blocks : file3_parts header body file -> labelled sno_text header sel ->
  table_lines table sel -> NoDup (map fst table) -> types_distinct (read_table v table) -> open3 fuel v file = Ok r ->
  body3_lines (read_table v table) blocks body ->
  exists ys o', records3 v r = (ys, GStop, o') /\ delivered3 (read_table v table) blocks (map fst ys).
Proof.
  intros Hp Hl Ht Hn Hd Ho Hb. destruct (reader3_tables _ _ _ _ _ _ _ _ Hp Hl Ht Hn Hd Ho) as [H1 [H2 H3]].
  destruct (body3_read v (r3_chunks r) _ blocks body H1 Hb None [] None (r3_obj r) sp_nil H2) as [ys [o1 [sp1 [np1 [s1 [R1 [_ [_ [_ R5]]]]]]]]].
  exists ys, o1. split; [|eapply runs3_delivered; exact R1].
  unfold records3. rewrite H3. specialize (R5 []). rewrite app_nil_r in R5. rewrite R5. cbn [read_records3]. now rewrite app_nil_r.
Qed.

(** ** positions *)
Lemma runs3_app_inv T bs1 : forall bs2 o np ys o' np', runs3 T o np (bs1 ++ bs2) ys o' np' -> exists ys1 ys2 o1 np1,
  ys = ys1 ++ ys2 /\ runs3 T o np bs1 ys1 o1 np1 /\ runs3 T o1 np1 bs2 ys2 o' np'.
Proof.
  induction bs1 as [|b bs1 IH]; intros bs2 o np ys o' np' H; cbn [app] in H.
  - exists [], ys, o, np. split; [reflexivity|]. split; [constructor|exact H].
  - inversion H as [|ep fl sats bs oo npp rs ys0 oo' np0' He Hr|fl ls np0 npp p bs oo ys0 oo' np0' G1 G2 G3 Hr]; subst.
    + destruct (IH _ _ _ _ _ _ Hr) as [ys1 [ys2 [o1 [np1 [-> [R1 R2]]]]]]. exists (map (fun r => (r, o)) rs ++ ys1), ys2, o1, np1.
      split; [now rewrite app_assoc|]. split; [now constructor|exact R2].
    + destruct (IH _ _ _ _ _ _ Hr) as [ys1 [ys2 [o1 [np1 [-> [R1 R2]]]]]]. exists ys1, ys2, o1, np1.
      split; [reflexivity|]. split; [|exact R2]. now apply rn3_event with (p := p).
Qed.
(** no position announced: the position stays *)
Lemma runs3_same T o bs ys o' np' : runs3 T o None bs ys o' np' -> no_positions3 bs ->
  np' = None /\ h_xyz (o3_hdr o') = h_xyz (o3_hdr o) /\ Forall (fun y => h_xyz (o3_hdr (snd y)) = h_xyz (o3_hdr o)) ys.
Proof.
  intros H. remember (@None dec_position) as np eqn:Enp.
  induction H as [o np|ep fl sats bs o np rs ys o' np' He Hr IH|fl ls np0 np p bs o ys o' np' H1 H2 H3 Hr IH]; intros Hn.
  - split; [reflexivity|]. split; [reflexivity|constructor].
  - destruct IH as [I1 [I2 I3]]; [exact Enp|intros fl0 ls np0 Hin; apply (Hn fl0 ls np0); now right|].
    split; [exact I1|]. split; [exact I2|]. apply Forall_app. split; [|exact I3]. apply Forall_forall. intros y Hy.
    apply in_map_iff in Hy. destruct Hy as [r [<- _]]. reflexivity.
  - subst np. assert (np0 = None) by (apply (Hn fl ls np0); now left). subst np0. cbn [join_np] in *.
    assert (Hp : p = h_xyz (o3_hdr o)).
    { destruct (Z.eq_dec fl 4) as [Hf|Hf]; [destruct ls as [|l ls]|]; [apply H2; intros [_ G]; congruence|apply H1; split; [exact Hf|discriminate]|apply H2; intros [G _]; congruence]. }
    subst p. destruct IH as [I1 [I2 I3]]; [reflexivity|intros fl0 ls0 np0 Hin; apply (Hn fl0 ls0 np0); now right|].
    cbn [o3_hdr set_pos h_xyz] in I2, I3. auto.
Qed.
(** once a position was announced and taken, later events change nothing *)
Lemma runs3_stuck T o d bs ys o' np' : runs3 T o (Some d) bs ys o' np' -> near_position (h_xyz (o3_hdr o)) d ->
  Forall (fun y => near_position (h_xyz (o3_hdr (snd y))) d) ys.
Proof.
  intros H. remember (Some d) as np eqn:Enp.
  induction H as [o np|ep fl sats bs o np rs ys o' np' He Hr IH|fl ls np0 np p bs o ys o' np' H1 H2 H3 Hr IH]; intros Hn.
  - constructor.
  - apply Forall_app. split; [|now apply IH]. apply Forall_forall. intros y Hy. apply in_map_iff in Hy. destruct Hy as [r [<- _]]. exact Hn.
  - subst np. cbn [join_np] in *. apply IH; [reflexivity|]. cbn [o3_hdr set_pos h_xyz].
    destruct (Z.eq_dec fl 4) as [Hf|Hf]; [destruct ls as [|l ls]|].
    + rewrite H2; [exact Hn|]. intros [_ G]. congruence.
    + assert (Hq : l :: ls <> []) by discriminate. pose proof (H1 (conj Hf Hq)) as H4. cbn [np_ok] in H4. exact H4.
    + rewrite H2; [exact Hn|]. intros [G _]. congruence.
Qed.
Lemma delivered3_expected T bs out : delivered3 T bs out -> map fst out = expected3 bs.
Proof.
  induction 1 as [|ep fl sats bs rs out He Hd IH|fl ls np bs out Hd IH]; cbn [expected3]; [reflexivity| |exact IH].
  rewrite map_app, IH. f_equal. clear -He. induction He as [|s r sats rs [H1 [H2 _]] Hr IH]; [reflexivity|]. cbn [map]. f_equal; [|exact IH].
  destruct r as [[e n] x]. cbn [fst snd] in *. now subst.
Qed.

Lemma open3_pos fuel v header body file r : file3_parts header body file -> open3 fuel v file = Ok r ->
  exists h, parse_header v header hdr0 = Ok h /\ h_xyz (o3_hdr (r3_obj r)) = h_xyz h.
Proof.
  intros Hp Ho. destruct (open3_inv _ _ _ _ _ _ Hp Ho) as [o [iv [m [H1 [_ [_ ->]]]]]].
  exists (o3_hdr o). split; [now apply parse_header3_inv|reflexivity].
Qed.

(** C10: the first announced position *)
Lemma open3_event_position fuel v header body file sel table r b1 ls d b2 : file3_parts header body file -> labelled sno_text header sel ->
  table_lines table sel -> NoDup (map fst table) -> types_distinct (read_table v table) -> open3 fuel v file = Ok r ->
  body3_lines (read_table v table) (b1 ++ B3Event 4 ls (Some d) :: b2) body -> no_positions3 b1 ->
  exists before after o', records3 v r = (before ++ after, GStop, o') /\
    map fst (map fst before) = expected3 b1 /\ Forall (fun y => h_xyz (o3_hdr (snd y)) = h_xyz (o3_hdr (r3_obj r))) before /\
    map fst (map fst after) = expected3 b2 /\ Forall (fun y => near_position (h_xyz (o3_hdr (snd y))) d) after.
Proof.
  intros Hp Hl Ht Hn Hd Ho Hb Hnp. destruct (reader3_tables _ _ _ _ _ _ _ _ Hp Hl Ht Hn Hd Ho) as [H1 [H2 H3]].
  destruct (body3_read v (r3_chunks r) _ _ body H1 Hb None [] None (r3_obj r) sp_nil H2) as [ys [o1 [sp1 [np1 [s1 [R1 [_ [_ [_ R5]]]]]]]]].
  destruct (runs3_app_inv _ _ _ _ _ _ _ _ R1) as [before [after [o2 [np2 [-> [R2 R3]]]]]].
  destruct (runs3_same _ _ _ _ _ _ R2 Hnp) as [-> [Ho2 HF]].
  inversion R3 as [| |fl ls0 np0 npp p bs oo ys0 oo' np0' G1 G2 G3 Hr]; subst.
  exists before, after, o1. split; [|split; [|split; [exact HF|split]]].
  - unfold records3. specialize (R5 []). rewrite app_nil_r in R5. rewrite R5. cbn [read_records3]. now rewrite app_nil_r.
  - eapply delivered3_expected, runs3_delivered. exact R2.
  - eapply delivered3_expected, runs3_delivered. exact Hr.
  - cbn [join_np] in *. apply (runs3_stuck _ _ _ _ _ _ _ Hr). cbn [o3_hdr set_pos h_xyz].
    assert (Hne : ls <> []) by (intros ->; specialize (G3 eq_refl); discriminate).
    exact (G1 (conj eq_refl Hne)).
Qed.

(** ** malformed ends *)
Lemma date_split date rest : length date = 28 -> nth_error (">"%char :: date ++ rest) 31 = nth_error rest 2 /\ slice 32 35 (">"%char :: date ++ rest) = slice 3 6 rest.
Proof.
  intros H. split.
  - change (nth_error (date ++ rest) 30 = nth_error rest 2). rewrite nth_error_app2 by lia. now rewrite H.
  - change (">"%char :: date ++ rest) with ((">"%char :: date) ++ rest). rewrite (slice_app_skip 32 35 29) by (cbn [length]; lia). reflexivity.
Qed.
Lemma bad_epoch3_read line : bad_epoch3 line -> parse_epoch3 line = Err RinexError /\ exists r, line = ">"%char :: r.
Proof.
  intros H. destruct H as [date rest ep Hd Hf|date rest ep c fl Hd Hc Hfl Hn]; (split; [|eexists; reflexivity]);
  destruct (date_split date rest (date28_len _ _ Hd)) as [E1 E2]; unfold parse_epoch3;
  change (char_at 0 (">"%char :: date ++ rest)) with (Ok (A := ascii) ">"%char); cbn [bind];
  change (negb (ceqb ">" ">")) with false; cbv iota; rewrite (date28_read _ _ _ Hd); cbn [bind]; unfold char_at; rewrite E1.
  - destruct (nth_error rest 2) as [c|]; [|reflexivity]. cbn [of_option bind]. rewrite (not_int_err _ (Hf c eq_refl)). reflexivity.
  - rewrite Hc. cbn [of_option bind]. rewrite Hfl. cbn [catch bind]. rewrite E2, (not_int_err _ Hn). reflexivity.
Qed.
Lemma bad_sat3_read chunks T line : bad_sat3 T line -> parse_obs3 chunks (tab_of T) line = Err RinexError.
Proof.
  intros [c [r [-> [Hc Hn]]]]. unfold parse_obs3, slice. change (firstn (3 - 0) (skipn 0 (c :: r))) with (c :: firstn 2 r). cbv iota.
  cbn [replace_c map]. change ceqb with Ascii.eqb. rewrite (tab_of_none T _ Hn). reflexivity.
Qed.
Lemma read3_bad_sat v chunks T line rest ep fl n special o : bad_sat3 T line -> o3_tab o = tab_of T -> (fl = 0 \/ fl = 1)%Z -> (0 < n)%Z ->
  read_records3 v chunks (line :: rest) (Some (ep, fl, n)) special o = ([], GRaise RinexError, o).
Proof.
  intros Hb Ht Hfl Hn. pose proof (bad_sat3_read chunks T line Hb) as Hp. destruct Hb as [c [r [-> [Hc _]]]]. cbn [read_records3].
  destruct (ceqb c ">") eqn:E; [apply ceqb_eq in E; congruence|].
  replace (1 <? fl)%Z with false by lia. replace (0 <? n)%Z with true by lia. rewrite Ht, Hp. reflexivity.
Qed.
Lemma read3_epoch v chunks line rest s special o s' : parse_epoch3 line = Ok s' -> (exists r, line = ">"%char :: r) ->
  read_records3 v chunks (line :: rest) s special o = read_records3 v chunks rest (Some s') special o.
Proof. intros H [r ->]. cbn [read_records3]. change (ceqb ">" ">") with true. cbv iota. now rewrite H. Qed.

Lemma bad_end3_read v chunks T bad bs : tables_ok chunks T -> bad_end3 T bad bs -> forall s special np o,
  o3_tab o = tab_of T ->
  exists ys, runs3 T o np bs ys o np /\ read_records3 v chunks bad s special o = (ys, GRaise RinexError, o).
Proof.
  intros Hok Hb s special np o Htab. destruct Hb as [line rest Hb|ep fl n sats line lines bad rest Hfl He Hn Hs Hbad].
  - exists []. split; [constructor|]. destruct (bad_epoch3_read _ Hb) as [H [r ->]]. cbn [read_records3]. change (ceqb ">" ">") with true. cbv iota. now rewrite H.
  - destruct (epoch3_line_read _ _ _ _ He) as [Hpe Her].
    destruct (sats3_read v chunks T ep special o Hok Htab sats lines Hs fl Hfl) as [rs [fl' [Hrs [Hfl' Hread]]]].
    exists (map (fun r => (r, o)) rs). split.
    { rewrite <- (app_nil_r (map _ rs)). apply rn3_data; [exact Hrs|constructor]. }
    rewrite (read3_epoch v chunks line _ s special o _ Hpe Her).
    replace n with (Z.of_nat (length sats) + (n - Z.of_nat (length sats)))%Z by lia.
    rewrite Hread by lia. rewrite (read3_bad_sat v chunks T bad rest _ _ (n - Z.of_nat (length sats))%Z special o Hbad Htab Hfl' ltac:(lia)). now rewrite app_nil_r.
Qed.

Lemma runs3_app T o np bs ys o1 np1 bs' ys' o2 np2 : runs3 T o np bs ys o1 np1 -> runs3 T o1 np1 bs' ys' o2 np2 -> runs3 T o np (bs ++ bs') (ys ++ ys') o2 np2.
Proof.
  induction 1 as [o np|ep fl sats bs o np rs ys o' np' He Hr IH|fl ls np0 np p bs o ys o' np' H1 H2 H3 Hr IH]; intros H; cbn [app]; [exact H| |].
  - rewrite <- app_assoc. constructor; auto.
  - apply rn3_event with (p := p); auto.
Qed.

Lemma open3_bad_end fuel v header file sel table r blocks pre bad bs : file3_parts header (pre ++ bad) file -> labelled sno_text header sel ->
  table_lines table sel -> NoDup (map fst table) -> types_distinct (read_table v table) -> open3 fuel v file = Ok r ->
  body3_lines (read_table v table) blocks pre -> bad_end3 (read_table v table) bad bs ->
  exists ys o', records3 v r = (ys, GRaise RinexError, o') /\ delivered3 (read_table v table) (blocks ++ bs) (map fst ys).
Proof.
  intros Hp Hl Ht Hn Hd Ho Hb Hbad. destruct (reader3_tables _ _ _ _ _ _ _ _ Hp Hl Ht Hn Hd Ho) as [H1 [H2 H3]].
  destruct (body3_read v (r3_chunks r) _ _ pre H1 Hb None [] None (r3_obj r) sp_nil H2) as [ys [o1 [sp1 [np1 [s1 [R1 [_ [R3 [_ R5]]]]]]]]].
  destruct (bad_end3_read v _ _ _ _ H1 Hbad s1 sp1 np1 o1 R3) as [ys2 [R6 R7]].
  exists (ys ++ ys2), o1. split.
  - unfold records3. rewrite H3, R5, R7. reflexivity.
  - eapply runs3_delivered. eapply runs3_app; eassumption.
Qed.
