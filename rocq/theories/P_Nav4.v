(** Navigation files: the whole file. *)
From Coq Require Import Reals.
From Verif Require Import Base PyStr PyFloat PyDate PyPath M_Common M_Header M_Names M_Nav S_Text S_Time S_Obs2 S_Names S_Nav P_Str P_Float P_Date P_Common P_Obs2 P_Obs2c P_Names5 P_Nav P_Nav2 P_Nav3.
Open Scope nat_scope.

Lemma nav_loop_app v ft day a : forall b st, nav_loop v ft day (a ++ b) st = do st' <- nav_loop v ft day a st; nav_loop v ft day b st'.
Proof.
  induction a as [|l a IH]; intros b st; cbn; [reflexivity|].
  destruct (nav_line v ft day l st); cbn [bind]; [apply IH|reflexivity].
Qed.

(** what happens after the last orbit line *)
Definition finish (v : ver) (day : option date) (orbits : list str) (rd : ascii * Z * datetime * list nat) (m : message) : res nav_state :=
  let '(sys, num, ep, vpo) := rd in
  if match day with Some d => date_eqb d (dt_date ep) | None => false end then
    do vals <- read_orbits v orbits vpo; Ok (mkNav [] 0 None (message_set sys num (dt_time ep) vals m))
  else Ok (mkNav [] 0 None m).

Lemma nav_loop_orbits v ft day os : forall orbits rd m, os <> [] -> Forall (blank_start v) os ->
  nav_loop v ft day os (mkNav orbits (List.length os) (Some rd) m) = finish v day (orbits ++ os) rd m.
Proof.
  induction os as [|l os IH]; intros orbits rd m Hne HF; [congruence|]. inversion HF as [|? ? Hl HF']; subst. cbn [nav_loop].
  unfold nav_line. unfold blank_start in Hl. rewrite Hl. cbn [negb List.length n_left n_orbits n_reader n_msg].
  destruct os as [|l2 os].
  - cbn [List.length]. destruct rd as [[[sys num] ep] vpo]. unfold finish.
    destruct (match day with Some d => _ | None => _ end); [|reflexivity].
    destruct (read_orbits v (orbits ++ [l]) vpo); reflexivity.
  - cbn [List.length bind]. change (S (List.length os)) with (List.length (l2 :: os)). rewrite IH; [|discriminate|exact HF'].
    rewrite <- app_assoc. reflexivity.
Qed.

Lemma read_orbits_lines v counted lines : Forall2 (fun nf line => orbit_line v (fst nf) (snd nf) line) counted lines ->
  Forall (fun n => n <= 4) (map fst counted) ->
  exists vals, read_orbits v lines (map fst counted) = Ok vals /\
    Forall2 (fun f x => nearest64 x (nfield_real f)) (concat (map snd counted)) vals.
Proof.
  induction 1 as [|[n fs] line counted lines H HF IH]; intros H4; [exists []; split; [reflexivity|constructor]|].
  inversion H4 as [|? ? Hn H4']; subst. destruct (IH H4') as [vals [E HV]].
  destruct (orbit_line_values v n fs line Hn H) as [_ [a [Ea HA]]].
  exists (a ++ vals). cbn [map fst snd read_orbits concat]. rewrite Ea. cbn [catch bind]. rewrite E. cbn [bind].
  split; [reflexivity|]. apply Forall2_app; assumption.
Qed.
Lemma orbit_lines_blank v counted lines : Forall2 (fun nf line => orbit_line v (fst nf) (snd nf) line) counted lines ->
  Forall (fun n => n <= 4) (map fst counted) -> Forall (blank_start v) lines.
Proof.
  induction 1 as [|[n fs] line counted lines H HF IH]; intros H4; constructor; inversion H4; subst.
  - eapply orbit_line_values; eassumption.
  - auto.
Qed.

(** one message *)
Lemma message_read v ft day m msg lines : message_lines v ft m lines ->
  exists vals, Forall2 (fun f x => nearest64 x (nfield_real f)) (concat (nm_orbits m)) vals /\
    nav_loop v (Some ft) (Some day) lines (mkNav [] 0 None msg) =
    Ok (mkNav [] 0 None (if date_eqb day (dt_date (nm_epoch m)) then message_set (nm_sys m) (nm_num m) (dt_time (nm_epoch m)) vals msg else msg)).
Proof.
  intros [Hs [first [more [-> [He [counted [HF [Hc Ho]]]]]]]].
  assert (H4 : Forall (fun n => n <= 4) (map fst counted)) by (rewrite Hc; apply orbit_counts_4).
  assert (Hp : black_start v first /\ parse_epoch_n v (Some ft) first = Ok (nm_sys m, nm_num m, nm_epoch m)).
  { destruct (ver_lt3 v) eqn:Ev; [destruct He as [-> He]; now apply epoch2_parse|now apply epoch3_parse]. }
  destruct Hp as [Hb Hp]. destruct (read_orbits_lines _ _ _ HF H4) as [vals [Er HV]]. rewrite Ho in HV.
  exists vals. split; [exact HV|]. cbn [nav_loop]. unfold nav_line at 1. unfold black_start in Hb. rewrite Hb. cbn [negb].
  rewrite Hp. cbn [bind]. rewrite (msg_reader_sys v (nm_sys m) Hs). cbn [of_option bind n_orbits n_msg].
  assert (Hl : List.length (orbit_counts (nm_sys m)) = List.length more).
  { rewrite <- Hc, map_length. eapply F2_length. exact HF. }
  rewrite Hl. rewrite nav_loop_orbits.
  - cbn [app]. unfold finish. rewrite <- Hc, Er. cbn [bind]. destruct (date_eqb day (dt_date (nm_epoch m))); reflexivity.
  - destruct more; [|discriminate]. exfalso. unfold orbit_counts in Hl. destruct (_ || _); discriminate.
  - eapply orbit_lines_blank; eassumption.
Qed.

Definition near_values (m : nmessage) (vals : list float) : Prop :=
  Forall2 (fun f x => nearest64 x (nfield_real f)) (concat (nm_orbits m)) vals.

Lemma messages_read v ft day ms parts : Forall2 (message_lines v ft) ms parts -> forall msg,
  exists m', nav_loop v (Some ft) (Some day) (concat parts) (mkNav [] 0 None msg) = Ok (mkNav [] 0 None m') /\
    (forall sys num t, match last_message day sys num t ms with
       | Some x => exists vals, stored m' sys num t = Some vals /\ near_values x vals
       | None => stored m' sys num t = stored msg sys num t
       end) /\
    (forall sys, (exists d, dict_get Ascii.eqb sys m' = Some d) <->
       (exists d, dict_get Ascii.eqb sys msg = Some d) \/ exists x, In x ms /\ nm_sys x = sys /\ dt_date (nm_epoch x) = day).
Proof.
  induction 1 as [|m part ms parts H HF IH]; intros msg.
  - exists msg. split; [reflexivity|]. split; [reflexivity|]. intros sys. split; [auto|]. intros [?|[x [[] _]]]. assumption.
  - destruct (message_read v ft day m msg part H) as [vals [HV E]].
    set (msg1 := if date_eqb day (dt_date (nm_epoch m)) then message_set (nm_sys m) (nm_num m) (dt_time (nm_epoch m)) vals msg else msg) in *.
    destruct (IH msg1) as [m' [E' [HA HB]]]. exists m'. split; [|split].
    + cbn [concat]. rewrite nav_loop_app, E. cbn [bind]. exact E'.
    + intros sys num t. specialize (HA sys num t). cbn [last_message]. destruct (last_message day sys num t ms) as [x|]; [exact HA|].
      destruct (Ascii.eqb (nm_sys m) sys && (nm_num m =? num)%Z && tod_eqb (dt_time (nm_epoch m)) t && date_eqb (dt_date (nm_epoch m)) day) eqn:Ek.
      * rewrite !andb_true_iff in Ek. destruct Ek as [[[E1 E2] E3] E4].
        apply Ascii.eqb_eq in E1. apply Z.eqb_eq in E2. apply tod_eqb_eq in E3. apply date_eqb_eq in E4. subst sys num t.
        exists vals. split; [|exact HV]. rewrite HA. unfold msg1. rewrite E4, (proj2 (date_eqb_eq day day) eq_refl). apply stored_set_same.
      * rewrite HA. unfold msg1. destruct (date_eqb day (dt_date (nm_epoch m))) eqn:Ed; [|reflexivity].
        apply date_eqb_eq in Ed. apply stored_set_other. intros X. injection X as X1 X2 X3.
        rewrite <- Ed, (proj2 (date_eqb_eq day day) eq_refl), X1, X2 in Ek. rewrite Ascii.eqb_refl, Z.eqb_refl in Ek.
        assert (Et : tod_eqb (dt_time (nm_epoch m)) t = true) by (apply tod_eqb_eq; unfold dt_time; exact X3).
        rewrite Et in Ek. discriminate.
    + intros sys. rewrite HB. unfold msg1. destruct (date_eqb day (dt_date (nm_epoch m))) eqn:Ed.
      * apply date_eqb_eq in Ed. rewrite system_set. split.
        -- intros [[->|?]|[x [Hx ?]]]; [right; exists m; repeat split; auto; now left|left; assumption|right; exists x; split; [now right|assumption]].
        -- intros [?|[x [[<-|Hx] [Hx1 Hx2]]]]; [auto|left; left; congruence|right; exists x; auto].
      * split.
        -- intros [?|[x [Hx ?]]]; [auto|right; exists x; split; [now right|assumption]].
        -- intros [?|[x [[<-|Hx] [Hx1 Hx2]]]]; [auto| |right; exists x; auto].
           rewrite Hx2, (proj2 (date_eqb_eq day day) eq_refl) in Ed. discriminate.
Qed.

(** header *)
Lemma split_header_label head endl body : Forall (fun l => ~ has_label (lit "END OF HEADER") l) head -> has_label (lit "END OF HEADER") endl ->
  split_header is_end_label (head ++ endl :: body) = (head, body).
Proof.
  intros HF He. induction HF as [|l head Hl HF IH]; cbn [app split_header].
  - unfold is_end_label. rewrite (has_label_label (lit "END OF HEADER") endl) by (try reflexivity; exact He). reflexivity.
  - assert (E : is_end_label l = false).
    { unfold is_end_label. apply seqb_neq. intros E. apply Hl. apply label_has; [discriminate|exact E]. }
    rewrite E, IH. reflexivity.
Qed.

Lemma nav_round_trip v filename ms lines day : nav_file_text v ms lines -> get_rinex_date filename = Some day ->
  exists m, nav_file filename lines = Ok m /\
    (forall sys num t, match last_message day sys num t ms with
       | Some x => exists vals, stored m sys num t = Some vals /\ near_values x vals
       | None => stored m sys num t = None
       end) /\
    (forall sys, (exists d, dict_get Ascii.eqb sys m = Some d) <-> exists x, In x ms /\ nm_sys x = sys /\ dt_date (nm_epoch x) = day).
Proof.
  intros [ft [w1 [s [w2 [mid [rest1 [w [micro [head [endl [parts [Hver [Hv [Hw1 [Hw2 [Hw [L1 [L2 [L3 [-> [Hh [He HM]]]]]]]]]]]]]]]]]]]]]] Hday.
  set (first := w1 ++ s ++ w2 ++ mid ++ ft :: rest1 ++ lit "RINEX VERSION / TYPE" ++ w).
  assert (E9 : slice 0 9 first = w1 ++ s ++ w2).
  { unfold first. replace (w1 ++ s ++ w2 ++ mid ++ ft :: rest1 ++ lit "RINEX VERSION / TYPE" ++ w) with ((w1 ++ s ++ w2) ++ mid ++ ft :: rest1 ++ lit "RINEX VERSION / TYPE" ++ w) by now rewrite <- !app_assoc.
    now apply slice_0. }
  assert (Hcls : nav_class first = Ok v) by (rewrite (nav_class_ok first w1 s w2 micro) by assumption; now rewrite Hv).
  assert (Hlab : has_label (lit "RINEX VERSION / TYPE") first).
  { exists ((w1 ++ s ++ w2) ++ mid ++ ft :: rest1), w. split; [rewrite !app_length in *; cbn [List.length]; lia|]. split; [|exact Hw].
    unfold first. rewrite <- !app_assoc. reflexivity. }
  assert (Hll : line_label first = lit "RINEX VERSION / TYPE") by (apply has_label_label; [reflexivity|exact Hlab]).
  unfold nav_file. cbn [app hd]. fold first. rewrite Hcls. cbn [bind]. unfold nav_read.
  change (first :: head ++ endl :: concat parts) with ((first :: head) ++ endl :: concat parts).
  rewrite split_header_label; [|constructor; [|exact Hh]|exact He].
  2:{ intros Hc. apply has_label_label in Hc; [|reflexivity]. rewrite Hll in Hc. discriminate. }
  cbn [nav_header]. rewrite Hll. change (seqb (lit "RINEX VERSION / TYPE") (hlabel_text HVer)) with true. cbv iota.
  assert (Hset : exists rv ss, set_ver v first = Ok (rv, ft, ss)).
  { unfold set_ver. unfold nav_class in Hcls. destruct (py_float (slice 0 9 first)) as [rv|ee]; [|cbn [catch] in Hcls; destruct (existsb _ _) in Hcls; discriminate].
    cbn [bind].
    assert (Et : nth_error first 20 = Some ft).
    { unfold first. replace (w1 ++ s ++ w2 ++ mid ++ ft :: rest1 ++ lit "RINEX VERSION / TYPE" ++ w) with (((w1 ++ s ++ w2) ++ mid) ++ ft :: rest1 ++ lit "RINEX VERSION / TYPE" ++ w) by now rewrite <- !app_assoc.
      rewrite nth_error_app2 by (rewrite app_length; lia). rewrite app_length, L1, L2. reflexivity. }
    unfold char_at. rewrite Et. cbn [of_option bind].
    destruct (nth_error first 40) as [ss|] eqn:Es.
    - cbn [of_option bind]. eauto.
    - apply nth_error_None in Es. exfalso. unfold first in Es. rewrite !app_length in Es. cbn [List.length] in Es. rewrite !app_length in Es.
      rewrite !app_length in L1. lia. }
  destruct Hset as [rv [ss Hset]]. rewrite Hset. cbn [bind]. rewrite Hday.
  destruct (messages_read v ft day ms parts HM []) as [m' [E [HA HB]]].
  exists m'. split; [exact (f_equal (fun r => do nst <- r; Ok (n_msg nst)) E)|]. split.
  - intros sys num t. specialize (HA sys num t). destruct (last_message day sys num t ms); [exact HA|]. exact HA.
  - intros sys. rewrite HB. cbn. split; [intros [[d Hd]|?]; [discriminate|assumption]|auto].
Qed.

(** files without a date *)
Lemma nav_loop_none v ft lines : forall st st', nav_loop v ft None lines st = Ok st' -> n_msg st' = n_msg st.
Proof.
  induction lines as [|l r IH]; intros st st' H; cbn in H; [now injection H as <-|].
  destruct (nav_line v ft None l st) as [st1|] eqn:E; [|discriminate]. cbn [bind] in H. rewrite (IH _ _ H).
  unfold nav_line in E. destruct (negb _).
  - destruct (parse_epoch_n v ft l) as [[[a b] c]|]; [|discriminate]. cbn [bind] in E. destruct (msg_reader v a); [|discriminate].
    cbn in E. now injection E as <-.
  - destruct (n_left st) as [|k].
    + destruct (n_reader st) as [[[[a b] c] d]|]; [|discriminate]. now injection E as <-.
    + destruct k as [|k].
      * destruct (n_reader st) as [[[[a b] c] d]|]; [|discriminate]. now injection E as <-.
      * now injection E as <-.
Qed.
Lemma nav_file_no_date filename lines m : get_rinex_date filename = None -> nav_file filename lines = Ok m -> m = [].
Proof.
  intros Hd H. unfold nav_file in H. destruct (nav_class _) as [v|]; [|discriminate]. cbn [bind] in H. unfold nav_read in H.
  destruct (split_header _ _) as [h b]. destruct (nav_header v h) as [ft|]; [|discriminate]. cbn [bind] in H. rewrite Hd in H.
  destruct (nav_loop _ _ _ _ _) as [st|] eqn:E; [|discriminate]. cbn [bind] in H. injection H as <-. now rewrite (nav_loop_none _ _ _ _ _ E).
Qed.

(** truncated messages *)
Lemma mapM_err {A B} (f : A -> res B) (l : list A) e : (forall a e', f a = Err e' -> e' = ValueError) -> mapM f l = Err e -> e = ValueError.
Proof.
  intros Hf. induction l as [|a l IH]; cbn; [discriminate|]. destruct (f a) as [b|e'] eqn:E; cbn [bind].
  - destruct (mapM f l) as [bs|e2]; cbn [bind]; [discriminate|]. intros H. apply IH. exact H.
  - intros H. injection H as <-. now apply (Hf a).
Qed.
Lemma read_orbits_err v orbits : forall vpo e, read_orbits v orbits vpo = Err e -> e = RinexError.
Proof.
  induction orbits as [|l r IH]; intros vpo e H; cbn in H; [discriminate|].
  destruct vpo as [|n ns]; [now injection H as <-|].
  destruct (orbit_values v n l) as [a|e1] eqn:Ea.
  - cbn [catch bind] in H. destruct (read_orbits v r ns) as [b|e2] eqn:Eb; [discriminate|]. cbn [bind] in H. injection H as <-. now apply (IH ns).
  - unfold orbit_values in Ea. assert (e1 = ValueError).
    { eapply mapM_err; [|exact Ea]. intros s e' Hs. unfold orbit_value in Hs. destruct s as [|c s]; [discriminate|].
      unfold py_float in Hs. destruct (py_float_opt (c :: s)); cbn in Hs; [discriminate|]. now injection Hs as <-. }
    subst e1. cbn [catch existsb exn_eqb orb bind] in H. now injection H as <-.
Qed.

