(** Navigation files of any content: what is kept is what the lines say. *)
From Coq Require Import Reals.
From Verif Require Import Base PyStr PyFloat PyDate PyPath M_Common M_Header M_Names M_Nav S_Text S_Time S_Obs2 S_Names S_Nav P_Str P_Float P_Date P_Common P_Obs2 P_Xyz P_Names5 P_Nav P_Nav2 P_Nav3 P_Nav4.
Open Scope nat_scope.

Lemma in_range_dec y mo d h mi s us : epoch_in_range y mo d h mi s us \/ ~ epoch_in_range y mo d h mi s us.
Proof. unfold epoch_in_range, valid_date. lia. Qed.
Lemma validate_epoch_sound y mo d h mi s us t : validate_epoch y mo d h mi s us = Ok t ->
  valid_datetime t /\ instant t = epoch_value y mo d h mi s us.
Proof.
  intros H. destruct (in_range_dec y mo d h mi s us) as [Hr|Hr].
  - destruct (Z_lt_le_dec (epoch_value y mo d h mi s us) end_of_time) as [Hl|Hl].
    + destruct (validate_epoch_ok _ _ _ _ _ _ _ Hr Hl) as [t' [E [H1 H2]]]. rewrite E in H. injection H as <-. auto.
    + rewrite validate_epoch_late in H by assumption. discriminate.
  - assert (Hf : {fits (century y) /\ fits mo /\ fits d /\ fits h /\ fits mi /\ fits s /\ fits us} + {~ (fits (century y) /\ fits mo /\ fits d /\ fits h /\ fits mi /\ fits s /\ fits us)}).
    { unfold fits. repeat match goal with |- {?a /\ ?b} + {_} => assert ({a} + {~ a}) as [?|?] by (destruct (Z_lt_le_dec (2^31 - 1) ltac:(match a with (_ <= ?n < _)%Z => exact n end)); [right; lia|]; match a with (_ <= ?n < _)%Z => destruct (Z_lt_le_dec n (- 2^31)); [right; lia|left; lia] end); [|right; tauto]; assert ({b} + {~ b}) as [?|?]; [|left; tauto|right; tauto] end.
      match goal with |- {(_ <= ?n < _)%Z} + {_} => destruct (Z_lt_le_dec (2^31 - 1) n); [right; lia|]; destruct (Z_lt_le_dec n (- 2^31)); [right; lia|left; lia] end. }
    destruct Hf as [Hf|Hf]; [rewrite validate_epoch_bad in H by assumption|rewrite validate_epoch_huge in H by assumption]; discriminate.
Qed.

Lemma mk_datetime_sound y mo d h mi s us t : mk_datetime y mo d h mi s us = Ok t -> t = mkDT y mo d h mi s us /\ valid_datetime t.
Proof.
  unfold mk_datetime. destruct (negb _); [discriminate|]. destruct (dt_ok _) eqn:E; [|discriminate]. intros H. injection H as <-.
  split; [reflexivity|]. now apply valid_datetime_iff.
Qed.
Lemma dt_add_valid t us t' : dt_add t us = Ok t' -> valid_datetime t'.
Proof.
  unfold dt_add. destruct ((0 <=? _)%Z && _) eqn:E; [|discriminate]. intros H. injection H as <-.
  apply valid_datetime_iff. apply dt_of_us_ok. lia.
Qed.
Lemma validate_epoch6_sound y mo d h mi s t : validate_epoch6 y mo d h mi s = Ok t ->
  valid_datetime t /\ ((mi < 60)%Z -> t = mkDT (century y) mo d h mi s 0).
Proof.
  unfold validate_epoch6. rewrite full_year_century. intros H.
  destruct (clip60 mi 1) as [mi' d1] eqn:E1. destruct (clip60 h 60) as [h' d2] eqn:E2.
  destruct (mk_datetime _ _ _ _ _ _ _) as [t0|] eqn:Em; [|discriminate]. cbn [bind] in H.
  apply mk_datetime_sound in Em. destruct Em as [E0 Hv]. split; [now apply dt_add_valid in H|]. intros Hm.
  unfold clip60 in E1, E2. replace ((60 <=? mi)%Z && (mi <=? 120)%Z) with false in E1 by lia. injection E1 as <- <-.
  destruct ((60 <=? h)%Z && (h <=? 120)%Z) eqn:Eh; injection E2 as <- <-.
  - subst t0. destruct Hv as [_ [Hv _]]. cbn in Hv. lia.
  - unfold dt_add in H. cbn [Z.add Z.mul] in H. rewrite Z.add_0_r in H. apply valid_datetime_iff in Hv. pose proof (dt_us_bounds _ Hv) as Hb.
    replace ((0 <=? dt_us t0) && (dt_us t0 <? max_ordinal * us_per_day))%Z with true in H by lia. rewrite dt_of_us_of_dt in H by exact Hv.
    injection H as <-. exact E0.
Qed.

Lemma catch_ok {A} (r : res A) es (h : res A) a : catch r es h = Ok a -> (forall b, h <> Ok b) -> r = Ok a.
Proof. destruct r as [x|e]; cbn; [auto|]. destruct (existsb _ _); intros H Hh; [now apply Hh in H|discriminate]. Qed.

Lemma file_types_inv v t sys : ver_lt3 v = true -> file_types v t = Some sys -> t = nav_file_type sys.
Proof.
  intros Hv H. unfold file_types in H.
  destruct t as [[] [] [] [] [] [] [] []]; try discriminate H; destruct (ver_is20 v); try discriminate H; injection H as <-; reflexivity.
Qed.
Lemma msg_reader_in v sys vpo : msg_reader v sys = Some vpo -> (v = V20 -> sys <> "S"%char) -> In sys (nav_systems v).
Proof.
  intros H Hs. unfold msg_reader in H.
  destruct sys as [[] [] [] [] [] [] [] []]; try discriminate H; destruct v; cbn in H; try discriminate H; cbn; auto 12.
Qed.

Ltac ok_bind H := repeat match type of H with
  | bind ?r _ = Ok _ => let E := fresh "E" in let x := fresh "x" in destruct r as [x|] eqn:E; [cbn [bind] in H|discriminate H]
  | Ok _ = Ok _ => injection H as H
  end.

Lemma epoch_sound v ft line sys num ep vpo : parse_epoch_n v ft line = Ok (sys, num, ep) -> msg_reader v sys = Some vpo ->
  epoch_says v ft line sys num ep.
Proof.
  intros H Hr. assert (Hin : In sys (nav_systems v)) by (eapply msg_reader_in; [exact Hr|]; intros -> ->; discriminate Hr).
  unfold epoch_says. split; [exact Hin|]. unfold parse_epoch_n in H. destruct (ver_lt3 v) eqn:Ev.
  - unfold parse_epoch_n2 in H. destruct ft as [t|]; [|discriminate]. cbn [of_option bind] in H. apply catch_ok in H; [|discriminate].
    destruct (file_types v t) as [sy|] eqn:Ef; [|discriminate]. cbn [of_option bind] in H.
    destruct (py_int (slice 0 2 line)) as [n0|] eqn:E0; [|discriminate]. cbn [bind] in H.
    destruct (py_float (slice 17 22 line)) as [f|] eqn:E1; [|discriminate]. cbn [bind] in H.
    destruct (sec2sec_ms f) as [[s us]|] eqn:E2; [|discriminate]. cbn [bind] in H.
    cbn [mapM] in H.
    destruct (py_int (slice 2 (2 + 3) line)) as [y|] eqn:F1; [|discriminate]. cbn [bind] in H.
    destruct (py_int (slice 5 (5 + 3) line)) as [mo|] eqn:F2; [|discriminate]. cbn [bind] in H.
    destruct (py_int (slice 8 (8 + 3) line)) as [d|] eqn:F3; [|discriminate]. cbn [bind] in H.
    destruct (py_int (slice 11 (11 + 3) line)) as [h|] eqn:F4; [|discriminate]. cbn [bind] in H.
    destruct (py_int (slice 14 (14 + 3) line)) as [mi|] eqn:F5; [|discriminate]. cbn [bind] in H.
    destruct (validate_epoch y mo d h mi s us) as [e|] eqn:Eval; [|discriminate]. cbn [bind] in H.
    destruct (sv_clock _ _); [|discriminate]. cbn [bind] in H. injection H as -> -> ->.
    apply validate_epoch_sound in Eval. destruct Eval as [Hv Hi]. split; [exact Hv|].
    split; [now rewrite (file_types_inv _ _ _ Ev Ef)|]. exists y, mo, d, h, mi, f, s, us. repeat split; try assumption.
    unfold columns. repeat constructor; assumption.
  - unfold parse_epoch_n3 in H. unfold char_at in H. destruct line as [|c0 line]; [discriminate|]. cbn [nth_error of_option bind] in H.
    apply catch_ok in H; [|discriminate]. set (line1 := c0 :: line) in *.
    destruct (py_int (slice 1 3 line1)) as [n0|] eqn:E0; [|discriminate]. cbn [bind] in H.
    destruct (py_int (slice 4 9 line1)) as [y|] eqn:F1; [|discriminate]. cbn [bind] in H. cbn [mapM] in H.
    destruct (py_int (slice 8 (8 + 3) line1)) as [mo|] eqn:F2; [|discriminate]. cbn [bind] in H.
    destruct (py_int (slice 11 (11 + 3) line1)) as [d|] eqn:F3; [|discriminate]. cbn [bind] in H.
    destruct (py_int (slice 14 (14 + 3) line1)) as [h|] eqn:F4; [|discriminate]. cbn [bind] in H.
    destruct (py_int (slice 17 (17 + 3) line1)) as [mi|] eqn:F5; [|discriminate]. cbn [bind] in H.
    destruct (py_int (slice 20 (20 + 3) line1)) as [s|] eqn:F6; [|discriminate]. cbn [bind] in H.
    destruct (validate_epoch6 y mo d h mi s) as [e|] eqn:Eval; [|discriminate]. cbn [bind] in H.
    destruct (sv_clock _ _); [|discriminate]. cbn [bind] in H. injection H as -> -> ->.
    apply validate_epoch6_sound in Eval. destruct Eval as [Hv Hi]. split; [exact Hv|]. split; [reflexivity|].
    exists y, mo, d, h, mi, s. split; [|exact Hi]. unfold columns. repeat constructor; assumption.
Qed.

Lemma d_to_e_exponent s : d_to_e s = exponent_e s.
Proof.
  unfold d_to_e, replace_c, lower, exponent_e. rewrite map_map. apply map_ext. intros c.
  destruct c as [[] [] [] [] [] [] [] []]; reflexivity.
Qed.
Lemma nth_error_firstn {A} (l : list A) n i : i < n -> nth_error (firstn n l) i = nth_error l i.
Proof. revert n i. induction l as [|a l IH]; intros [|n] [|i] H; cbn; try lia; try reflexivity. apply IH. lia. Qed.
Lemma mapM_nth {A B} (f : A -> res B) l r i a : mapM f l = Ok r -> nth_error l i = Some a -> exists b, nth_error r i = Some b /\ f a = Ok b.
Proof.
  revert r i. induction l as [|x l IH]; intros r i H Hn; [destruct i; discriminate|]. cbn in H.
  destruct (f x) as [b|] eqn:E; [|discriminate]. cbn [bind] in H. destruct (mapM f l) as [bs|]; [|discriminate]. cbn [bind] in H. injection H as <-.
  destruct i; cbn in Hn |- *; [injection Hn as <-; eauto|]. now apply IH.
Qed.
Lemma rstrip_white t : forallb is_space t = true -> rstrip t = [].
Proof.
  intros H. apply rstrip_white_nil. unfold white. apply Forall_forall. now apply forallb_forall.
Qed.
Lemma orbit_value_says t x : orbit_value (d_to_e (rstrip t)) = Ok x ->
  if forallb is_space t then x = fzero else exists f, py_float (exponent_e (rstrip t)) = Ok f /\ x = if ftruth f then f else fzero.
Proof.
  intros H. destruct (forallb is_space t) eqn:E.
  - rewrite (rstrip_white t E) in H. cbn in H. now injection H as <-.
  - rewrite d_to_e_exponent in H. unfold orbit_value in H. destruct (exponent_e (rstrip t)) as [|c r] eqn:Et.
    + exfalso. apply map_eq_nil in Et. destruct (rstrip_decomp t) as [w [E1 Hw]]. rewrite Et in E1. cbn in E1. subst w.
      assert (forallb is_space t = true) by (apply forallb_forall; intros c Hc; exact (proj1 (Forall_forall _ _) Hw c Hc)). congruence.
    + destruct (py_float (c :: r)) as [f|]; [|discriminate]. cbn [bind] in H. injection H as <-. eauto.
Qed.
Lemma orbit_values_say v n line a : n <= 4 -> orbit_values v n line = Ok a ->
  List.length a = n /\ forall i, i < n -> exists x, nth_error a i = Some x /\ orbit_says v line i x.
Proof.
  intros Hn H. unfold orbit_values in H. pose proof (mapM_length _ _ _ H) as HL. rewrite firstn_length, map_length in HL.
  split; [rewrite HL; unfold orbit_cols; destruct (ver_lt3 v); cbn [List.length]; lia|].
  intros i Hi. set (c0 := if ver_lt3 v then 3 else 4).
  assert (Hc : nth_error (orbit_cols v) i = Some (c0 + 19 * i)).
  { unfold orbit_cols, c0. destruct (ver_lt3 v); destruct i as [|[|[|[|i]]]]; try reflexivity; lia. }
  destruct (mapM_nth _ _ _ i (d_to_e (rstrip (slice (c0 + 19 * i) (c0 + 19 * i + 19) (rstrip line)))) H) as [x [Hx Hv]].
  { rewrite nth_error_firstn by exact Hi. rewrite nth_error_map, Hc. reflexivity. }
  exists x. split; [exact Hx|]. unfold orbit_says. fold c0. now apply orbit_value_says.
Qed.
Lemma read_orbits_say v lines : forall vpo vals, read_orbits v lines vpo = Ok vals -> List.length lines = List.length vpo -> Forall (fun n => n <= 4) vpo ->
  orbits_say v vpo lines vals.
Proof.
  induction lines as [|l lines IH]; intros [|n ns] vals H HL H4; cbn in HL; try lia; cbn in H.
  - injection H as <-. constructor.
  - destruct (orbit_values v n l) as [a|e] eqn:Ea.
    + cbn [catch bind] in H. destruct (read_orbits v lines ns) as [b|] eqn:Eb; [|discriminate]. cbn [bind] in H. injection H as <-.
      inversion H4; subst. destruct (orbit_values_say _ _ _ _ ltac:(eassumption) Ea) as [L P].
      constructor; [exact L|exact P|]. apply IH; [exact Eb|lia|assumption].
    + cbn [catch] in H. destruct (existsb _ _); discriminate.
Qed.

Lemma blank_start_spec v line : blank_start v line <-> starts_blank v line.
Proof.
  unfold blank_start, starts_blank, nav_spaces, slice. set (k := if ver_lt3 v then 3 else 1).
  replace (firstn (k - 0) (skipn 0 line)) with (firstn k line) by (rewrite Nat.sub_0_r; reflexivity).
  unfold isspace, white. destruct (firstn k line) as [|c r]; [split; [discriminate|intros [? _]; congruence]|].
  rewrite forallb_forall, Forall_forall. split; [intros H; split; [discriminate|exact H]|tauto].
Qed.
Lemma black_start_spec v line : black_start v line <-> ~ starts_blank v line.
Proof. rewrite <- blank_start_spec. unfold black_start, blank_start. destruct (isspace _); split; congruence. Qed.

(** the body: the lines after the end of the header *)
Lemma nav_file_kept filename lines m sys num t vals : nav_file filename lines = Ok m -> stored m sys num t = Some vals ->
  exists v c ep pre line orbits post,
    nav_class (hd [] lines) = Ok v /\ lines = pre ++ line :: orbits ++ post /\
    ~ starts_blank v line /\ Forall (starts_blank v) orbits /\
    epoch_says v c line sys num ep /\ t = dt_time ep /\ get_rinex_date filename = Some (dt_date ep) /\
    orbits_say v (orbit_counts sys) orbits vals.
Proof.
  intros H Hs. unfold nav_file in H. destruct (nav_class (hd [] lines)) as [v|] eqn:Ev; [|discriminate]. cbn [bind] in H.
  destruct (nav_read_kept v filename lines m sys num t vals H Hs) as [ft [ep [_ [Hc [Hd Ht]]]]].
  destruct Hc as [pre [line [orbits [post [vpo [El [Hb [Hp [Hr [HL [HF Ho]]]]]]]]]]].
  destruct (split_header is_end_label lines) as [h b] eqn:Esp. cbn [snd] in El.
  destruct (split_header_lines _ _ _ _ Esp) as [pre0 E0]. subst b.
  exists v, ft, ep, (pre0 ++ pre), line, orbits, post.
  pose proof (epoch_sound _ _ _ _ _ _ _ Hp Hr) as He. apply msg_reader_counts in Hr. subst vpo.
  repeat match goal with |- _ /\ _ => split end; try assumption; try reflexivity.
  - rewrite E0, <- app_assoc. reflexivity.
  - now apply black_start_spec.
  - eapply Forall_impl; [|exact HF]. intros a. apply blank_start_spec.
  - apply read_orbits_say; [exact Ho|exact HL|apply orbit_counts_4].
Qed.
Lemma orbits_say_count v ns lines vals : orbits_say v ns lines vals -> List.length vals = list_sum ns /\ List.length lines = List.length ns.
Proof. induction 1 as [|n ns line lines a b HL _ _ IH]; [auto|]. cbn. rewrite app_length. change (fold_right Nat.add 0 ns) with (list_sum ns). lia. Qed.

(** a message cut short *)
Lemma nav_loop_few v ft day os : forall o n rd m, List.length os < n -> Forall (blank_start v) os ->
  nav_loop v ft day os (mkNav o n (Some rd) m) = Ok (mkNav (o ++ os) (n - List.length os) (Some rd) m).
Proof.
  induction os as [|l os IH]; intros o n rd m Hn HF; cbn [List.length] in *.
  - rewrite app_nil_r, Nat.sub_0_r. reflexivity.
  - inversion HF as [|? ? Hl HF']; subst. cbn [nav_loop]. unfold nav_line. unfold blank_start in Hl. rewrite Hl.
    cbn [negb n_left n_orbits n_reader n_msg]. destruct n as [|[|n]]; try lia. cbn [bind]. rewrite IH; [|lia|exact HF'].
    rewrite <- app_assoc. reflexivity.
Qed.

(** a line of the header is not its end *)
Definition body_of (lines head body : list str) : Prop :=
  exists endl, lines = head ++ endl :: body /\ Forall (fun l => ~ has_label (lit "END OF HEADER") l) head /\ has_label (lit "END OF HEADER") endl.

Lemma nav_read_body v filename head endl body ft : Forall (fun l => ~ has_label (lit "END OF HEADER") l) head -> has_label (lit "END OF HEADER") endl ->
  nav_header v head = Ok ft ->
  nav_read v filename (head ++ endl :: body) = do nst <- nav_loop v ft (get_rinex_date filename) body (mkNav [] 0 None []); Ok (n_msg nst).
Proof. intros Hh He Hf. unfold nav_read. rewrite split_header_label by assumption. rewrite Hf. reflexivity. Qed.

Lemma cut_short_rejected v filename head endl body ft l0 os l1 os1 post sys0 num0 ep0 sys1 num1 ep1 m :
  Forall (fun l => ~ has_label (lit "END OF HEADER") l) head -> has_label (lit "END OF HEADER") endl ->
  nav_class (hd [] (head ++ [endl])) = Ok v -> nav_header v head = Ok ft ->
  ~ starts_blank v l0 -> Forall (starts_blank v) os -> parse_epoch_n v ft l0 = Ok (sys0, num0, ep0) ->
  0 < List.length os < List.length (orbit_counts sys0) ->
  ~ starts_blank v l1 -> Forall (starts_blank v) os1 -> parse_epoch_n v ft l1 = Ok (sys1, num1, ep1) ->
  List.length os1 = List.length (orbit_counts sys1) -> get_rinex_date filename = Some (dt_date ep1) ->
  nav_file filename (head ++ endl :: body ++ l0 :: os) = Ok m ->
  nav_file filename (head ++ endl :: body ++ l0 :: os ++ l1 :: os1 ++ post) = Err RinexError.
Proof.
  intros Hh He Hc Hf B0 BS0 P0 L0 B1 BS1 P1 L1 Hd H.
  assert (Hhd : forall x, hd [] (head ++ endl :: x) = hd [] (head ++ [endl])) by (intros x; destruct head; reflexivity).
  unfold nav_file in *. rewrite Hhd in *. rewrite Hc in *. cbn [bind] in *.
  rewrite (nav_read_body _ _ _ _ _ ft) in H by assumption. rewrite (nav_read_body _ _ _ _ _ ft) by assumption. rewrite Hd in *.
  rewrite nav_loop_app in *. destruct (nav_loop v ft (Some (dt_date ep1)) body _) as [st0|e] eqn:E0; [|discriminate]. cbn [bind] in *.
  apply black_start_spec in B0, B1. unfold black_start in B0, B1.
  assert (BS : Forall (blank_start v) os) by (eapply Forall_impl; [|exact BS0]; intros a; apply blank_start_spec).
  assert (BS' : Forall (blank_start v) os1) by (eapply Forall_impl; [|exact BS1]; intros a; apply blank_start_spec).
  cbn [nav_loop] in *. unfold nav_line in H at 1. unfold nav_line at 1. rewrite B0 in *. cbn [negb] in *. rewrite P0 in *. cbn [bind] in *.
  destruct (msg_reader v sys0) as [vpo|] eqn:Er; [|discriminate]. cbn [of_option bind] in *.
  apply msg_reader_counts in Er. subst vpo. rewrite nav_loop_app, nav_loop_few by (try exact BS; lia). cbn [bind nav_loop].
  unfold nav_line at 1. rewrite B1. cbn [negb]. rewrite P1. cbn [bind n_orbits n_msg].
  destruct (msg_reader v sys1) as [vpo|] eqn:Er1; [|reflexivity]. cbn [of_option bind].
  apply msg_reader_counts in Er1. subst vpo. rewrite <- L1, nav_loop_app, nav_loop_orbits.
  - unfold finish. rewrite (proj2 (date_eqb_eq _ _) eq_refl).
    destruct (read_orbits v _ (orbit_counts sys1)) as [vals|e] eqn:Ev.
    + exfalso. apply read_orbits_len in Ev. rewrite !app_length in Ev. lia.
    + cbn [bind]. apply read_orbits_err in Ev. now subst e.
  - destruct os1; [|discriminate]. unfold orbit_counts in L1. destruct (_ || _); discriminate.
  - exact BS'.
Qed.
