(** Navigation files: witnesses and examples. *)
From Coq Require Import Reals.
From Verif Require Import Base PyStr PyFloat PyDate PyPath M_Common M_Header M_Names M_Nav S_Text S_Time S_Obs2 S_Names S_Nav P_Str P_Obs2c P_Names6 P_Nav P_Nav2 P_Nav3 P_Nav4 P_Nav5.
Open Scope nat_scope.

Definition ver_line2 : str := lit "     2.10           GLONASS NAV DATA                        RINEX VERSION / TYPE".
Definition end_line2 : str := lit "                                                            END OF HEADER".
Definition ep_a : str := lit " 1 17  1  1  0 15  0.0                0.0                0.0                0.0".
Definition ep_b : str := lit " 2 17  1  1  0 15  0.0                0.0                0.0                0.0".
Definition ep_c : str := lit " 2 17  1  2  0 15  0.0                0.0                0.0                0.0".
Definition blank3 : str := lit "   ".
Definition wname : str := lit "brdc0010.17g".
Definition file_none : list str := [ver_line2; end_line2; ep_a; ep_b; blank3; blank3; blank3].
Definition file_other : list str := [ver_line2; end_line2; ep_a; blank3; ep_c; blank3; blank3; blank3].

Lemma blank3_starts : starts_blank V21 blank3.
Proof. unfold starts_blank. cbn. split; [discriminate|now apply white_lit]. Qed.
Lemma not_starts c r : is_space c = false \/ (exists d r', r = d :: r' /\ is_space d = false) -> ~ starts_blank V21 (c :: r).
Proof.
  unfold starts_blank. cbn [ver_lt3 firstn]. intros H [_ Hw]. inversion Hw as [|? ? Hc Hw']; subst. destruct H as [H|[d [r' [-> H]]]]; [congruence|].
  cbn [firstn] in Hw'. inversion Hw' as [|? ? Hd _]; subst. congruence.
Qed.
Ltac says := eapply epoch_sound with (vpo := [4; 4; 4]); vm_compute; reflexivity.

Lemma wday : get_rinex_date wname = Some ((2017, 1, 1)%Z).
Proof. vm_compute. reflexivity. Qed.
Lemma cut_none : exists m, nav_class (hd [] file_none) = Ok V21 /\ cut_short V21 (get_rinex_date wname) file_none 0 /\ nav_file wname file_none = Ok m.
Proof.
  eexists. split; [vm_compute; reflexivity|]. split.
  - exists (Some "G"%char), [ver_line2; end_line2], ep_a, [], ep_b, [blank3; blank3; blank3], "R"%char, 1%Z, (mkDT 2017 1 1 0 15 0 0).
    split; [reflexivity|]. split; [apply not_starts; right; do 2 eexists; split; reflexivity|]. split; [says|]. split; [exact wday|].
    split; [constructor|]. split; [apply not_starts; right; do 2 eexists; split; reflexivity|]. split; [reflexivity|cbn; lia].
  - vm_compute. reflexivity.
Qed.
Lemma cut_other : exists m, nav_class (hd [] file_other) = Ok V21 /\ cut_short V21 (get_rinex_date wname) file_other 1 /\ nav_file wname file_other = Ok m.
Proof.
  eexists. split; [vm_compute; reflexivity|]. split.
  - exists (Some "G"%char), [ver_line2; end_line2], ep_a, [blank3], ep_c, [blank3; blank3; blank3], "R"%char, 1%Z, (mkDT 2017 1 1 0 15 0 0).
    split; [reflexivity|]. split; [apply not_starts; right; do 2 eexists; split; reflexivity|]. split; [says|]. split; [exact wday|].
    split; [repeat constructor; apply blank3_starts|]. split; [apply not_starts; right; do 2 eexists; split; reflexivity|]. split; [reflexivity|cbn; lia].
  - vm_compute. reflexivity.
Qed.

(** a file that states something *)
Definition orb1 : str := lit "    0.123456789012D+05  ".
Definition ex_msg : nmessage := mkNM "R"%char 1 (mkDT 2017 1 1 0 15 0 0)
  [[NNum false 123456789012 (-7); NBlank; NBlank; NBlank]; [NBlank; NBlank; NBlank; NBlank]; [NBlank; NBlank; NBlank; NBlank]].
Definition file_ok : list str := [ver_line2; end_line2; lit " 1 17  1  1  0 15  0.0-0.400000000000D-04 0.000000000000D+00               0.E0"; orb1; blank3; blank3].
Lemma field_blank n : n = 19 -> nfield_text (spaces n) NBlank.
Proof. intros ->. constructor; [reflexivity|]. apply Forall_forall. intros x Hx. now apply repeat_spec in Hx. Qed.
Lemma blank_line v : ver_lt3 v = true -> orbit_line v 4 [NBlank; NBlank; NBlank; NBlank] blank3.
Proof.
  intros Hv. exists [spaces 19; spaces 19; spaces 19; spaces 19], []. split; [reflexivity|]. split; [repeat constructor; now apply field_blank|].
  split; [discriminate|]. rewrite Hv. exists blank3, (spaces 76), []. split; [reflexivity|]. split; [reflexivity|]. split; [now apply white_lit|constructor].
Qed.
Lemma int_lit w s b ds n : s = b ++ ds -> List.length s = w -> forallb (fun c => Ascii.eqb c " ") b = true -> forallb is_digit ds = true -> ds <> [] -> n = dec_value ds -> int_field w s n.
Proof.
  intros -> HL Hb Hd Hn ->. split; [exact HL|]. exists b, ds. split; [reflexivity|]. split; [|split; [now apply digits_lit|auto]].
  apply Forall_forall. intros c Hc. apply (proj1 (forallb_forall _ _) Hb) in Hc. now apply Ascii.eqb_eq.
Qed.
Lemma blanks_lit b : forallb (fun c => Ascii.eqb c " ") b = true -> blanks b.
Proof. intros Hb. apply Forall_forall. intros c Hc. apply (proj1 (forallb_forall _ _) Hb) in Hc. now apply Ascii.eqb_eq. Qed.

Lemma num_lit s b ip fp es ed (neg : bool) c (eneg : bool) m e :
  s = b ++ (if neg then ["-"%char] else []) ++ ip ++ "."%char :: fp ++ c :: es ++ ed -> List.length s = 19 ->
  forallb (fun c => Ascii.eqb c " ") b = true -> forallb is_digit ip = true -> forallb is_digit fp = true -> ip ++ fp <> [] -> In c (lit "DdEe") ->
  sign_text es eneg -> forallb is_digit ed = true -> 1 <= List.length ed <= 2 ->
  m = dec_value (ip ++ fp) -> e = ((if eneg then - dec_value ed else dec_value ed) - Z.of_nat (List.length fp))%Z -> nfield_text s (NNum neg m e).
Proof.
  intros -> HL Hb Hi Hf Hne Hc Hs He Hel -> ->. apply nt_num; try assumption; try (now apply digits_lit). now apply blanks_lit.
Qed.
Lemma epoch_in_range_ex : epoch_in_range 17 1 1 0 15 0 0.
Proof. unfold epoch_in_range, valid_date. cbn. lia. Qed.

Lemma C17_ex : nav_file_text V21 [ex_msg] file_ok /\ get_rinex_date wname = Some ((2017, 1, 1)%Z) /\
  last_message ((2017, 1, 1)%Z) "R" 1 (0, 15, 0, 0)%Z [ex_msg] = Some ex_msg.
Proof.
  split; [|split; [exact wday|reflexivity]].
  exists "G"%char, (lit "     "), (lit "2.10"), [], (spaces 11), (lit "LONASS NAV DATA                        "), [], 2100000%Z, [], end_line2,
    [[lit " 1 17  1  1  0 15  0.0-0.400000000000D-04 0.000000000000D+00               0.E0"; orb1; blank3; blank3]].
  split; [exists (lit "2"), (lit "10"); lits; try discriminate; try (now right)|]. split; [reflexivity|]. split; [now apply white_lit|].
  split; [constructor|]. split; [constructor|]. split; [reflexivity|]. split; [reflexivity|]. split; [reflexivity|]. split; [reflexivity|].
  split; [constructor|]. split; [apply label_has; [discriminate|reflexivity]|].
  constructor; [|constructor]. split; [cbn; auto|].
  exists (lit " 1 17  1  1  0 15  0.0-0.400000000000D-04 0.000000000000D+00               0.E0"), [orb1; blank3; blank3].
  split; [reflexivity|]. split.
  - cbn [ver_lt3]. split; [reflexivity|].
    change (lit " 1 17  1  1  0 15  0.0-0.400000000000D-04 0.000000000000D+00               0.E0") with
      (lit " 1" ++ lit " 17" ++ lit "  1" ++ lit "  1" ++ lit "  0" ++ lit " 15" ++ lit "  0.0" ++
       (lit "-0.400000000000D-04" ++ lit " 0.000000000000D+00" ++ lit "               0.E0") ++ []) || idtac.
    eapply (ne2 (lit " 1") (lit " 17") (lit "  1") (lit "  1") (lit "  0") (lit " 15") (lit "  0.0") (lit "-0.400000000000D-04 0.000000000000D+00               0.E0") [] 1 17 1 1 0 15 0).
    + apply (int_lit _ _ (lit " ") (lit "1")); try reflexivity; discriminate.
    + apply (int_lit _ _ (lit " ") (lit "17")); try reflexivity; discriminate.
    + apply (int_lit _ _ (lit "  ") (lit "1")); try reflexivity; discriminate.
    + apply (int_lit _ _ (lit "  ") (lit "1")); try reflexivity; discriminate.
    + apply (int_lit _ _ (lit "  ") (lit "0")); try reflexivity; discriminate.
    + apply (int_lit _ _ (lit " ") (lit "15")); try reflexivity; discriminate.
    + split; [reflexivity|]. exists (lit "  "), (lit "0"), (lit "0"). split; [reflexivity|]. split; [now apply blanks_lit|]. split; [now apply digits_lit|]. split; [now apply digits_lit|].
      split; [reflexivity|]. split; [discriminate|reflexivity].
    + exists (lit "-0.400000000000D-04"), (lit " 0.000000000000D+00"), (lit "               0.E0").
      do 9 eexists. split; [reflexivity|]. split; [|split].
      * apply (num_lit _ [] (lit "0") (lit "400000000000") (lit "-") (lit "04") true "D"%char true); try reflexivity; try discriminate; [cbn; auto|right; right; auto|cbn; lia].
      * apply (num_lit _ (lit " ") (lit "0") (lit "000000000000") (lit "+") (lit "00") false "D"%char false); try reflexivity; try discriminate; [cbn; auto|right; left; auto|cbn; lia].
      * apply (num_lit _ (lit "               ") (lit "0") [] [] (lit "0") false "E"%char false); try reflexivity; try discriminate; [cbn; auto|left; auto|cbn; lia].
    + lia.
    + exact epoch_in_range_ex.
    + repeat split; vm_compute; discriminate.
    + vm_compute. reflexivity.
  - exists [(4, [NNum false 123456789012 (-7); NBlank; NBlank; NBlank]); (4, [NBlank; NBlank; NBlank; NBlank]); (4, [NBlank; NBlank; NBlank; NBlank])].
    split; [|split; reflexivity]. constructor; [|constructor; [|constructor; [|constructor]]].
    + exists [lit " 0.123456789012D+05"; spaces 19; spaces 19; spaces 19], []. cbn [fst snd]. split; [reflexivity|]. split.
      * constructor; [|repeat constructor; now apply field_blank].
        apply (num_lit _ (lit " ") (lit "0") (lit "123456789012") (lit "+") (lit "05") false "D"%char false); try reflexivity; try discriminate; [cbn; auto|right; left; auto|cbn; lia].
      * split; [discriminate|]. exists (lit "    0.123456789012D+05"), (spaces 57), (lit "  "). split; [reflexivity|]. split; [reflexivity|]. split; now apply white_lit.
    + now apply blank_line.
    + now apply blank_line.
Qed.

(** one orbit line, then the next message of the day *)
Lemma C20_ex : nav_file wname [ver_line2; end_line2; ep_a; blank3; ep_b; blank3; blank3; blank3] = Err RinexError.
Proof.
  destruct (nav_file wname ([ver_line2] ++ end_line2 :: [] ++ ep_a :: [blank3])) as [m|e] eqn:E; [|vm_compute in E; discriminate].
  eapply (cut_short_rejected V21 wname [ver_line2] end_line2 [] (Some "G"%char) ep_a [blank3] ep_b [blank3; blank3; blank3] [] "R" 1 (mkDT 2017 1 1 0 15 0 0) "R" 2 (mkDT 2017 1 1 0 15 0 0) m);
    try exact E; try (vm_compute; reflexivity); try (repeat constructor; apply blank3_starts); try (apply not_starts; right; do 2 eexists; split; reflexivity).
  all: idtac.
  all: try (apply label_has; [discriminate|reflexivity]).
  all: try (cbn; lia).
  constructor; [|constructor]. intros H. apply has_label_label in H; [|reflexivity]. discriminate H.
Qed.
Lemma minute60 : exists t, py_int (lit " 60") = Ok 60%Z /\ validate_epoch6 2017 1 1 0 60 0 = Ok t /\ instant t <> epoch_value 2017 1 1 0 60 0 0.
Proof. eexists. split; [vm_compute; reflexivity|]. split; [vm_compute; reflexivity|]. vm_compute. discriminate. Qed.
Lemma date_kept filename lines m sys num t vals : nav_file filename lines = Ok m -> stored m sys num t = Some vals ->
  exists v c pre line post ep, nav_class (hd [] lines) = Ok v /\ lines = pre ++ line :: post /\ epoch_says v c line sys num ep /\
    get_rinex_date filename = Some (dt_date ep) /\ t = dt_time ep.
Proof.
  intros H Hs. destruct (nav_file_kept _ _ _ _ _ _ _ H Hs) as [v [c [ep [pre [line [orbits [post [H1 [H2 [_ [_ [H3 [H4 [H5 _]]]]]]]]]]]]]].
  exists v, c, pre, line, (orbits ++ post), ep. auto.
Qed.
Lemma kept_count filename lines m sys num t vals : nav_file filename lines = Ok m -> stored m sys num t = Some vals ->
  List.length vals = if Ascii.eqb sys "R" || Ascii.eqb sys "S" then 12 else 26.
Proof.
  intros H Hs. destruct (nav_file_kept _ _ _ _ _ _ _ H Hs) as [v [c [ep [pre [line [orbits [post [_ [_ [_ [_ [_ [_ [_ Ho]]]]]]]]]]]]]].
  apply orbits_say_count in Ho. destruct Ho as [-> _]. unfold orbit_counts. destruct (_ || _); reflexivity.
Qed.
Lemma kept_lines filename lines m sys num t vals : nav_file filename lines = Ok m -> stored m sys num t = Some vals ->
  exists v c ep pre line orbits post,
    nav_class (hd [] lines) = Ok v /\ lines = pre ++ line :: orbits ++ post /\
    ~ starts_blank v line /\ epoch_says v c line sys num ep /\ t = dt_time ep /\
    Forall (starts_blank v) orbits /\ orbits_say v (orbit_counts sys) orbits vals.
Proof.
  intros H Hs. destruct (nav_file_kept _ _ _ _ _ _ _ H Hs) as [v [c [ep [pre [line [orbits [post [H1 [H2 [H3 [H4 [H5 [H6 [H7 H8]]]]]]]]]]]]]].
  exists v, c, ep, pre, line, orbits, post. auto 10.
Qed.
(** a file that keeps something *)
Lemma kept_ex : exists m vals, nav_file wname file_ok = Ok m /\ stored m "R"%char 1 (0, 15, 0, 0)%Z = Some vals /\ vals <> [].
Proof.
  destruct C17_ex as [H [Hd Hl]]. destruct (nav_round_trip _ _ _ _ _ H Hd) as [m [E [HA _]]]. specialize (HA "R"%char 1%Z (0, 15, 0, 0)%Z).
  rewrite Hl in HA. destruct HA as [vals [Hs Hn]]. exists m, vals. split; [exact E|]. split; [exact Hs|]. intros ->. inversion Hn.
Qed.
