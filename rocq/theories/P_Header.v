(** Proofs about the header values (S_Header.v). *)
From Verif Require Import Base PyStr PyFloat PyDate M_Common M_Header S_Text P_Str P_Float P_Sec S_Time P_Date P_Common S_Obs2 P_Obs2 P_Obs2b P_Obs2c P_Obs3b P_Obs3d M_Obs2 S_Open2 P_Open2 P_Open2b S_Obs3 M_Obs3 E_Obs2 E_Obs3 P_Nav5 E_Nav P_Names6 W_Obs2 S_Header.
Open Scope nat_scope.

Lemma fix_field_blank w k s neg m b : fix_field w k s neg m -> white b -> py_float (s ++ b) = py_float s.
Proof.
  intros H Hb. unfold py_float, py_float_opt. rewrite (float_lit_fix _ _ _ _ _ H).
  destruct H as [Hl [b1 [ip [fp [-> [Hb1 [Hi [Hf [Hk [Hn ->]]]]]]]]]].
  change (if neg then ["-"%char] else []) with (sign_str neg).
  replace ((b1 ++ sign_str neg ++ ip ++ ["."%char] ++ fp) ++ b) with (b1 ++ (sign_str neg ++ ip ++ ["."%char] ++ fp ++ []) ++ b).
  2: { rewrite app_nil_r, <- !app_assoc. cbn. rewrite <- ?app_assoc. reflexivity. }
  rewrite (float_lit_dec b1 neg ip fp [] b 0); try assumption; try constructor.
  - rewrite Hk. reflexivity.
  - now apply blanks_white.
  - congruence.
  - congruence.
Qed.

Lemma find_label line i items : line_label line = hlabel_text i ->
  find (fun j => seqb (hlabel_text j) (line_label line)) items = if existsb (hlabel_eqb i) items then Some i else None.
Proof.
  intros H. induction items as [|j items IH]; cbn [find existsb]; [reflexivity|]. rewrite H.
  destruct (hlabel_eqb i j) eqn:E.
  - assert (i = j) by (destruct i, j; cbn in E; congruence). subst j. now rewrite (proj2 (seqb_eq _ _) eq_refl).
  - replace (seqb (hlabel_text j) (hlabel_text i)) with false; [cbn [orb]; rewrite <- H; exact IH|].
    destruct i, j; cbn in E; try discriminate; vm_compute; reflexivity.
Qed.
Lemma find_other line items : (forall lab, In lab known_labels -> ~ has_label lab line) ->
  find (fun i => seqb (hlabel_text i) (line_label line)) items = None.
Proof.
  intros H. induction items as [|i items IH]; cbn [find]; [reflexivity|].
  destruct (seqb (hlabel_text i) (line_label line)) eqn:E; [|exact IH].
  apply seqb_eq in E. exfalso. apply (H (hlabel_text i)).
  - destruct i; cbn; tauto.
  - apply label_has; [destruct i; discriminate|congruence].
Qed.

(** which label an item belongs to *)
Definition item_label (i : hitem) : option hlabel :=
  match i with IVersion _ _ _ _ => Some HVer | ITime _ _ => Some HTofo | IPosition _ => Some HXyz | IInterval _ => Some HInterval | IOther => None end.

(** what the value set from one line is *)
Definition ver_says (v : ver) (x : Z * nat * ascii * ascii) (y : float * ascii * ascii) : Prop :=
  let '(m, k, ft, sys) := x in let '(f, ft', sys') := y in
  nearest64 f (dec_real false m k) /\ ft' = ft /\
  sys' = if match v with V20 | V21 | V211 => Ascii.eqb sys " " | _ => false end then "G"%char else sys.
Definition time_says (x y : datetime * str) : Prop := y = (fst x, if seqb (snd x) (lit "   ") then lit "GPS" else snd x).
Definition interval_says (v : ver) (ms : Z) (y : pynum) : Prop :=
  match y with PFloat f => v <> V20 /\ nearest64 f (dec_real false ms 3) | PInt n => v = V20 /\ ms = (n * 1000)%Z end.

Lemma label_at (cols lab w line : str) : line = cols ++ lab ++ w -> length cols = 60 -> white w -> rstrip lab = lab -> line_label line = lab.
Proof. intros -> Hl Hw Hr. apply has_label_label; [exact Hr|]. exists cols, w. split; [exact Hl|]. split; [reflexivity|exact Hw]. Qed.

Lemma char_at_app n (a b : str) c : length a = n -> char_at n (a ++ [c] ++ b) = Ok c.
Proof.
  intros <-. unfold char_at. rewrite nth_error_app2 by lia. rewrite Nat.sub_diag. reflexivity.
Qed.

Lemma set_ver_line v w1 ip fp w2 a ft c sys c2 w :
  blanks w1 -> digits ip -> digits fp -> ip ++ fp <> [] -> blanks w2 ->
  length (w1 ++ ip ++ "."%char :: fp ++ w2) = 9 -> length a = 11 -> length c = 19 ->
  exists y, set_ver v ((w1 ++ ip ++ "."%char :: fp ++ w2) ++ a ++ [ft] ++ c ++ [sys] ++ c2 ++ lit "RINEX VERSION / TYPE" ++ w) = Ok y /\
    ver_says v (dec_value (ip ++ fp), length fp, ft, sys) y.
Proof.
  intros Hw1 Hi Hf Hn Hw2 Hl Ha Hc. unfold set_ver.
  set (num := w1 ++ ip ++ "."%char :: fp ++ w2) in *. set (tail := c2 ++ lit "RINEX VERSION / TYPE" ++ w).
  assert (S : slice 0 9 (num ++ a ++ [ft] ++ c ++ [sys] ++ tail) = num).
  { apply (slice_piece 0 9 [] num); [reflexivity|lia]. }
  rewrite S.
  assert (C1 : char_at 20 (num ++ a ++ [ft] ++ c ++ [sys] ++ tail) = Ok ft).
  { rewrite (app_assoc num a). apply char_at_app. rewrite app_length. lia. }
  assert (C2 : char_at 40 (num ++ a ++ [ft] ++ c ++ [sys] ++ tail) = Ok sys).
  { replace (num ++ a ++ [ft] ++ c ++ [sys] ++ tail) with ((num ++ a ++ [ft] ++ c) ++ [sys] ++ tail) by (rewrite <- !app_assoc; reflexivity).
    apply char_at_app. rewrite !app_length. cbn [length]. lia. }
  rewrite C1, C2.
  assert (F : py_float num = Ok (b64_of_dec false (dec_value (ip ++ fp)) (- Z.of_nat (length fp)))).
  { unfold py_float, py_float_opt.
    replace num with (w1 ++ (sign_str false ++ ip ++ ["."%char] ++ fp ++ []) ++ w2).
    2: { unfold num. cbn. rewrite app_nil_r, <- !app_assoc. cbn. rewrite <- ?app_assoc. reflexivity. }
    rewrite (float_lit_dec w1 false ip fp [] w2 0); try assumption; try constructor; try (now apply blanks_white); try congruence. }
  rewrite F. cbn [bind]. eexists. split; [reflexivity|]. cbn [ver_says]. split; [|split; [reflexivity|]].
  - apply b64_of_dec_nearest. assert (Hd : digits (ip ++ fp)) by now apply digits_app.
    pose proof (dec_value_nonneg _ Hd). pose proof (dec_value_bound _ Hd).
    assert (length (ip ++ fp) <= 9). { unfold num in Hl. rewrite !app_length in *. cbn [length] in Hl. rewrite app_length in Hl. lia. }
    assert (10 ^ Z.of_nat (length (ip ++ fp)) <= 10 ^ 9)%Z by (apply Z.pow_le_mono_r; lia).
    split; [lia|]. apply Z.le_trans with (10 ^ 9)%Z; [lia|]. vm_compute. discriminate.
  - destruct v; cbn [ver_lt3]; unfold ceqb; reflexivity.
Qed.

Lemma set_tofo_line v (ty tmo td th tmi tsec gap ts c w : str) y mo d h mi k7 ep :
  int_field 6 ty y -> int_field 6 tmo mo -> int_field 6 td d -> int_field 6 th h -> int_field 6 tmi mi ->
  fix_field 13 7 tsec false k7 -> length gap = 5 -> blanks gap -> length ts = 3 -> length c = 9 -> white w ->
  epoch_in_range y mo d h mi (k7 / 10000000) (k7 mod 10000000 / 10) ->
  valid_datetime ep -> instant ep = epoch_value y mo d h mi (k7 / 10000000) (k7 mod 10000000 / 10) ->
  exists r, set_tofo v (ty ++ tmo ++ td ++ th ++ tmi ++ tsec ++ gap ++ ts ++ c ++ lit "TIME OF FIRST OBS" ++ w) = Ok r /\ time_says (ep, ts) r.
Proof.
  intros Hy Hmo Hd Hh Hmi Hsec Hg Hgb Hts Hc Hw Hr Hep Hi.
  destruct gap as [|g gap]; [discriminate|]. cbn [length] in Hg.
  set (rest := c ++ lit "TIME OF FIRST OBS" ++ w).
  set (ps := [ty; tmo; td; th; tmi; tsec; [g]; gap; ts]).
  assert (E : ty ++ tmo ++ td ++ th ++ tmi ++ tsec ++ (g :: gap) ++ ts ++ rest = concat ps ++ rest).
  { unfold ps. cbn [concat]. rewrite app_nil_r, <- !app_assoc. reflexivity. }
  rewrite E.
  assert (S : forall q, In q (pieces ps 0) -> slice (fst (fst q)) (snd (fst q)) (concat ps ++ rest) = snd q).
  { intros q Hq. apply (slice_pieces ps 0 [] _ q); [reflexivity|exact Hq]. }
  assert (S' : slice 30 44 (concat ps ++ rest) = tsec ++ [g]).
  { set (ps' := [ty; tmo; td; th; tmi; tsec ++ [g]]). 
    replace (concat ps ++ rest) with (concat ps' ++ gap ++ ts ++ rest).
    2: { unfold ps, ps'. cbn [concat]. rewrite !app_nil_r, <- !app_assoc. reflexivity. }
    apply (slice_pieces ps' 0 [] (gap ++ ts ++ rest) (30, 44, tsec ++ [g])); [reflexivity|].
    unfold ps'. cbn [pieces]. rewrite app_length.
    destruct Hy as [-> _], Hmo as [-> _], Hd as [-> _], Hh as [-> _], Hmi as [-> _], Hsec as [-> _]. cbn. tauto. }
  assert (Hpc : pieces ps 0 = [(0, 6, ty); (6, 12, tmo); (12, 18, td); (18, 24, th); (24, 30, tmi); (30, 43, tsec); (43, 44, [g]); (44, 48, gap); (48, 51, ts)]).
  { unfold ps. cbn [pieces]. replace (length gap) with 4 by lia. rewrite Hts.
    destruct Hy as [-> _], Hmo as [-> _], Hd as [-> _], Hh as [-> _], Hmi as [-> _], Hsec as [-> _]. reflexivity. }
  rewrite Hpc in S.
  pose proof (S (0, 6, ty) ltac:(cbn; tauto)) as S0. pose proof (S (6, 12, tmo) ltac:(cbn; tauto)) as S1.
  pose proof (S (12, 18, td) ltac:(cbn; tauto)) as S2. pose proof (S (18, 24, th) ltac:(cbn; tauto)) as S3.
  pose proof (S (24, 30, tmi) ltac:(cbn; tauto)) as S4. pose proof (S (30, 43, tsec) ltac:(cbn; tauto)) as S5.
  pose proof (S (48, 51, ts) ltac:(cbn; tauto)) as S6.
  cbn [fst snd] in S0, S1, S2, S3, S4, S5, S6. clear S Hpc.
  unfold set_tofo. cbn [mapM Nat.add]. rewrite S0, S1, S2, S3, S4, S5, S', S6.
  rewrite (py_int_field _ _ _ Hy), (py_int_field _ _ _ Hmo), (py_int_field _ _ _ Hd), (py_int_field _ _ _ Hh), (py_int_field _ _ _ Hmi).
  cbn [bind].
  assert (Hk7 : (0 <= k7 < 1270000000)%Z).
  { pose proof (fix_field_bound _ _ _ _ _ Hsec). destruct Hr as [_ [_ [_ [Hs _]]]].
    split; [lia|]. assert (k7 / 10000000 * 10000000 <= 120 * 10000000)%Z by lia.
    pose proof (Z.div_mod k7 10000000 ltac:(lia)). pose proof (Z.mod_pos_bound k7 10000000 ltac:(lia)). lia. }
  destruct (py_float_fix _ _ _ _ _ Hsec ltac:(lia)) as [f [Hf [Ef _]]].
  assert (F : py_float (if ver_is20 v then tsec else tsec ++ [g]) = Ok f).
  { destruct (ver_is20 v); [exact Hf|]. rewrite (fix_field_blank _ _ _ _ _ [g] Hsec); [exact Hf|].
    apply blanks_white. inversion Hgb. constructor; [assumption|constructor]. }
  rewrite F. cbn [bind]. unfold sec2sec_ms. rewrite Ef. change (- Z.of_nat 7)%Z with (-7)%Z.
  rewrite split_sec_exact by lia. cbn [bind].
  destruct (validate_epoch_ok y mo d h mi (k7 / 10000000) (k7 mod 10000000 / 10) Hr) as [t [Ht [Hv Hit]]].
  { rewrite <- Hi. pose proof Hep as Hep'. apply valid_datetime_iff in Hep'. rewrite instant_eq by exact Hep.
    apply dt_us_bounds in Hep'. unfold max_ordinal, us_per_day in Hep'. unfold end_of_time. lia. }
  rewrite Ht. cbn [bind]. assert (t = ep) by (apply instant_inj; [exact Hv|exact Hep|congruence]). subst t.
  eexists. split; [reflexivity|]. reflexivity.
Qed.

Lemma set_interval_line v line ms : header_line v line (IInterval ms) -> exists y, set_interval v line = Ok y /\ interval_says v ms y.
Proof.
  intros H. inversion H as [| | |ti c w n Ev Hf Hc Hw E1 E2|ti c w m Ev Hf Hc Hw E1 E2|]; subst.
  - unfold set_interval. cbn [ver_is20]. assert (S : slice 0 6 (ti ++ c ++ lit "INTERVAL" ++ w) = ti) by (apply (slice_piece 0 6 [] ti); [reflexivity|destruct Hf; cbn; lia]). rewrite S.
    rewrite (py_int_field _ _ _ Hf). cbn [bind]. eexists. split; [reflexivity|]. split; reflexivity.
  - unfold set_interval. replace (ver_is20 v) with false by (destruct v; try reflexivity; congruence).
    assert (S : slice 0 10 (ti ++ c ++ lit "INTERVAL" ++ w) = ti) by (apply (slice_piece 0 10 [] ti); [reflexivity|destruct Hf; cbn; lia]). rewrite S.
    destruct (py_float_fix _ _ _ _ _ Hf ltac:(lia)) as [f [F [_ N]]]. rewrite F. cbn [bind].
    eexists. split; [reflexivity|]. split; [exact Ev|exact N].
Qed.

Lemma header_line_label v line i : header_line v line i ->
  match item_label i with
  | Some l => line_label line = hlabel_text l
  | None => forall lab, In lab known_labels -> ~ has_label lab line
  end.
Proof.
  intros H. inversion H as [w1 ip fp w2 a c ft sys w H1 H2 H3 H4 H5 H6 H7 H8 H9 c2 H10|ty tmo td th tmi tsec gap ts c w y mo d h mi k7 ep Hy Hmo Hd Hh Hmi Hsec Hg Hgb Hts Hc Hw Hr Hep Hi|l d Hl|ti c w n Ev Hf Hc Hw|ti c w n Ev Hf Hc Hw|l Hl]; subst; cbn [item_label hlabel_text].
  - apply (label_at ((w1 ++ ip ++ "."%char :: fp ++ w2) ++ a ++ [ft] ++ c ++ [sys] ++ c2) _ w); [rewrite <- !app_assoc; cbn; rewrite <- !app_assoc; reflexivity| |exact H9|reflexivity].
    set (num := w1 ++ ip ++ "."%char :: fp ++ w2) in *. rewrite !app_length. cbn [length]. lia.
  - apply (label_at (ty ++ tmo ++ td ++ th ++ tmi ++ tsec ++ gap ++ ts ++ c) _ w); [rewrite <- !app_assoc; reflexivity| |exact Hw|reflexivity].
    rewrite !app_length. destruct Hy, Hmo, Hd, Hh, Hmi, Hsec. lia.
  - inversion Hl as [tx ty tz nx mx ny my nz mz mid w Hx Hy Hz Hm Hw E1 E2|]; subst.
    apply (label_at (tx ++ ty ++ tz ++ mid) _ w); [rewrite <- !app_assoc; reflexivity| |exact Hw|reflexivity].
    rewrite !app_length. destruct Hx, Hy, Hz. lia.
  - apply (label_at (ti ++ c) _ w); [rewrite <- !app_assoc; reflexivity| |exact Hw|reflexivity]. rewrite !app_length. destruct Hf. lia.
  - apply (label_at (ti ++ c) _ w); [rewrite <- !app_assoc; reflexivity| |exact Hw|reflexivity]. rewrite !app_length. destruct Hf. lia.
  - exact Hl.
Qed.

(** state of the loop: for each label, still waited for with the value h, or already set *)
Definition slot {A B} (P : A -> B -> Prop) (waiting : bool) (x : option A) (before after : B) : Prop :=
  if waiting then match x with Some a => P a after | None => after = before end else after = before.
Definition oslot {A B} (P : A -> B -> Prop) : A -> option B -> Prop := fun a o => match o with Some b => P a b | None => False end.

Definition loop_says (v : ver) (wait : list hlabel) (items : list hitem) (h h' : hdr) : Prop :=
  slot (oslot (ver_says v)) (existsb (hlabel_eqb HVer) wait) (first_of version_of items) (h_ver h) (h_ver h') /\
  slot (oslot time_says) (existsb (hlabel_eqb HTofo) wait) (first_of time_of items) (h_tofo h) (h_tofo h') /\
  slot (fun d p => near_position p d) (existsb (hlabel_eqb HXyz) wait) (first_of position_of items) (h_xyz h) (h_xyz h') /\
  slot (oslot (interval_says v)) (existsb (hlabel_eqb HInterval) wait) (first_of interval_of items) (h_interval h) (h_interval h').

Lemma existsb_filter i j wait : existsb (hlabel_eqb i) (filter (fun k => negb (hlabel_eqb j k)) wait) =
  if hlabel_eqb i j then false else existsb (hlabel_eqb i) wait.
Proof.
  induction wait as [|k wait IH]; cbn [filter existsb]; [now destruct (hlabel_eqb i j)|].
  destruct (hlabel_eqb j k) eqn:E; cbn [negb].
  - rewrite IH. destruct i, j, k; cbn in *; try discriminate; reflexivity.
  - cbn [existsb]. rewrite IH. destruct i, j, k; cbn in *; try discriminate; reflexivity.
Qed.

Lemma parse_loop v : forall lines items, Forall2 (header_line v) lines items -> forall wait h,
  exists h', parse_header_loop v wait lines h = Ok h' /\ loop_says v wait items h h'.
Proof.
  induction 1 as [|line i lines items Hl Hls IH]; intros wait h.
  - exists h. split; [reflexivity|]. unfold loop_says, slot. cbn [first_of].
    repeat split; match goal with |- context [if ?b then _ else _] => destruct b; reflexivity end.
  - pose proof (header_line_label _ _ _ Hl) as Hlab. cbn [parse_header_loop].
    destruct (item_label i) as [l|] eqn:Ei.
    + rewrite (find_label _ _ _ Hlab). destruct (existsb (hlabel_eqb l) wait) eqn:Ew.
      * assert (exists h1, set_item v l line h = Ok h1 /\ loop_says v [l] [i] h h1) as [h1 [S1 S2]].
        { destruct i as [m k ft sys|ep ts|d|ms|]; cbn [item_label] in Ei; [| | | |discriminate]; injection Ei as <-; cbn [set_item].
          - inversion Hl; subst. match goal with |- context [set_ver v ?x] => assert (exists y, set_ver v x = Ok y /\ ver_says v (dec_value (ip ++ fp), length fp, ft, sys) y) as [y [Y1 Y2]] by (apply set_ver_line; assumption) end.
            rewrite Y1. cbn [bind]. eexists. split; [reflexivity|]. unfold loop_says, slot; cbn. repeat split; exact Y2.
          - inversion Hl; subst. match goal with |- context [set_tofo v ?x] => assert (exists y, set_tofo v x = Ok y /\ time_says (ep, ts) y) as [r [Y1 Y2]] by (eapply set_tofo_line; eassumption) end.
            rewrite Y1. cbn [bind]. eexists. split; [reflexivity|]. unfold loop_says, slot; cbn. repeat split; exact Y2.
          - inversion Hl; subst. match goal with H : event_line _ _ |- _ => destruct (set_xyz_line _ _ H) as [p [Y2 Y1]] end. 
            rewrite Y1. cbn [bind]. eexists. split; [reflexivity|]. unfold loop_says, slot. cbn -[near_position]. repeat split; exact Y2.
          - destruct (set_interval_line _ _ _ Hl) as [y [Y1 Y2]].
            rewrite Y1. cbn [bind]. eexists. split; [reflexivity|]. unfold loop_says, slot; cbn. repeat split; exact Y2. }
        rewrite S1. cbn [bind]. destruct (IH (filter (fun j => negb (hlabel_eqb l j)) wait) h1) as [h' [P1 P2]].
        exists h'. split; [exact P1|]. clear -S2 P2 Ei Ew.
        unfold loop_says in *. rewrite !existsb_filter in P2.
        destruct S2 as [A1 [A2 [A3 A4]]], P2 as [B1 [B2 [B3 B4]]]. unfold slot in *.
        destruct i as [m k ft sys|ep ts|d|ms|]; cbn [item_label] in Ei; [| | | |discriminate]; injection Ei as <-;
          cbn [hlabel_eqb existsb orb first_of version_of time_of position_of interval_of] in *; rewrite Ew;
          rewrite ?A1, ?A2, ?A3, ?A4 in *; repeat split; try assumption; congruence.
      * destruct (IH wait h) as [h' [P1 P2]]. exists h'. split; [exact P1|]. clear -P2 Ei Ew.
        unfold loop_says in *. destruct P2 as [B1 [B2 [B3 B4]]]. unfold slot in *.
        destruct i as [m k ft sys|ep ts|d|ms|]; cbn [item_label] in Ei; [| | | |discriminate]; injection Ei as <-; rewrite Ew in *;
          cbn [first_of version_of time_of position_of interval_of] in *; repeat split; assumption.
    + rewrite (find_other _ _ Hlab). destruct (IH wait h) as [h' [P1 P2]]. exists h'. split; [exact P1|].
      destruct i; try discriminate. exact P2.
Qed.

Lemma parse_header_values v lines items : Forall2 (header_line v) lines items ->
  exists h, parse_header v lines hdr0 = Ok h /\ header_values v items h.
Proof.
  intros H. destruct (parse_loop v lines items H [HVer; HTofo; HXyz; HInterval] hdr0) as [h [P1 [A1 [A2 [A3 A4]]]]].
  exists h. split; [exact P1|]. unfold slot in *. cbn [existsb hlabel_eqb orb] in *. unfold header_values, start_values, interval_value.
  split; [split; [|split]|].
  - destruct (first_of version_of items) as [[[[m k] ft] sys]|]; [|now rewrite A1].
    destruct (h_ver h) as [[[f ft'] sys']|]; [|exact A1]. exact A1.
  - destruct (first_of time_of items) as [x|]; [|now rewrite A2]. destruct (h_tofo h) as [y|]; [|destruct A2]. cbn [oslot option_map] in *. now rewrite A2.
  - destruct (first_of position_of items) as [d|]; [exact A3|now rewrite A3].
  - destruct (first_of interval_of items) as [ms|]; [|now rewrite A4]. destruct (h_interval h) as [[n|f]|]; [exact A4|exact A4|exact A4].
Qed.

Lemma open2_header v header body file r blocks items :
  file_parts header body file -> open2 v file = Ok r -> NoDup (r_types r) ->
  body_lines (length (r_types r)) blocks body -> no_positions blocks -> Forall2 (header_line v) header items ->
  start_values v items (o_hdr (r_obj r)).
Proof.
  intros Hf Ho Hn Hb Hnp Hh. destruct (parse_header_values _ _ _ Hh) as [h0 [P0 [V0 _]]].
  destruct (open2_inv _ _ _ _ _ Hf Ho) as [h [dt [o [iv [H1 [H2 [H3 [H4 [H5 H6]]]]]]]]].
  assert (h0 = h) by congruence. subst h0. rewrite H5. cbn [o_hdr].
  unfold get_interval in H3. destruct (run_body v (r_types r) blocks body (mkObj2 None h) Hn Hb) as [ys0 [o0 [Q1 Q2]]]. rewrite Q2 in H3.
  destruct (collect_deltas 10 None ys0 GStop o0) as [[ds oo]|] eqn:Ec; cbn [bind] in H3; [|discriminate].
  destruct (best_key ds (nub_f [] ds)) as [m|]; inversion H3; subst.
  destruct (runs_hdr _ _ _ _ _ Q1 Hnp) as [Ha Hb']. cbn [o_hdr] in *.
  assert (E : o_hdr o = h). { destruct (collect_obj _ _ _ _ _ _ _ Ec) as [->|Hi]; [exact Ha|exact (Hb' _ Hi)]. }
  rewrite E. exact V0.
Qed.
Lemma open3_header fuel v header body file r items : file3_parts header body file -> open3 fuel v file = Ok r ->
  Forall2 (header_line v) header items -> start_values v items (o3_hdr (r3_obj r)).
Proof.
  intros Hp Ho Hh. destruct (parse_header_values _ _ _ Hh) as [h0 [P0 [V0 _]]].
  destruct (open3_inv _ _ _ _ _ _ Hp Ho) as [o [iv [m [H1 [_ [_ ->]]]]]].
  apply parse_header3_inv in H1. assert (h0 = o3_hdr o) by congruence. subst h0. exact V0.
Qed.
