(** Navigation files: reading back well-formed files; truncated messages. *)
From Coq Require Import Reals Lra.
From Verif Require Import Base PyStr PyFloat PyDate PyPath M_Common M_Header M_Names M_Nav S_Text S_Time S_Obs2 S_Names S_Nav P_Str P_Float P_Sec P_Date P_Common P_Obs2 P_Xyz P_Names5 P_Nav P_Nav2.
Open Scope nat_scope.

Lemma tenths k : (dec_real false k 1 = dec_real false (k * 1000000) 7)%R.
Proof. unfold dec_real. rewrite mult_IZR. field. Qed.
Lemma sec_tenths t k : fix_field 5 1 t false k -> (k / 10 <= 120)%Z ->
  exists x, py_float t = Ok x /\ sec2sec_ms x = Ok (k / 10, k mod 10 * 100000)%Z.
Proof.
  intros H Hk. destruct (fix_field_bound _ _ _ _ _ H) as [H0 _].
  destruct (py_float_fix _ _ _ _ _ H ltac:(lia)) as [x [Hx [_ Hn]]]. exists x. split; [exact Hx|].
  rewrite tenths in Hn. unfold sec2sec_ms.
  pose proof (Z.div_mod k 10 ltac:(lia)). pose proof (Z.mod_pos_bound k 10 ltac:(lia)).
  rewrite (split_sec_near 1 (k * 1000000) x) by (try lia; exact Hn).
  f_equal. assert (E : (k * 1000000 = 10000000 * (k / 10) + (k mod 10) * 1000000)%Z) by lia.
  assert (E1 : (k * 1000000 / 10000000 = k / 10)%Z).
  { rewrite E. symmetry. apply (Z.div_unique _ 10000000 _ ((k mod 10) * 1000000)); lia. }
  assert (E2 : ((k * 1000000) mod 10000000 = (k mod 10) * 1000000)%Z).
  { rewrite E. symmetry. apply (Z.mod_unique _ 10000000 (k / 10)); lia. }
  rewrite E1, E2. f_equal. replace (k mod 10 * 1000000)%Z with (k mod 10 * 100000 * 10)%Z by ring. apply Z.div_mul. lia.
Qed.

Lemma clock_ok pre clk rest i : List.length pre = i -> clock_text clk ->
  exists l, sv_clock [i; i + 19; i + 38] (pre ++ clk ++ rest) = Ok l.
Proof.
  intros Hi [t1 [t2 [t3 [n1 [m1 [e1 [n2 [m2 [e2 [n3 [m3 [e3 [-> [H1 [H2 H3]]]]]]]]]]]]]]].
  destruct (nfield_num _ _ _ _ H1) as [_ [L1 [x1 [X1 _]]]]. destruct (nfield_num _ _ _ _ H2) as [_ [L2 [x2 [X2 _]]]].
  destruct (nfield_num _ _ _ _ H3) as [_ [L3 [x3 [X3 _]]]]. set (L := pre ++ (t1 ++ t2 ++ t3) ++ rest).
  assert (S : forall i j a p b, L = a ++ p ++ b -> List.length a = i -> j = i + List.length p -> slice i j L = p).
  { intros ? ? ? ? ? E ? ?. rewrite E. now apply slice_piece. }
  unfold sv_clock. cbn [mapM].
  rewrite (S i (i + 19) pre t1 (t2 ++ t3 ++ rest)) by (try lia; unfold L; now rewrite <- ?app_assoc).
  rewrite X1. cbn [bind].
  rewrite (S (i + 19) (i + 19 + 19) (pre ++ t1) t2 (t3 ++ rest)) by (rewrite ?app_length; try lia; unfold L; now rewrite <- ?app_assoc).
  rewrite X2. cbn [bind].
  rewrite (S (i + 38) (i + 38 + 19) (pre ++ t1 ++ t2) t3 rest) by (rewrite ?app_length; try lia; unfold L; now rewrite <- ?app_assoc).
  rewrite X3. cbn [bind]. eauto.
Qed.

Lemma file_types_sys v sys : ver_lt3 v = true -> In sys (nav_systems v) -> file_types v (nav_file_type sys) = Some sys.
Proof.
  intros Hv Hin. destruct v; try discriminate Hv; cbn in Hin; repeat destruct Hin as [<-|Hin]; try reflexivity; destruct Hin.
Qed.
Lemma msg_reader_sys v sys : In sys (nav_systems v) -> msg_reader v sys = Some (orbit_counts sys).
Proof.
  intros Hin. destruct v; cbn in Hin; repeat destruct Hin as [<-|Hin]; try reflexivity; destruct Hin.
Qed.

Lemma instant_end t : valid_datetime t -> (instant t < end_of_time)%Z.
Proof.
  intros H. rewrite instant_eq by exact H. apply valid_datetime_iff in H. apply dt_us_bounds in H. exact (proj2 H).
Qed.

Lemma isspace_digit s c r i : s = i ++ c :: r -> is_space c = false -> isspace s = false.
Proof.
  intros -> Hc. unfold isspace. destruct (i ++ c :: r) eqn:E; [reflexivity|]. rewrite <- E, forallb_app. cbn. rewrite Hc. apply andb_false_r.
Qed.

Lemma epoch2_parse v sys num ep line : ver_lt3 v = true -> In sys (nav_systems v) -> nav_epoch2 num ep line ->
  black_start v line /\ parse_epoch_n v (Some (nav_file_type sys)) line = Ok (sys, num, ep).
Proof.
  intros Hv Hs H. inversion H as [tn ty tmo td th tmi tsec clk rest num' y mo d h mi k ep' Hn Hy Hmo Hd Hh Hmi Hsec Hclk Hy100 Hr Hve Hi]; subst.
  set (L := tn ++ ty ++ tmo ++ td ++ th ++ tmi ++ tsec ++ clk ++ rest).
  pose proof (proj1 Hn) as Ln. pose proof (proj1 Hy) as Ly. pose proof (proj1 Hmo) as Lmo. pose proof (proj1 Hd) as Ld.
  pose proof (proj1 Hh) as Lh. pose proof (proj1 Hmi) as Lmi. pose proof (proj1 Hsec) as Lsec.
  assert (S : forall i j a p b, L = a ++ p ++ b -> List.length a = i -> j = i + List.length p -> slice i j L = p).
  { intros ? ? ? ? ? E ? ?. rewrite E. now apply slice_piece. }
  split.
  - unfold black_start, nav_spaces. rewrite Hv. destruct (int_field_last _ _ _ Hn) as [r [c [Et Hc]]].
    apply (isspace_digit _ c (firstn (3 - 2) (ty ++ tmo ++ td ++ th ++ tmi ++ tsec ++ clk ++ rest)) r); [|exact Hc].
    unfold slice, L. cbn [skipn]. rewrite firstn_app, Ln, firstn_all2 by lia. rewrite Et, <- app_assoc. reflexivity.
  - unfold parse_epoch_n. rewrite Hv. unfold parse_epoch_n2. cbn [of_option bind].
    rewrite file_types_sys by assumption. cbn [of_option bind].
    rewrite (S 0 2 [] tn (ty ++ tmo ++ td ++ th ++ tmi ++ tsec ++ clk ++ rest)) by (try reflexivity; lia).
    rewrite (py_int_field _ _ _ Hn). cbn [bind].
    rewrite (S 17 22 (tn ++ ty ++ tmo ++ td ++ th ++ tmi) tsec (clk ++ rest)) by (rewrite ?app_length; try lia; unfold L; now rewrite <- ?app_assoc).
    destruct (sec_tenths _ _ Hsec) as [x [X1 X2]]. { destruct Hr as [_ [_ [_ [Hr _]]]]. lia. }
    rewrite X1. cbn [bind]. rewrite X2. cbn [bind]. cbn [mapM Nat.add].
    rewrite (S 2 5 tn ty (tmo ++ td ++ th ++ tmi ++ tsec ++ clk ++ rest)) by (try reflexivity; lia).
    rewrite (py_int_field _ _ _ Hy). cbn [bind].
    rewrite (S 5 8 (tn ++ ty) tmo (td ++ th ++ tmi ++ tsec ++ clk ++ rest)) by (rewrite ?app_length; try lia; unfold L; now rewrite <- ?app_assoc).
    rewrite (py_int_field _ _ _ Hmo). cbn [bind].
    rewrite (S 8 11 (tn ++ ty ++ tmo) td (th ++ tmi ++ tsec ++ clk ++ rest)) by (rewrite ?app_length; try lia; unfold L; now rewrite <- ?app_assoc).
    rewrite (py_int_field _ _ _ Hd). cbn [bind].
    rewrite (S 11 14 (tn ++ ty ++ tmo ++ td) th (tmi ++ tsec ++ clk ++ rest)) by (rewrite ?app_length; try lia; unfold L; now rewrite <- ?app_assoc).
    rewrite (py_int_field _ _ _ Hh). cbn [bind].
    rewrite (S 14 17 (tn ++ ty ++ tmo ++ td ++ th) tmi (tsec ++ clk ++ rest)) by (rewrite ?app_length; try lia; unfold L; now rewrite <- ?app_assoc).
    rewrite (py_int_field _ _ _ Hmi). cbn [bind].
    destruct (validate_epoch_ok _ _ _ _ _ _ _ Hr) as [t [Ht [Hvt Hit]]]. { rewrite <- Hi. now apply instant_end. }
    rewrite Ht. assert (t = ep) by (apply instant_inj; congruence). subst t. cbn [bind].
    destruct (clock_ok (tn ++ ty ++ tmo ++ td ++ th ++ tmi ++ tsec) clk rest 22) as [l Hl]; [rewrite ?app_length; lia|exact Hclk|].
    assert (EL : L = (tn ++ ty ++ tmo ++ td ++ th ++ tmi ++ tsec) ++ clk ++ rest) by (unfold L; now rewrite <- ?app_assoc).
    rewrite EL. cbn [Nat.add] in Hl. rewrite Hl. reflexivity.
Qed.

Lemma validate6_ok t : valid_datetime t -> dus t = 0%Z -> (100 <= dy t)%Z ->
  validate_epoch6 (dy t) (dmo t) (dd t) (dh t) (dmi t) (ds t) = Ok t.
Proof.
  intros Hv Hu Hy. unfold validate_epoch6, full_year. replace (dy t <? 100)%Z with false by lia.
  pose proof Hv as [_ [Hh [Hmi _]]]. unfold clip60. replace (60 <=? dmi t)%Z with false by lia. replace (60 <=? dh t)%Z with false by lia.
  cbn [andb]. pose proof (mk_datetime_valid t Hv) as E. rewrite Hu in E. rewrite E. cbn [bind].
  unfold dt_add. cbn [Z.add Z.mul]. rewrite Z.add_0_r. apply valid_datetime_iff in Hv. pose proof (dt_us_bounds _ Hv) as Hb.
  replace ((0 <=? dt_us t) && (dt_us t <? max_ordinal * us_per_day))%Z with true by lia. now rewrite dt_of_us_of_dt.
Qed.

Lemma epoch3_parse v sys num ep line ft : ver_lt3 v = false -> In sys (nav_systems v) -> nav_epoch3 sys num ep line ->
  black_start v line /\ parse_epoch_n v ft line = Ok (sys, num, ep).
Proof.
  intros Hv Hs H. inversion H as [sys' tn ty tmo td th tmi tsec clk rest num' ep' Hn Hy Hmo Hd Hh Hmi Hsec Hu Hy100 Hve Hclk E1 E2 E3 E4]; subst.
  set (L := sys :: tn ++ " "%char :: ty ++ " "%char :: tmo ++ td ++ th ++ tmi ++ tsec ++ clk ++ rest).
  pose proof (proj1 Hn) as Ln. pose proof (proj1 Hy) as Ly. pose proof (proj1 Hmo) as Lmo. pose proof (proj1 Hd) as Ld.
  pose proof (proj1 Hh) as Lh. pose proof (proj1 Hmi) as Lmi. pose proof (proj1 Hsec) as Lsec.
  assert (S : forall i j a p b, L = a ++ p ++ b -> List.length a = i -> j = i + List.length p -> slice i j L = p).
  { intros ? ? ? ? ? E ? ?. rewrite E. now apply slice_piece. }
  assert (EL : L = [sys] ++ tn ++ [" "%char] ++ ty ++ [" "%char] ++ tmo ++ td ++ th ++ tmi ++ tsec ++ clk ++ rest) by reflexivity.
  split.
  - unfold black_start, nav_spaces. rewrite Hv. unfold L, slice. cbn [skipn Nat.sub firstn].
    destruct v; try discriminate Hv; cbn in Hs; repeat destruct Hs as [<-|Hs]; try reflexivity; destruct Hs.
  - unfold parse_epoch_n. rewrite Hv. unfold parse_epoch_n3. unfold char_at. cbn [nth_error of_option]. unfold L at 1. cbn [nth_error of_option bind].
    rewrite (S 1 3 [sys] tn (" "%char :: ty ++ " "%char :: tmo ++ td ++ th ++ tmi ++ tsec ++ clk ++ rest)) by (try reflexivity; cbn; lia).
    rewrite (py_int_field _ _ _ Hn). cbn [bind].
    rewrite (S 4 9 ([sys] ++ tn ++ [" "%char]) (ty ++ [" "%char]) (tmo ++ td ++ th ++ tmi ++ tsec ++ clk ++ rest)) by (first [rewrite EL; now rewrite <- ?app_assoc | rewrite ?app_length; cbn [List.length]; lia]).
    assert (Ey : py_int (ty ++ [" "%char]) = Ok (dy ep)).
    { destruct Hy as [_ [b [ds0 [-> [Hb [Hds [Hne ->]]]]]]]. rewrite <- app_assoc. unfold py_int.
      rewrite py_int_digits; [reflexivity|now apply blanks_white|repeat constructor|exact Hds|exact Hne]. }
    rewrite Ey. cbn [bind mapM Nat.add].
    rewrite (S 8 11 ([sys] ++ tn ++ [" "%char] ++ ty) ([" "%char] ++ tmo) (td ++ th ++ tmi ++ tsec ++ clk ++ rest)) by (first [rewrite EL; now rewrite <- ?app_assoc | rewrite ?app_length; cbn [List.length]; lia]).
    assert (Em : py_int ([" "%char] ++ tmo) = Ok (dmo ep)).
    { destruct Hmo as [_ [b [ds0 [-> [Hb [Hds [Hne ->]]]]]]]. rewrite app_assoc. unfold py_int. rewrite <- (app_nil_r (([" "%char] ++ b) ++ ds0)), <- app_assoc.
      rewrite py_int_digits; [reflexivity| |constructor|exact Hds|exact Hne]. apply blanks_white. constructor; [reflexivity|exact Hb]. }
    rewrite Em. cbn [bind].
    rewrite (S 11 14 ([sys] ++ tn ++ [" "%char] ++ ty ++ [" "%char] ++ tmo) td (th ++ tmi ++ tsec ++ clk ++ rest)) by (first [rewrite EL; now rewrite <- ?app_assoc | rewrite ?app_length; cbn [List.length]; lia]).
    rewrite (py_int_field _ _ _ Hd). cbn [bind].
    rewrite (S 14 17 ([sys] ++ tn ++ [" "%char] ++ ty ++ [" "%char] ++ tmo ++ td) th (tmi ++ tsec ++ clk ++ rest)) by (first [rewrite EL; now rewrite <- ?app_assoc | rewrite ?app_length; cbn [List.length]; lia]).
    rewrite (py_int_field _ _ _ Hh). cbn [bind].
    rewrite (S 17 20 ([sys] ++ tn ++ [" "%char] ++ ty ++ [" "%char] ++ tmo ++ td ++ th) tmi (tsec ++ clk ++ rest)) by (first [rewrite EL; now rewrite <- ?app_assoc | rewrite ?app_length; cbn [List.length]; lia]).
    rewrite (py_int_field _ _ _ Hmi). cbn [bind].
    rewrite (S 20 23 ([sys] ++ tn ++ [" "%char] ++ ty ++ [" "%char] ++ tmo ++ td ++ th ++ tmi) tsec (clk ++ rest)) by (first [rewrite EL; now rewrite <- ?app_assoc | rewrite ?app_length; cbn [List.length]; lia]).
    rewrite (py_int_field _ _ _ Hsec). cbn [bind].
    rewrite validate6_ok by assumption. cbn [bind].
    destruct (clock_ok ([sys] ++ tn ++ [" "%char] ++ ty ++ [" "%char] ++ tmo ++ td ++ th ++ tmi ++ tsec) clk rest 23) as [l Hl]; [rewrite ?app_length; cbn; lia|exact Hclk|].
    assert (EL' : L = ([sys] ++ tn ++ [" "%char] ++ ty ++ [" "%char] ++ tmo ++ td ++ th ++ tmi ++ tsec) ++ clk ++ rest) by (rewrite EL; now rewrite <- ?app_assoc).
    rewrite EL'. cbn [Nat.add] in Hl. rewrite Hl. reflexivity.
Qed.
