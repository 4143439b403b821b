(** Concrete RINEX 3 files: a writer, examples that meet the hypotheses of the theorems, and witnesses of
    the claims the code violates. *)
From Coq Require Import Reals ZifyBool ZifyNat.
From Verif Require Import Base PyStr PyFloat PyDate M_Common M_Header M_Obs2 M_Obs3.
From Verif Require Import S_Text S_Time S_Obs2 S_Open2 S_Errors2 S_Obs3 P_Str P_Float P_Date P_Obs2 P_Obs2b P_Obs2c P_Open2 P_Errors2 W_Obs2 E_Obs2 P_Names6 E_Nav P_Obs3 P_Obs3b P_Obs3c P_Obs3d P_Obs3e P_Obs3f.
Open Scope nat_scope.

Definition put_date3 (ep : datetime) : str :=
  put_int 5 (dy ep) ++ put_int 3 (dmo ep) ++ put_int 3 (dd ep) ++ put_int 3 (dh ep) ++ put_int 3 (dmi ep)
  ++ put_fix 11 7 false (ds ep * 10000000 + dus ep * 10).
Definition put_digit (n : Z) : ascii := ascii_of_N (Z.to_N (48 + n)).
Definition put_epoch3 (ep : option datetime) (fl : Z) (n : nat) : str :=
  ">"%char :: (match ep with Some t => put_date3 t | None => spaces 28 end) ++ spaces 2 ++ [put_digit fl] ++ put_int 3 (Z.of_nat n) ++ [nl].
Definition put_sat3 (s : str * list field) : str := rstrip (fst s ++ concat (map put_field (snd s))) ++ [nl].
Definition put_block3 (b : block3) : list str :=
  match b with
  | B3Data ep fl sats => put_epoch3 (Some ep) fl (length sats) :: map put_sat3 sats
  | B3Event fl ls _ => put_epoch3 None fl (length ls) :: ls
  end.
Definition put_body3 (bs : list block3) : list str := concat (map put_block3 bs).

Definition epoch3_okb (ep : datetime) : bool := dt_ok ep && (100 <=? dy ep)%Z.
Lemma put_date3_ok ep : epoch3_okb ep = true -> date28 (put_date3 ep) (Some ep).
Proof.
  unfold epoch3_okb. intros H. apply andb_prop in H. destruct H as [H1 H2]. apply Z.leb_le in H2. apply valid_dt_dec in H1. rename H1 into Hv.
  pose proof Hv as [[Hy1 [Hm Hd]] [Hh [Hmi [Hs Hus]]]].
  assert (Hd31 : (dd ep <= 31)%Z).
  { rewrite month_len_eq in Hd by lia. unfold days_in_month in Hd. destruct (_ =? 2)%Z; [destruct (is_leap _); lia|]. destruct (_ || _)%bool; lia. }
  assert (H1000 : forall n, (0 <= n < 1000)%Z -> int_field 3 (put_int 3 n) n) by (intros n Hb; apply put_int_ok; [lia|change (10 ^ Z.of_nat 3)%Z with 1000%Z; lia]).
  set (k7 := (ds ep * 10000000 + dus ep * 10)%Z).
  assert (Hk1 : (k7 / 10000000 = ds ep)%Z) by (unfold k7; symmetry; apply Z.div_unique with (r := (dus ep * 10)%Z); lia).
  assert (Hk2 : (k7 mod 10000000 = dus ep * 10)%Z) by (unfold k7; symmetry; apply Z.mod_unique with (q := ds ep); lia).
  assert (Hk3 : (k7 mod 10000000 / 10 = dus ep)%Z) by (rewrite Hk2; apply Z.div_mul; lia).
  assert (Hcy : century (dy ep) = dy ep) by (unfold century; destruct (Z.ltb_spec (dy ep) 89), (Z.ltb_spec (dy ep) 100); lia).
  apply d28 with (y := dy ep) (mo := dmo ep) (d := dd ep) (h := dh ep) (mi := dmi ep) (k7 := k7); try (apply H1000; lia).
  - apply put_int_ok; [lia|]. change (10 ^ Z.of_nat 5)%Z with 100000%Z. lia.
  - apply put_fix_ok; [lia|lia|]. change (10 ^ Z.of_nat (11 - 2))%Z with 1000000000%Z. unfold k7. lia.
  - rewrite Hk1, Hk3. unfold epoch_in_range. rewrite Hcy. split; [exact (proj1 Hv)|]. lia.
  - exact Hv.
  - rewrite Hk1, Hk3. unfold epoch_value, instant. rewrite Hcy. reflexivity.
Qed.
Lemma put_epoch3_ok ep fl n : match ep with Some t => epoch3_okb t = true | None => True end -> (0 <= fl <= 9)%Z -> n < 1000 ->
  epoch3_line ep fl (Z.of_nat n) (put_epoch3 ep fl n).
Proof.
  intros He Hf Hn. unfold put_epoch3. destruct (digit_char fl Hf) as [D1 D2].
  assert (Hc : clock_ok []) by (intros f Hx; discriminate).
  assert (Hd : date28 (match ep with Some t => put_date3 t | None => spaces 28 end) ep).
  { destruct ep as [t|]; [now apply put_date3_ok|]. apply d28_blank; [reflexivity|apply spaces_blanks]. }
  assert (Hi : int_field 3 (put_int 3 (Z.of_nat n)) (Z.of_nat n)).
  { apply put_int_ok; [lia|]. change (10 ^ Z.of_nat 3)%Z with 1000%Z. lia. }
  pose proof (e3l _ (spaces 2) (put_int 3 (Z.of_nat n)) [nl] [] (put_digit fl) (Z.of_nat n) ep Hd eq_refl D1 Hi ltac:(cbn; lia) ltac:(congruence) Hc) as H.
  unfold put_digit in H at 1. rewrite D2 in H. rewrite app_nil_r in H. exact H.
Qed.

Definition table_has (T : list (ascii * list str)) (c : ascii) (n : nat) : bool := existsb (fun e => Ascii.eqb (fst e) c && (length (snd e) =? n)) T.
Definition sat3_okb (T : list (ascii * list str)) (s : str * list field) : bool :=
  name_okb (fst s) && forallb field_okb (snd s) && match fst s with c :: _ => table_has T c (length (snd s)) | [] => false end.
Lemma put_sat3_ok T s : sat3_okb T s = true ->
  (exists types, types_of T (fst s) types /\ length (snd s) = length types) /\ sat3_line (fst s) (snd s) (put_sat3 s).
Proof.
  unfold sat3_okb. destruct s as [name fs]. cbn [fst snd]. intros H. apply andb_prop in H. destruct H as [H H3]. apply andb_prop in H. destruct H as [H1 H2].
  split.
  - destruct name as [|c r]; [discriminate|]. unfold table_has in H3. apply existsb_exists in H3. destruct H3 as [[c' types] [Hin Hb]]. cbn [fst snd] in Hb.
    apply andb_prop in Hb. destruct Hb as [Hb1 Hb2]. apply Ascii.eqb_eq in Hb1. apply Nat.eqb_eq in Hb2. subst c'. exists types. split; [exists c, r; auto|auto].
  - destruct name as [|c [|d1 [|d2 [|]]]]; try discriminate. cbn [name_okb] in H1. apply andb_prop in H1. destruct H1 as [H1 Hd2]. apply andb_prop in H1. destruct H1 as [Hc Hd1].
    apply digit_is_digit in Hd1. apply digit_is_digit in Hd2.
    exists [c; d1; d2], (map put_field fs), []. split; [|split].
    + assert (E : (if Ascii.eqb d1 " " then "0"%char else d1) = d1).
      { destruct (Ascii.eqb_spec d1 " "); [subst; unfold digit in Hd1; cbn in Hd1; lia|reflexivity]. }
      rewrite <- E at 2. apply s3t; [| |exact Hd2|now left]; intros ->; discriminate.
    + clear -H2. induction fs as [|f fs IH]; cbn [map]; constructor; cbn [forallb] in H2; apply andb_prop in H2; destruct H2 as [Ha Hb]; [apply put_field_ok; now apply field_okb_ok|auto].
    + rewrite app_nil_r. unfold put_sat3. cbn [fst snd]. destruct (rstrip_decomp ([c; d1; d2] ++ concat (map put_field fs))) as [w [E Hw]].
      exists (rstrip ([c; d1; d2] ++ concat (map put_field fs))), w, [nl]. split; [exact E|]. split; [reflexivity|]. split; [exact Hw|]. constructor; [reflexivity|constructor].
Qed.
Definition data3_okb (T : list (ascii * list str)) (ep : datetime) (fl : Z) (sats : list (str * list field)) : bool :=
  epoch3_okb ep && ((fl =? 0) || (fl =? 1))%Z && forallb (sat3_okb T) sats && (length sats <? 1000).
Definition valid_block3 (T : list (ascii * list str)) (b : block3) : Prop :=
  match b with
  | B3Data ep fl sats => data3_okb T ep fl sats = true
  | B3Event fl ls np => (1 < fl <= 9)%Z /\ length ls < 1000 /\ event3_lines ls np
  end.
Lemma put_block3_ok T b : valid_block3 T b -> block3_lines T b (put_block3 b).
Proof.
  destruct b as [ep fl sats|fl ls np]; cbn [valid_block3 put_block3].
  - unfold data3_okb. intros H. apply andb_prop in H. destruct H as [H H4]. apply andb_prop in H. destruct H as [H H3]. apply andb_prop in H. destruct H as [H1 H2].
    apply b3_data; [lia| |].
    + apply put_epoch3_ok; [exact H1|lia|now apply Nat.ltb_lt].
    + clear -H3. induction sats as [|s sats IH]; cbn [map]; constructor; cbn [forallb] in H3; apply andb_prop in H3; destruct H3 as [Ha Hb]; [now apply put_sat3_ok|auto].
  - intros [Hf [Hl He]]. apply b3_event with (ep := None); [lia| |exact He]. apply put_epoch3_ok; [exact I|lia|exact Hl].
Qed.
Lemma put_body3_ok T bs : Forall (valid_block3 T) bs -> body3_lines T bs (put_body3 bs).
Proof. induction 1 as [|b bs Hb Hbs IH]; [constructor|]. unfold put_body3. cbn [map concat]. constructor; [now apply put_block3_ok|exact IH]. Qed.
Lemma plain_ok l : forallb (fun lab => negb (seqb (line_label l) lab)) (sno_text :: known_labels) = true ->
  match l with c :: _ => negb (Ascii.eqb c ">") | [] => false end = true -> plain_line l.
Proof.
  intros H H2. split.
  - intros lab Hin Hh. rewrite forallb_forall in H. specialize (H lab Hin). apply negb_true_iff in H. apply seqb_neq in H.
    apply H. apply has_label_label; [|exact Hh]. cbn in Hin. repeat destruct Hin as [<-|Hin]; try reflexivity. contradiction.
  - destruct l as [|c r]; [discriminate|]. exists c, r. split; [reflexivity|]. intros ->. discriminate.
Qed.

(** ** header *)
Definition g_codes : list str := map lit ["C1C"; "L1C"; "D1C"; "S1C"; "C2W"; "L2W"; "D2W"; "S2W"; "C5Q"; "L5Q"; "D5Q"; "S5Q"; "C1W"; "S1W"]%string.
Definition c_codes : list str := map lit ["C1I"; "L1I"; "C7I"; "L7I"]%string.
Definition table3 : list (ascii * list str) := [("G"%char, g_codes); ("C"%char, c_codes)].
Definition sno_g1 : str := pad60 "G   14 C1C L1C D1C S1C C2W L2W D2W S2W C5Q L5Q D5Q S5Q C1W" "SYS / # / OBS TYPES".
Definition sno_g2 : str := pad60 "       S1W" "SYS / # / OBS TYPES".
Definition sno_c : str := pad60 "C    4 C1I L1I C7I L7I" "SYS / # / OBS TYPES".
Definition header3 : list str :=
  [pad60 "     3.02           OBSERVATION DATA    M: MIXED" "RINEX VERSION / TYPE"; put_pos ex_pos0; sno_g1; sno_g2; sno_c;
   pad60 "  2015     1     1     0     0    0.0000000     GPS" "TIME OF FIRST OBS"].
Definition file3 (body : list str) : list str := header3 ++ ex_eoh :: body.
Definition sel3 : list str := [sno_g1; sno_g2; sno_c].
Definition read3 : list (ascii * list str) := read_table V302 table3.

Lemma header_noneoh l : seqb (line_label l) (lit "END OF HEADER") = false -> ~ has_label (lit "END OF HEADER") l.
Proof. intros H Hh. apply seqb_neq in H. apply H. now apply has_label_label. Qed.
Lemma file3_ok body : file3_parts header3 body (file3 body).
Proof.
  exists ex_eoh. split; [reflexivity|]. split.
  - unfold header3. repeat (constructor; [apply header_noneoh; reflexivity|]). constructor.
  - apply label_has; [discriminate|reflexivity].
Qed.
Lemma not_sno l : seqb (line_label l) sno_text = false -> ~ has_label sno_text l.
Proof. intros H Hh. apply seqb_neq in H. apply H. now apply has_label_label. Qed.
Lemma header3_labelled : labelled sno_text header3 sel3.
Proof.
  unfold header3, sel3.
  apply lb_no; [apply not_sno; reflexivity|]. apply lb_no; [apply not_sno; reflexivity|].
  apply lb_yes; [apply label_has; [discriminate|reflexivity]|]. apply lb_yes; [apply label_has; [discriminate|reflexivity]|]. apply lb_yes; [apply label_has; [discriminate|reflexivity]|].
  apply lb_no; [apply not_sno; reflexivity|]. constructor.
Qed.
Definition code_okb (c : str) : bool :=
  match c with [a; b; d] => negb (Ascii.eqb a "1") && negb (Ascii.eqb d "1") && negb (is_space a) && negb (is_space b) && negb (is_space d) | _ => false end.
Lemma codes_ok cs : forallb code_okb cs = true -> Forall valid_code cs.
Proof.
  intros H. apply Forall_forall. intros c Hc. rewrite forallb_forall in H. specialize (H c Hc). destruct c as [|a [|b [|d [|]]]]; try discriminate. cbn [code_okb] in H.
  repeat (apply andb_prop in H; destruct H as [H ?]). exists a, b, d. split; [reflexivity|]. repeat match goal with K : negb _ = true |- _ => apply negb_true_iff in K end.
  split; [now apply Ascii.eqb_neq|]. split; [now apply Ascii.eqb_neq|]. auto.
Qed.
Lemma table3_lines : table_lines table3 sel3.
Proof.
  exists [[sno_g1; sno_g2]; [sno_c]]. split; [reflexivity|]. constructor; [|constructor; [|constructor]]; cbn [fst snd].
  - apply (sys_first "G"%char (lit " 14") (firstn 13 g_codes) (skipn 13 g_codes) (spaces 2)).
    + reflexivity.
    + cbn. lia.
    + reflexivity.
    + apply (int_lit _ _ (lit " ") (lit "14")); try reflexivity; discriminate.
    + apply codes_ok. reflexivity.
    + apply spaces_blanks.
    + split; [reflexivity|]. exists []. split; [reflexivity|constructor].
    + apply (cdl_cons (skipn 13 g_codes) [] (spaces 50)); [cbn; lia|congruence|apply codes_ok; reflexivity|apply spaces_blanks| |constructor].
      split; [reflexivity|]. exists []. split; [reflexivity|constructor].
  - apply (sys_first "C"%char (lit "  4") c_codes [] (spaces 38)).
    + reflexivity.
    + cbn. lia.
    + congruence.
    + apply (int_lit _ _ (lit "  ") (lit "4")); try reflexivity; discriminate.
    + apply codes_ok. reflexivity.
    + apply spaces_blanks.
    + split; [reflexivity|]. exists []. split; [reflexivity|constructor].
    + constructor.
Qed.
Lemma table3_nodup : NoDup (map fst table3).
Proof. cbn. constructor; [cbn; intuition discriminate|]. constructor; [easy|constructor]. Qed.
Fixpoint nodupb (l : list str) : bool := match l with [] => true | x :: r => negb (existsb (seqb x) r) && nodupb r end.
Lemma nodupb_ok l : nodupb l = true -> NoDup l.
Proof.
  induction l as [|x r IH]; cbn [nodupb]; intros H; [constructor|]. apply andb_prop in H. destruct H as [H1 H2]. constructor; [|auto].
  intros Hin. apply negb_true_iff in H1. assert (existsb (seqb x) r = true) by (apply existsb_exists; exists x; split; [exact Hin|apply seqb_refl]). congruence.
Qed.
Lemma read3_distinct : types_distinct read3.
Proof.
  intros c types H. unfold read3, read_table, table3 in H. cbn [map fst snd In] in H. destruct H as [H|[H|[]]]; injection H as <- <-; apply nodupb_ok; reflexivity.
Qed.
Example c_renamed : In ("C"%char, map lit ["C2I"; "L2I"; "C7I"; "L7I"]%string) read3.
Proof. right. left. reflexivity. Qed.

(** ** bodies *)
Definition t3 (h mi s us : Z) : datetime := mkDT 2015 1 1 h mi s us.
Definition g_sat (n : nat) (k : Z) : str * list field := (E_Obs2.ex_name n, [FVal false (20000000000 + k) 0 7; FVal true (105123456 + k) 1 5] ++ repeat FBlank 11 ++ [FVal false 45000 0 0]).
Definition c_sat (n : nat) (k : Z) : str * list field := ("C"%char :: fmt_0d 2 (Z.of_nat n), [FVal false (36000000000 + k) 0 0; FBlank; FBlank; FVal true 5 0 0]).
Definition blocks3 : list block3 :=
  [B3Event 4 [lit "a comment"] None;
   B3Data (t3 0 0 0 0) 0 [g_sat 1 0; c_sat 11 5];
   B3Data (t3 0 0 0 0) 0 [g_sat 2 9];
   B3Data (t3 0 0 30 0) 1 [g_sat 1 7];
   B3Event 4 [put_pos ex_pos1; lit "a comment"] (Some ex_pos1);
   B3Data (t3 0 1 0 500000) 0 [c_sat 12 3; g_sat 3 1]].
Lemma blocks3_valid : Forall (valid_block3 read3) blocks3.
Proof.
  unfold blocks3. constructor.
  { cbn [valid_block3]. split; [lia|]. split; [cbn; lia|]. constructor; [apply plain_ok; reflexivity|constructor]. }
  constructor; [vm_compute; reflexivity|]. constructor; [vm_compute; reflexivity|]. constructor; [vm_compute; reflexivity|]. constructor.
  { cbn [valid_block3]. split; [lia|]. split; [cbn; lia|]. apply e3s_pos; [apply put_pos_ok; unfold valid_dec4; cbn; lia|].
    constructor; [apply plain_ok; reflexivity|constructor]. }
  constructor; [vm_compute; reflexivity|constructor].
Qed.
Lemma blocks3_body : body3_lines read3 blocks3 (put_body3 blocks3).
Proof. apply put_body3_ok, blocks3_valid. Qed.
Definition reader3_ex : res reader3 := open3 100 V302 (file3 (put_body3 blocks3)).
Lemma open3_ex : exists r, reader3_ex = Ok r.
Proof. eexists. vm_compute. reflexivity. Qed.
Lemma count3_ex : match reader3_ex with Ok r => length (fst (fst (records3 V302 r))) = 6 | Err _ => False end.
Proof. vm_compute. reflexivity. Qed.
Lemma interval3_ex : match reader3_ex with Ok r => h_interval (o3_hdr (r3_obj r)) = Some (PFloat (float_of_Z 30)) | Err _ => False end.
Proof. vm_compute. reflexivity. Qed.

(** hypotheses that concern the header *)
Lemma header3_parsed : exists h, parse_header V302 header3 hdr0 = Ok h.
Proof. eexists. vm_compute. reflexivity. Qed.
Lemma epochs3_ex : data_epochs3 blocks3 = t3 0 0 0 0 :: repeat (t3 0 0 0 0) 1 ++ t3 0 0 30 0 :: [t3 0 1 0 500000].
Proof. reflexivity. Qed.

(** ** C10: the second position is ignored *)
Definition ex_pos2 : dec_position := ((false, 44440000%Z), (false, 22220000%Z), (true, 33330000%Z)).
Definition twice3 : list block3 :=
  [B3Data (t3 0 0 0 0) 0 [g_sat 1 0]; B3Event 4 [put_pos ex_pos1] (Some ex_pos1); B3Data (t3 0 0 30 0) 0 [g_sat 1 7];
   B3Event 4 [put_pos ex_pos2] (Some ex_pos2); B3Data (t3 0 1 0 0) 0 [g_sat 1 7]].
Lemma twice3_valid : Forall (valid_block3 read3) twice3.
Proof.
  unfold twice3. constructor; [vm_compute; reflexivity|]. constructor.
  { cbn [valid_block3]. split; [lia|]. split; [cbn; lia|]. apply e3s_pos; [apply put_pos_ok; unfold valid_dec4; cbn; lia|constructor]. }
  constructor; [vm_compute; reflexivity|]. constructor.
  { cbn [valid_block3]. split; [lia|]. split; [cbn; lia|]. apply e3s_pos; [apply put_pos_ok; unfold valid_dec4; cbn; lia|constructor]. }
  constructor; [vm_compute; reflexivity|constructor].
Qed.
Definition ends_at (v : ver) (rr : res reader3) (q : float) : Prop :=
  match rr with
  | Ok r => match records3 v r with
            | (ys, GStop, _) => match rev ys with l :: _ => fst (fst (h_xyz (o3_hdr (snd l)))) = q | [] => False end
            | _ => False
            end
  | Err _ => False
  end.
Lemma twice3_ends : ends_at V302 (open3 100 V302 (file3 (put_body3 twice3))) (b64_of_dec false 11110000 (-4)).
Proof. vm_compute. reflexivity. Qed.
Lemma second_position_ignored : exists blocks r before last o', body3_lines read3 (blocks ++ [B3Event 4 [put_pos ex_pos2] (Some ex_pos2); B3Data (t3 0 1 0 0) 0 [g_sat 1 7]])
    (put_body3 (blocks ++ [B3Event 4 [put_pos ex_pos2] (Some ex_pos2); B3Data (t3 0 1 0 0) 0 [g_sat 1 7]])) /\
  open3 100 V302 (file3 (put_body3 (blocks ++ [B3Event 4 [put_pos ex_pos2] (Some ex_pos2); B3Data (t3 0 1 0 0) 0 [g_sat 1 7]]))) = Ok r /\
  records3 V302 r = (before ++ [last], GStop, o') /\ ~ near_position (h_xyz (o3_hdr (snd last))) ex_pos2.
Proof.
  exists (firstn 3 twice3).
  pose proof twice3_ends as He. destruct (open3 100 V302 (file3 (put_body3 twice3))) as [r|] eqn:Er; [|contradiction].
  exists r. unfold ends_at in He.
  assert (Hl : exists before last o', records3 V302 r = (before ++ [last], GStop, o') /\ fst (fst (h_xyz (o3_hdr (snd last)))) = b64_of_dec false 11110000 (-4)).
  { destruct (records3 V302 r) as [[ys ge] o']. destruct ge; try contradiction. destruct (rev ys) as [|l ls] eqn:El; [contradiction|].
    exists (rev ls), l, o'. split; [|exact He]. rewrite <- (rev_involutive ys), El. reflexivity. }
  destruct Hl as [before [last [o' [H1 H2]]]]. exists before, last, o'.
  split; [apply put_body3_ok, twice3_valid|]. split; [exact Er|]. split; [exact H1|].
  destruct (h_xyz (o3_hdr (snd last))) as [[x y] z]. cbn [fst] in H2. unfold near_position, ex_pos2. intros [Hn _]. unfold near4 in Hn. cbn [fst snd] in Hn.
  assert (Hb : nearest64 (b64_of_dec false 44440000 (- Z.of_nat 4)) (dec_real false 44440000 4)) by (apply b64_of_dec_nearest; lia).
  assert (E : x = b64_of_dec false 44440000 (- Z.of_nat 4)).
  { eapply P_Interval.nearest64_inj; [exact Hn|exact Hb|]. subst x. intros F. assert (Hc : b64_of_dec false 11110000 (-4) = S754_finite false 4886229673836544 (-42)) by (vm_compute; reflexivity).
    rewrite Hc in F. cbn in F. unfold Defs.F2R in F. cbn in F. Lra.lra. }
  rewrite E in H2. revert H2. vm_compute. discriminate.
Qed.

(** an event that repeats the header's types of observation *)
Lemma repeated_types : exists r, open3 100 V302 (file3 (put_body3 [B3Data (t3 0 0 0 0) 0 [g_sat 1 0]; B3Data (t3 0 0 30 0) 0 [g_sat 1 0]] ++ [put_epoch3 None 4 3; sno_g1; sno_g2; sno_c])) = Ok r /\
  snd (fst (records3 V302 r)) = GRaise HeaderError.
Proof. eexists. split; [vm_compute; reflexivity|vm_compute; reflexivity]. Qed.

(** ** C11: a file without epochs *)
Lemma loops3 : file3_parts header3 [] (file3 []) /\ forall fuel, open3 fuel V302 (file3 []) = Err OutOfFuel.
Proof.
  split; [apply file3_ok|]. intros fuel. destruct (parse_header3 V302 header3 (mkObj3 hdr0 [])) as [o|] eqn:E; [|exfalso; revert E; vm_compute; discriminate].
  exact (open3_loops V302 header3 [] _ o (file3_ok []) E (Forall_nil _) fuel).
Qed.

(** ** C12 *)
Definition good3 : list block3 := [B3Data (t3 0 0 0 0) 0 [g_sat 1 0]; B3Data (t3 0 0 30 0) 0 [g_sat 1 0]].
Lemma good3_valid : Forall (valid_block3 read3) good3.
Proof. unfold good3. constructor; [vm_compute; reflexivity|]. constructor; [vm_compute; reflexivity|constructor]. Qed.
Lemma good3_body : body3_lines read3 good3 (put_body3 good3).
Proof. apply put_body3_ok, good3_valid. Qed.
Definition junk_sat : str := lit "C07  not a number          23.000" ++ [nl].
Definition bad_flag3 : str := lit "> 2015  1  1  0  1  0.0000000  x  1" ++ [nl].
Lemma bad_flag3_bad : bad_epoch3 bad_flag3.
Proof.
  apply (be3_flag (put_date3 (t3 0 1 0 0)) (lit "  x  1" ++ [nl]) (Some (t3 0 1 0 0))); [apply put_date3_ok; vm_compute; reflexivity|].
  intros c H. injection H as <-. intros n. vm_compute. discriminate.
Qed.
Definition last_value (rr : res reader3) (k : nat) : option obsval :=
  match rr with Ok r => match rev (fst (fst (records3 V302 r))) with (_, _, rc, _) :: _ => option_map snd (nth_error rc k) | [] => None end | Err _ => None end.
Definition last_epoch3 (rr : res reader3) : option (option datetime) :=
  match rr with Ok r => match rev (fst (fst (records3 V302 r))) with (ep, _, _, _) :: _ => Some ep | [] => None end | Err _ => None end.
(** a value that is no number is delivered as zero, and the reading goes on *)
Lemma junk_zero : exists r, open3 100 V302 (file3 (put_body3 good3 ++ [put_epoch3 (Some (t3 0 1 0 0)) 0 1; junk_sat])) = Ok r /\
  snd (fst (records3 V302 r)) = GStop /\ last_value (Ok r) 0 = Some (Some fzero, 0%Z, 0%Z).
Proof. eexists. split; [vm_compute; reflexivity|]. split; [vm_compute; reflexivity|vm_compute; reflexivity]. Qed.
(** records of an epoch whose date cannot be read are delivered without a date *)
Definition junk_date : str := lit "> 2015 13  1  0  1  0.0000000  0  1" ++ [nl].
Lemma junk_none : exists r, open3 100 V302 (file3 (put_body3 good3 ++ [junk_date; put_sat3 (g_sat 1 0)])) = Ok r /\
  snd (fst (records3 V302 r)) = GStop /\ last_epoch3 (Ok r) = Some None.
Proof. eexists. split; [vm_compute; reflexivity|]. split; [vm_compute; reflexivity|vm_compute; reflexivity]. Qed.
(** seconds beyond a C int *)
Definition huge_date : str := lit "> 2015  1  1  0  1       1e99  0  1" ++ [nl].
Lemma huge_overflow3 : exists r, open3 100 V302 (file3 (put_body3 good3 ++ [huge_date])) = Ok r /\ snd (fst (records3 V302 r)) = GRaise OverflowError.
Proof. eexists. split; [vm_compute; reflexivity|vm_compute; reflexivity]. Qed.
Lemma bad_flag_open : exists r, open3 100 V302 (file3 (put_body3 good3 ++ [bad_flag3])) = Ok r.
Proof. eexists. vm_compute. reflexivity. Qed.

(** ** C07: interval zero *)
Definition fast3 : list block3 := [B3Data (t3 0 0 0 0) 0 [g_sat 1 0]; B3Data (t3 0 0 0 400) 0 [g_sat 1 0]].
Lemma fast3_valid : Forall (valid_block3 read3) fast3.
Proof. unfold fast3. constructor; [vm_compute; reflexivity|]. constructor; [vm_compute; reflexivity|constructor]. Qed.
Lemma fast3_zero : exists r, body3_lines read3 fast3 (put_body3 fast3) /\ open3 100 V302 (file3 (put_body3 fast3)) = Ok r /\ h_interval (o3_hdr (r3_obj r)) = Some (PFloat fzero).
Proof. eexists. split; [apply put_body3_ok, fast3_valid|]. split; [vm_compute; reflexivity|vm_compute; reflexivity]. Qed.
