(** Proofs about the RINEX 3 reader: the table of observation types. *)
From Coq Require Import ZifyBool ZifyNat.
From Verif Require Import Base PyStr PyFloat PyDate M_Common M_Header M_Obs2 M_Obs3.
From Verif Require Import S_Text S_Time S_Obs2 S_Errors2 S_Obs3 P_Str P_Obs2 P_Obs2b P_Obs2c P_Obs3 P_Obs3b.
Open Scope nat_scope.

Definition nl : ascii := "010"%char.
Definition no_nl (s : str) : Prop := Forall (fun c => c <> nl) s.
Lemma blanks_no_nl s : blanks s -> no_nl s.
Proof. intros H. eapply Forall_impl; [|exact H]. cbn. intros a ->. discriminate. Qed.
Lemma black_no_nl s : Forall (fun c => is_space c = false) s -> no_nl s.
Proof. intros H. eapply Forall_impl; [|exact H]. cbn. intros a Ha ->. discriminate. Qed.

Lemma split_on_line s rest : no_nl s -> split_on nl (s ++ nl :: rest) = s :: split_on nl rest.
Proof.
  induction 1 as [|c r Hc Hr IH]; cbn [app split_on].
  - now rewrite ceqb_refl.
  - destruct (ceqb c nl) eqn:E; [apply ceqb_eq in E; contradiction|]. now rewrite IH.
Qed.

(** a piece of text that ends at a word boundary *)
Definition seg (s : str) (ws : list str) : Prop := forall rest, split_ws (s ++ rest) = ws ++ split_ws rest.
Definition black (s : str) : Prop := s <> [] /\ Forall (fun c => is_space c = false) s.
Lemma seg_nil : seg [] []. Proof. intros rest. reflexivity. Qed.
Lemma seg_app a ws b vs : seg a ws -> seg b vs -> seg (a ++ b) (ws ++ vs).
Proof. intros Ha Hb rest. rewrite <- app_assoc, Ha, Hb. now rewrite app_assoc. Qed.
Lemma seg_white w : white w -> seg w [].
Proof.
  intros H rest. unfold split_ws. induction H as [|c r Hc Hr IH]; [reflexivity|]. cbn [app split_aux]. now rewrite Hc.
Qed.
Lemma split_aux_word w : Forall (fun c => is_space c = false) w -> forall cur s, split_aux cur (w ++ s) = split_aux (rev w ++ cur) s.
Proof.
  induction 1 as [|c r Hc Hr IH]; intros cur s; [reflexivity|]. cbn [app split_aux rev]. rewrite Hc, IH. now rewrite <- app_assoc.
Qed.
Lemma seg_word w c : black w -> is_space c = true -> seg (w ++ [c]) [w].
Proof.
  intros [Hn Hb] Hc rest. rewrite <- app_assoc. cbn [app]. unfold split_ws. rewrite split_aux_word by exact Hb. cbn [split_aux]. rewrite Hc.
  rewrite app_nil_r. destruct (rev w) as [|x y] eqn:E; [apply (f_equal (@rev ascii)) in E; rewrite rev_involutive in E; now subst|].
  rewrite <- E, rev_involutive. reflexivity.
Qed.
Lemma seg_word_blanks w b : black w -> blanks b -> b <> [] -> seg (w ++ b) [w].
Proof.
  intros Hw Hb Hn. destruct b as [|c b]; [congruence|]. inversion Hb as [|x y Hc Hb']; subst.
  replace (w ++ " "%char :: b) with ((w ++ [" "%char]) ++ b) by (rewrite <- app_assoc; reflexivity).
  apply (seg_app _ [w] _ []); [now apply seg_word|]. apply seg_white. now apply blanks_white.
Qed.
Lemma valid_code_black c : valid_code c -> black c /\ length c = 3.
Proof. intros [a [b [d [-> [_ [_ [Ha [Hb Hd]]]]]]]]. split; [|reflexivity]. split; [discriminate|]. repeat constructor; assumption. Qed.
Lemma seg_codes cs : forall w pad, black w -> Forall valid_code cs -> blanks pad -> pad <> [] ->
  seg (w ++ concat (map code_cols cs) ++ pad) (w :: cs).
Proof.
  induction cs as [|c cs IH]; intros w pad Hw Hc Hp Hn; cbn [map concat app].
  - now apply seg_word_blanks.
  - inversion Hc as [|x y Hx Hy]; subst. unfold code_cols at 1.
    replace (w ++ ((" "%char :: c) ++ concat (map code_cols cs)) ++ pad) with ((w ++ [" "%char]) ++ (c ++ concat (map code_cols cs) ++ pad)).
    2:{ rewrite <- ?app_assoc. cbn [app]. rewrite <- ?app_assoc. reflexivity. }
    apply (seg_app _ [w] _ (c :: cs)); [now apply seg_word|]. apply IH; try assumption. apply valid_code_black in Hx. tauto.
Qed.

Lemma codes_len cs : Forall valid_code cs -> length (concat (map code_cols cs)) = 4 * length cs.
Proof.
  induction 1 as [|c cs Hc Hr IH]; [reflexivity|]. cbn [map concat]. rewrite app_length, IH. unfold code_cols.
  destruct (valid_code_black c Hc) as [_ Hl]. cbn [length]. lia.
Qed.
Lemma codes_no_nl cs : Forall valid_code cs -> no_nl (concat (map code_cols cs)).
Proof.
  induction 1 as [|c cs Hc Hr IH]; [constructor|]. cbn [map concat]. apply Forall_app. split; [|exact IH].
  constructor; [discriminate|]. apply black_no_nl. apply valid_code_black in Hc. apply Hc.
Qed.

(** a line without its line end *)
Definition chomped (cols line l : str) : Prop := line = l ++ [nl] /\ no_nl l /\ exists r, l = cols ++ r.
Lemma sno_chomp cols line : sno_line cols line -> no_nl cols -> exists l, chomped cols line l.
Proof.
  intros [Hl [w [-> Hw]]] Hn. exists (cols ++ lit "SYS / # / OBS TYPES" ++ w). split; [|split].
  - rewrite <- !app_assoc. reflexivity.
  - apply Forall_app. split; [exact Hn|]. apply Forall_app. split; [|now apply blanks_no_nl].
    repeat (constructor; [discriminate|]). constructor.
  - eexists. reflexivity.
Qed.

Lemma int_field_parts tn n : int_field 3 tn n -> exists b ds, tn = b ++ ds /\ blanks b /\ black ds /\ py_int ds = Ok n /\ length tn = 3.
Proof.
  intros H. pose proof H as [Hl [b [ds [-> [Hb [Hd [Hn ->]]]]]]]. exists b, ds. split; [reflexivity|]. split; [exact Hb|].
  split. { split; [exact Hn|]. eapply Forall_impl; [|exact Hd]. intros a Ha. now apply digit_not_space. }
  split; [|exact Hl]. unfold py_int. pose proof (py_int_digits [] ds [] ltac:(constructor) ltac:(constructor) Hd Hn) as E.
  cbn [app] in E. rewrite app_nil_r in E. now rewrite E.
Qed.

(** ** joining *)
Lemma slice_60 cols r : length cols = 60 -> slice 0 60 (cols ++ r) = cols.
Proof. intros H. now apply slice_0. Qed.

Lemma code_lines_join rest lines : code_lines rest lines -> exists ls, Forall2 (fun line l => line = l ++ [nl] /\ no_nl l) lines ls /\
  exists x, seg x rest /\ forall acc a tail, join_lines (a :: acc) (ls ++ tail) = join_lines ((a ++ x) :: acc) tail.
Proof.
  induction 1 as [|cs rest pad line lines Hcs Hfull Hv Hpad Hline Hr IH].
  - exists []. split; [constructor|]. exists []. split; [apply seg_nil|]. intros acc a tail. now rewrite app_nil_r.
  - destruct IH as [ls [HF [x [Hx Hj]]]].
    set (cols := spaces 6 ++ concat (map code_cols cs) ++ pad) in *.
    assert (Hlen : length cols = 60) by apply Hline.
    assert (Hpl : length pad <> 0).
    { unfold cols in Hlen. rewrite !app_length, (codes_len cs Hv) in Hlen. cbn [length spaces repeat_c repeat] in Hlen. lia. }
    assert (Hnn : no_nl cols).
    { unfold cols. apply Forall_app. split; [apply blanks_no_nl, spaces_blanks|]. apply Forall_app. split; [now apply codes_no_nl|now apply blanks_no_nl]. }
    destruct (sno_chomp cols line Hline Hnn) as [l [El [Hnl [r Er]]]].
    exists (l :: ls). split; [constructor; [auto|exact HF]|].
    exists (skipn 7 cols ++ x). split.
    + destruct cs as [|c cs]; [cbn in Hcs; lia|]. inversion Hv as [|? ? Hc Hv']; subst.
      apply (seg_app _ (c :: cs) _ rest); [|exact Hx].
      change (skipn 7 cols) with ((c ++ concat (map code_cols cs)) ++ pad). rewrite <- app_assoc.
      apply seg_codes; [apply valid_code_black in Hc; tauto|exact Hv'|exact Hpad|]. intros ->. cbn in Hpl. lia.
    + intros acc a tail. cbn [app]. rewrite Er.
      assert (E : exists c0 l0, cols ++ r = c0 :: l0) by (unfold cols; eexists _, _; reflexivity).
      destruct E as [c0 [l0 E]]. rewrite E. cbn [join_lines]. rewrite <- E.
      replace (isspace (slice 0 6 (cols ++ r))) with true by (unfold cols; reflexivity).
      assert (E7 : slice 7 60 (cols ++ r) = skipn 7 cols).
      { unfold slice. rewrite skipn_app. replace (7 - length cols) with 0 by lia. rewrite firstn_app_exact; [reflexivity|].
        rewrite skipn_length. lia. }
      rewrite E7, Hj. now rewrite <- app_assoc.
Qed.

Lemma sys_lines_join sys codes lines : sys_lines sys codes lines -> exists ls, Forall2 (fun line l => line = l ++ [nl] /\ no_nl l) lines ls /\
  exists j cnt, split_ws j = [sys] :: cnt :: codes /\ py_int cnt = Ok (Z.of_nat (length codes)) /\
    forall acc tail, join_lines acc (ls ++ tail) = join_lines (j :: acc) tail.
Proof.
  intros H. destruct H as [sys tn cs rest pad line lines Hsys Hcs Hfull Htn Hv Hpad Hline Hr].
  destruct (code_lines_join _ _ Hr) as [ls [HF [x [Hx Hj]]]].
  set (cols := sys :: spaces 2 ++ tn ++ concat (map code_cols cs) ++ pad) in *.
  destruct (int_field_parts _ _ Htn) as [b [ds [Etn [Hb [Hds [Hpi Hl3]]]]]].
  assert (Hlen : length cols = 60) by apply Hline.
  assert (Hpl : length pad <> 0).
  { unfold cols in Hlen. cbn [length] in Hlen. rewrite !app_length, (codes_len cs Hv) in Hlen. cbn [length spaces repeat_c repeat] in Hlen. lia. }
  assert (Hnn : no_nl cols).
  { unfold cols. constructor; [intros ->; discriminate|]. apply Forall_app. split; [apply blanks_no_nl, spaces_blanks|]. apply Forall_app. split.
    - rewrite Etn. apply Forall_app. split; [now apply blanks_no_nl|apply black_no_nl; apply Hds].
    - apply Forall_app. split; [now apply codes_no_nl|now apply blanks_no_nl]. }
  destruct (sno_chomp cols line Hline Hnn) as [l [El [Hnl [r Er]]]].
  exists (l :: ls). split; [constructor; [auto|exact HF]|].
  exists (cols ++ x), ds. split; [|split; [exact Hpi|]].
  - assert (Hseg : seg cols ([sys] :: ds :: cs)).
    { unfold cols. rewrite Etn.
      replace (sys :: spaces 2 ++ (b ++ ds) ++ concat (map code_cols cs) ++ pad) with (([sys] ++ spaces 2) ++ b ++ (ds ++ concat (map code_cols cs) ++ pad)).
      2:{ cbn [app]. rewrite <- !app_assoc. reflexivity. }
      apply (seg_app _ [[sys]] _ (ds :: cs)).
      - apply seg_word_blanks; [split; [discriminate|repeat constructor; exact Hsys]|apply spaces_blanks|discriminate].
      - apply (seg_app _ [] _ (ds :: cs)); [apply seg_white; now apply blanks_white|].
        apply seg_codes; try assumption. intros ->. cbn in Hpl. lia. }
    pose proof (seg_app _ _ _ _ Hseg Hx []) as E. rewrite app_nil_r in E. rewrite E. cbn [app]. now rewrite app_nil_r.
  - intros acc tail. rewrite <- app_comm_cons. rewrite Er. unfold cols at 1. cbn [app join_lines].
    assert (E6 : isspace (slice 0 6 (sys :: spaces 2 ++ tn ++ concat (map code_cols cs) ++ pad ++ r)) = false).
    { unfold slice. cbn [skipn]. change (6 - 0) with (S 5). cbn [firstn isspace forallb]. now rewrite Hsys. }
    replace ((spaces 2 ++ tn ++ concat (map code_cols cs) ++ pad) ++ r) with (spaces 2 ++ tn ++ concat (map code_cols cs) ++ pad ++ r) by now rewrite <- !app_assoc.
    rewrite E6. rewrite Hj. f_equal. f_equal. f_equal.
    replace (sys :: spaces 2 ++ tn ++ concat (map code_cols cs) ++ pad ++ r) with (cols ++ r) by (unfold cols; cbn [app]; now rewrite <- !app_assoc).
    now apply slice_60.
Qed.

Definition joined (e : ascii * list str) (j : str) : Prop :=
  exists cnt, split_ws j = [fst e] :: cnt :: snd e /\ py_int cnt = Ok (Z.of_nat (length (snd e))).
Lemma table_join table lines : table_lines table lines -> exists ls, Forall2 (fun line l => line = l ++ [nl] /\ no_nl l) lines ls /\
  exists js, Forall2 joined table js /\ forall acc tail, join_lines acc (ls ++ tail) = join_lines (rev js ++ acc) tail.
Proof.
  intros [parts [-> HF]]. induction HF as [|e p table parts H0 H1 IH].
  - exists []. split; [constructor|]. exists []. split; [constructor|]. reflexivity.
  - destruct (sys_lines_join _ _ _ H0) as [ls0 [F0 [j [cnt [J1 [J2 J3]]]]]]. destruct IH as [ls [F1 [js [G1 G2]]]].
    exists (ls0 ++ ls). split; [cbn [concat]; now apply Forall2_app|].
    exists (j :: js). split; [constructor; [exists cnt; auto|exact G1]|].
    intros acc tail. rewrite <- app_assoc, J3, G2. cbn [rev]. now rewrite <- app_assoc.
Qed.
Lemma split_lines lines ls : Forall2 (fun line l => line = l ++ [nl] /\ no_nl l) lines ls -> split_on nl (concat lines) = ls ++ [[]].
Proof.
  induction 1 as [|line l lines ls [-> Hn] Hr IH]; [reflexivity|]. cbn [concat]. rewrite <- app_assoc. cbn [app].
  rewrite split_on_line by exact Hn. now rewrite IH.
Qed.

(** ** adding to the table *)
Lemma mapM_map {A B} (f : A -> res B) (g : A -> B) l : Forall (fun a => f a = Ok (g a)) l -> mapM f l = Ok (map g l).
Proof. induction 1 as [|a l Ha Hl IH]; [reflexivity|]. cbn [mapM map]. rewrite Ha, IH. reflexivity. Qed.
Lemma fix_bds_code v c : valid_code c -> ver_ge302 v = true -> fix_bds c = Ok (read_code v "C" c).
Proof.
  intros [a [b [d [-> [Ha [Hd _]]]]]] Hv. unfold fix_bds. cbn [char_at nth_error of_option bind].
  change ceqb with Ascii.eqb. unfold read_code. destruct v; try discriminate; cbn [Ascii.eqb Bool.eqb andb];
  (destruct (Ascii.eqb_spec b "1") as [->|Hb]; [|reflexivity]; cbn [replace_c map]; change ceqb with Ascii.eqb;
   destruct (Ascii.eqb_spec a "1"); [congruence|]; destruct (Ascii.eqb_spec d "1"); [congruence|]; reflexivity).
Qed.
Lemma read_code_other v sys c : ver_ge302 v && seqb [sys] sys_bds = false -> read_code v sys c = c.
Proof.
  intros H. destruct c as [|a [|b [|d [|]]]]; destruct v; try reflexivity; cbn [ver_ge302 andb] in H;
  apply seqb_neq in H; unfold read_code; (destruct (Ascii.eqb_spec sys "C") as [->|]; [exfalso; now apply H|reflexivity]).
Qed.
Lemma dict_set_app {V} (k : str) (x : V) d : dict_get seqb k d = None -> dict_set seqb k x d = d ++ [(k, x)].
Proof.
  induction d as [|[k' y] d IH]; intros H; [reflexivity|]. cbn [dict_get dict_set app] in *.
  destruct (seqb k k'); [discriminate|]. now rewrite IH.
Qed.
Lemma dict_get_app_none {V} (k : str) d (d' : list (str * V)) : dict_get seqb k (d ++ d') = match dict_get seqb k d with Some x => Some x | None => dict_get seqb k d' end.
Proof. induction d as [|[k' y] d IH]; [reflexivity|]. cbn [dict_get app]. destruct (seqb k k'); auto. Qed.

Lemma add_joined v e j tab : joined e j -> Forall valid_code (snd e) -> dict_get seqb [fst e] tab = None ->
  add_sno v j tab = Ok (tab ++ [([fst e], map (read_code v (fst e)) (snd e))]).
Proof.
  intros [cnt [Hs Hc]] Hv Hn. unfold add_sno. rewrite Hs, Hc. cbn [bind].
  assert (Ht : (if ver_ge302 v && seqb [fst e] sys_bds then mapM fix_bds (snd e) else Ok (snd e)) = Ok (map (read_code v (fst e)) (snd e))).
  { destruct (ver_ge302 v && seqb [fst e] sys_bds) eqn:E.
    - apply andb_prop in E. destruct E as [E1 E2]. apply seqb_eq in E2. inversion E2 as [E3]. rewrite E3 in *. apply mapM_map.
      eapply Forall_impl; [|exact Hv]. intros c Hcv. now apply fix_bds_code.
    - f_equal. symmetry. rewrite <- (map_id (snd e)) at 2. apply map_ext. intros c. now apply read_code_other. }
  rewrite Ht. cbn [bind]. rewrite map_length, Z.eqb_refl. cbn [negb]. unfold dict_mem. rewrite Hn. now rewrite dict_set_app.
Qed.
Lemma sys_lines_codes sys codes lines : sys_lines sys codes lines -> Forall valid_code codes.
Proof.
  intros H. destruct H as [sys tn cs rest pad line lines Hsys Hcs Hfull Htn Hv Hpad Hline Hr].
  apply Forall_app. split; [exact Hv|]. clear -Hr. induction Hr as [|cs rest pad line lines Hcs Hfull Hv Hpad Hline Hr IH]; [constructor|].
  apply Forall_app. auto.
Qed.

Lemma add_all v table js : Forall2 joined table js -> Forall (fun e => Forall valid_code (snd e)) table ->
  forall done, NoDup (map fst (done ++ table)) -> 
  add_snos v js (tab_of (read_table v done)) = Ok (tab_of (read_table v (done ++ table))).
Proof.
  induction 1 as [|e j table js H0 H1 IH]; intros Hv done Hn.
  - now rewrite app_nil_r.
  - inversion Hv as [|x y Hx Hy]; subst. cbn [add_snos].
    rewrite (add_joined v e j); [|exact H0|exact Hx|].
    + cbn [bind]. replace (tab_of (read_table v done) ++ [([fst e], map (read_code v (fst e)) (snd e))]) with (tab_of (read_table v (done ++ [e]))).
      2:{ unfold tab_of, read_table. rewrite !map_app. reflexivity. }
      rewrite IH; [now rewrite <- app_assoc|exact Hy|]. now rewrite <- app_assoc.
    + apply tab_of_none. intros Hin. unfold read_table in Hin. rewrite map_map in Hin. cbn [fst] in Hin.
      rewrite map_app in Hn. cbn [map] in Hn. apply NoDup_remove_2 in Hn. apply Hn. apply in_or_app. now left.
Qed.

Lemma set_sno_table v table lines : table_lines table lines -> NoDup (map fst table) ->
  set_sno v (concat lines) [] = Ok (tab_of (read_table v table)).
Proof.
  intros Ht Hn. destruct (table_join _ _ Ht) as [ls [F [js [J1 J2]]]].
  unfold set_sno. change "010"%char with nl. rewrite (split_lines _ _ F), J2. rewrite app_nil_r. cbn [join_lines bind]. rewrite rev_involutive.
  apply (add_all v table js J1) with (done := []); [|exact Hn].
  destruct Ht as [parts [_ HF]]. clear -HF. induction HF as [|e p table parts H0 H1 IH]; constructor; [|exact IH].
  eapply sys_lines_codes. exact H0.
Qed.

Lemma labelled_filter header sel : labelled sno_text header sel -> filter (fun l => seqb sno_label (line_label l)) header = sel.
Proof.
  induction 1 as [|l ls sel Hl Hr IH|l ls sel Hl Hr IH]; [reflexivity| |]; cbn [filter].
  - rewrite (has_label_label _ _ eq_refl Hl). unfold sno_text, sno_label. rewrite seqb_refl. f_equal. exact IH.
  - destruct (seqb sno_label (line_label l)) eqn:E; [|exact IH]. apply seqb_eq in E. exfalso. apply Hl. apply label_has; [discriminate|now rewrite <- E].
Qed.

(** the header is read back *)
Lemma header3_read v header sel table h : labelled sno_text header sel -> table_lines table sel -> NoDup (map fst table) ->
  parse_header v header hdr0 = Ok h -> parse_header3 v header (mkObj3 hdr0 []) = Ok (mkObj3 h (tab_of (read_table v table))).
Proof.
  intros Hl Ht Hn Hh. unfold parse_header3. cbn [o3_hdr o3_tab]. rewrite Hh. cbn [bind]. rewrite (labelled_filter _ _ Hl), (set_sno_table v _ _ Ht Hn). reflexivity.
Qed.
