(** Output rows: proofs. *)
From Coq Require Import Reals Lra ZifyBool ZifyNat Permutation Sorted.
From Flocq Require Import Core.Core IEEE754.BinarySingleNaN.
From Verif Require Import Base PyStr PyFloat PyDate M_Common M_Header M_Obs2 M_Label M_Rec S_Text S_Time S_Label S_Rec
  P_Str P_Float P_Sec P_Label P_Div P_Tsn.
Open Scope nat_scope.

Lemma pad_blanks w s : exists b, pad_left " "%char w s = b ++ s /\ blanks b /\ w <= List.length (pad_left " "%char w s) /\
  (b = [] \/ List.length (pad_left " "%char w s) = w).
Proof.
  unfold pad_left, repeat_c. exists (repeat " "%char (w - List.length s)). split; [reflexivity|].
  rewrite app_length, repeat_length. split.
  - apply Forall_forall. intros c Hc. now apply repeat_spec in Hc.
  - split; [lia|]. destruct (Nat.le_gt_cases w (List.length s)).
    + left. replace (w - List.length s) with 0 by lia. reflexivity.
    + right. lia.
Qed.
Lemma int_cell_ok w z : int_cell w (pad_left " "%char w (z_str z)) z.
Proof.
  destruct (pad_blanks w (z_str z)) as [b [E [Hb [Hl1 Hl2]]]]. unfold z_str in *. destruct (z <? 0)%Z eqn:Hz.
  - destruct (nat_str_spec (- z)) as [H1 [H2 [H3 _]]]; [lia|]. exists b, true, (nat_str (- z)). rewrite E. repeat split; try assumption.
    + rewrite H3. lia.
    + now rewrite <- E.
    + now rewrite <- E.
  - destruct (nat_str_spec z) as [H1 [H2 [H3 _]]]; [lia|]. exists b, false, (nat_str z). rewrite E. repeat split; try assumption.
    + now rewrite H3.
    + now rewrite <- E.
    + now rewrite <- E.
Qed.

Lemma fmt_f_fixed k x : good x -> exists s q, fmt_f k x = fixed_str s q k /\ (0 <= q)%Z /\
  (Rabs (sgn s * IZR q / IZR (10 ^ Z.of_nat k) - f2r x) <= / 2 / IZR (10 ^ Z.of_nat k))%R.
Proof.
  intros [_ Hf]. assert (Ht : (0 < IZR (10 ^ Z.of_nat k))%R) by (apply IZR_lt, Z.pow_pos_nonneg; lia).
  set (T := IZR (10 ^ Z.of_nat k)) in *.
  destruct x as [s|s| |s m e]; try discriminate.
  - exists s, 0%Z. cbn [fmt_f SF2R]. split; [reflexivity|]. split; [lia|].
    replace (sgn s * 0 / T - 0)%R with 0%R by (field; lra). rewrite Rabs_R0.
    apply Rmult_le_pos; [lra|]. left. now apply Rinv_0_lt_compat.
  - exists s, (scaled m e (Z.of_nat k)). cbn [fmt_f]. split; [reflexivity|]. rewrite scaled_correct by lia.
    set (y := (IZR (Z.pos m) * bpow radix2 e * IZR (10 ^ Z.of_nat k))%R).
    assert (Hy : (0 <= y)%R). { unfold y. apply Rmult_le_pos; [apply Rmult_le_pos; [apply IZR_le; lia|apply bpow_ge_0]|]. fold T. lra. }
    assert (Hn : (Rabs (y - IZR (ZnearestE y)) <= / 2)%R) by apply Znearest_half.
    split.
    + apply (Z.le_trans _ (Zfloor y)); [|apply Znearest_ge_floor]. apply Zfloor_lub. exact Hy.
    + rewrite SF2R_finite. fold T in y.
      replace (sgn s * IZR (ZnearestE y) / T - sgn s * (IZR (Z.pos m) * bpow radix2 e))%R with (sgn s * ((IZR (ZnearestE y) - y) / T))%R.
      2:{ unfold y. field. lra. }
      rewrite sgn_abs. unfold Rdiv. rewrite Rabs_mult, (Rabs_pos_eq (/ T)) by (left; now apply Rinv_0_lt_compat).
      apply Rmult_le_compat_r; [left; now apply Rinv_0_lt_compat|]. rewrite Rabs_minus_sym. exact Hn.
Qed.

Lemma real_cell_ok b w k x : good x -> 0 < k ->
  real_cell w k (pad_left " "%char w ((if b : bool then [" "%char] else []) ++ fmt_f k x)) (f2r x).
Proof.
  intros Hg Hk. destruct (fmt_f_fixed k x Hg) as [s [q [E [Hq Hr]]]]. rewrite E.
  set (t := (if b then [" "%char] else []) ++ fixed_str s q k).
  destruct (pad_blanks w t) as [b' [E' [Hb' [Hl _]]]]. unfold fixed_str in t. destruct k as [|k']; [lia|]. set (k := S k') in *.
  assert (Ht : (0 < 10 ^ Z.of_nat k)%Z) by (apply Z.pow_pos_nonneg; lia).
  destruct (nat_str_spec (q / 10 ^ Z.of_nat k)) as [H1 [H2 [H3 _]]]; [apply Z.div_pos; lia|].
  destruct (pad_left_digits k (q mod 10 ^ Z.of_nat k)) as [H4 [H5 H6]]; [apply Z.mod_pos_bound; exact Ht|lia|].
  exists (b' ++ (if b then [" "%char] else [])), s, (nat_str (q / 10 ^ Z.of_nat k)), (pad_left "0"%char k (nat_str (q mod 10 ^ Z.of_nat k))).
  split; [rewrite E'; unfold t; rewrite <- !app_assoc; reflexivity|].
  split. { apply Forall_app. split; [exact Hb'|]. destruct b; repeat constructor. }
  split; [exact H1|]. split; [exact H2|]. split; [exact H4|]. split; [exact H5|]. split; [exact Hl|].
  rewrite dec_value_app, H5, H3, H6. unfold dec_real.
  replace (q / 10 ^ Z.of_nat k * 10 ^ Z.of_nat k + q mod 10 ^ Z.of_nat k)%Z with q by (pose proof (Z.div_mod q (10 ^ Z.of_nat k)); lia).
  rewrite (pow_IZR 10 k). exact Hr.
Qed.

(** ** the table of fields *)
Definition entry_ok (src : source) (d : field_def) : Prop :=
  let '(i, sp, _) := d in
  match src with
  | FromTsn => i = 0 /\ sp = FInt 11
  | FromHour => i = 1 /\ sp = FFix false 14 11
  | FromDatetime => i = 2 /\ sp = FText
  | FromRecord q => exists j, i = 3 + j /\ nth_error chunk_order j = Some q /\
      match layout q with (w, None) => sp = FInt w | (w, Some k) => 0 < k /\ exists b, sp = FFix b w k end
  end.
Ltac show_field :=
  lazymatch goal with
  | |- shows _ FromTsn => exact sh_tsn | |- shows _ FromHour => exact sh_hour | |- shows _ FromDatetime => exact sh_datetime
  | |- shows _ (FromRecord QEl) => exact sh_el | |- shows _ (FromRecord QAz) => exact sh_az | |- shows _ (FromRecord QValidity) => exact sh_validity
  | |- shows _ (FromRecord (QObs ?o)) => apply (sh_obs o); cbn; tauto
  | |- shows _ (FromRecord (QLli ?o)) => apply (sh_lli o); cbn; tauto
  | |- shows _ (FromRecord (QTec ?o)) => exact (sh_tec o)
  | |- shows _ (FromRecord (QSat ?o)) => exact (sh_sat o)
  | |- shows _ (FromRecord (QSite ?o)) => exact (sh_site o)
  end.
Lemma format_def_ok : Forall (fun fd => exists src, shows (fst fd) src /\ entry_ok src (snd fd)) format_def.
Proof.
  unfold format_def.
  Ltac entry := lazymatch goal with
    | |- exists src, shows (fst (_, (0, _, _))) _ /\ _ => exists FromTsn
    | |- exists src, shows (fst (_, (1, _, _))) _ /\ _ => exists FromHour
    | |- exists src, shows (fst (_, (2, _, _))) _ /\ _ => exists FromDatetime
    | |- exists src, shows (fst (_, (S (S (S ?j)), _, _))) _ /\ _ =>
      let q := eval vm_compute in (nth j chunk_order QEl) in exists (FromRecord q)
    end;
    split; [cbn [fst snd]; show_field|
      cbn [snd entry_ok]; first [split; reflexivity | eexists; split; [reflexivity|]; split; [reflexivity|]; cbn;
        first [reflexivity|split; [lia|eexists; reflexivity]]]].
  repeat (constructor; [entry|]). constructor.
Qed.
Lemma lookup_ok f d : lookup_field f = Ok d -> exists src, shows f src /\ entry_ok src d.
Proof.
  unfold lookup_field, of_option. destruct (dict_get seqb f format_def) as [d'|] eqn:E; [|discriminate]. intros [= <-].
  assert (Hin : In (f, d') format_def).
  { revert E. generalize format_def. induction l as [|[k v] l IH]; cbn; [discriminate|]. destruct (seqb f k) eqn:Ek.
    - apply seqb_eq in Ek. subst. intros [= <-]. now left.
    - intros H. right. now apply IH. }
  pose proof (proj1 (Forall_forall _ _) format_def_ok _ Hin) as H. exact H.
Qed.

(** ** one row *)
Lemma format_cell dtx t iv n x q f d vals : valid_datetime t -> tsn_of t iv = Ok n -> good x ->
  (Rabs (f2r x - hours t) <= / 10 ^ 13)%R -> (forall qq, typed qq (q qq)) ->
  vals = VInt n :: VFloat x :: VStr (dtx t) :: map none_to_0 (data_chunk q) -> lookup_field f = Ok d ->
  exists v c, nth_error vals (fst (fst d)) = Some v /\ format_val (snd (fst d)) v = Ok c /\ cell_of dtx t n q f c.
Proof.
  intros Ht Htsn Hg Hx Hq -> Hl. destruct (lookup_ok f d Hl) as [src [Hs He]]. destruct d as [[i sp] fo]. cbn [fst snd].
  destruct src as [| | |qq]; cbn [entry_ok] in He.
  - destruct He as [-> ->]. exists (VInt n). eexists. split; [reflexivity|]. split; [reflexivity|]. apply co_tsn; [exact Hs|apply int_cell_ok].
  - destruct He as [-> ->]. exists (VFloat x). eexists. split; [reflexivity|]. split; [reflexivity|].
    apply co_hour with (x := f2r x); [exact Hs| |exact Hx]. change (false && negb (is_neg x)) with false.
    apply (real_cell_ok false); [exact Hg|lia].
  - destruct He as [-> ->]. exists (VStr (dtx t)), (dtx t). split; [reflexivity|]. split; [reflexivity|]. now apply co_dt.
  - destruct He as [j [-> [Hj Hsp]]]. exists (none_to_0 (q qq)).
    assert (Hnth : nth_error (VInt n :: VFloat x :: VStr (dtx t) :: map none_to_0 (data_chunk q)) (3 + j) = Some (none_to_0 (q qq))).
    { cbn [Nat.add nth_error]. unfold data_chunk. rewrite map_map. rewrite nth_error_map, Hj. reflexivity. }
    specialize (Hq qq). destruct (layout qq) as [w [k|]] eqn:El.
    + destruct Hsp as [Hk [b ->]]. destruct (q qq) as [[z|y|s]|] eqn:Ev; cbn [none_to_0 typed] in *; try contradiction.
      * destruct (float_of_Z_correct z Hq) as [Gz Rz]. eexists. split; [exact Hnth|]. split; [reflexivity|].
        apply co_real with (q := qq) (k := k) (x := IZR z); [exact Hs|now rewrite El|now rewrite Ev|]. rewrite El. cbn [fst].
        rewrite <- Rz. now apply real_cell_ok.
      * destruct Hq as [_ Gy]. eexists. split; [exact Hnth|]. split; [reflexivity|].
        apply co_real with (q := qq) (k := k) (x := f2r y); [exact Hs|now rewrite El|now rewrite Ev|]. rewrite El. cbn [fst].
        now apply real_cell_ok.
      * destruct (float_of_Z_correct 0 ltac:(lia)) as [Gz Rz]. eexists. split; [exact Hnth|]. split; [reflexivity|].
        apply co_real with (q := qq) (k := k) (x := 0%R); [exact Hs|now rewrite El|now rewrite Ev|]. rewrite El. cbn [fst].
        rewrite <- Rz. now apply real_cell_ok.
    + subst sp. destruct (q qq) as [[z|y|s]|] eqn:Ev; cbn [none_to_0 typed] in *; try contradiction.
      * eexists. split; [exact Hnth|]. split; [reflexivity|].
        apply co_int with (q := qq) (z := z); [exact Hs|now rewrite El|now rewrite Ev|]. rewrite El. apply int_cell_ok.
      * rewrite El in Hq. cbn in Hq. destruct Hq as [Hq _]. contradiction.
      * eexists. split; [exact Hnth|]. split; [reflexivity|].
        apply co_int with (q := qq) (z := 0%Z); [exact Hs|now rewrite El|now rewrite Ev|]. rewrite El. apply int_cell_ok.
Qed.

Lemma join_row cs : cs <> [] -> row_of cs (join_blank cs ++ [nl]).
Proof.
  induction cs as [|c cs IH]; [congruence|intros _]. destruct cs as [|c' cs]; [constructor|].
  cbn [join_blank]. rewrite <- app_assoc. cbn [app]. apply ro_more. apply IH. discriminate.
Qed.

Lemma compose_inv dtlen fields rf : compose_rec_format dtlen fields = Ok rf ->
  exists ds, Forall2 (fun f d => lookup_field f = Ok d) (rf_fields rf) ds /\ rf_specs rf = map fst ds /\ ds <> [].
Proof.
  unfold compose_rec_format. cbv zeta. set (names := if existsb _ _ then _ else _). destruct names as [|f0 r]; [discriminate|].
  destruct (lookup_field f0) as [d0|] eqn:E0; [|discriminate]. cbn [bind].
  destruct (mapM lookup_field r) as [ds|] eqn:E1; [|discriminate]. cbn [bind]. intros [= <-]. cbn [rf_fields rf_specs].
  exists (d0 :: ds). split; [|split; [reflexivity|discriminate]]. constructor; [exact E0|].
  revert ds E1. induction r as [|f r IH]; cbn [mapM]; intros ds E1; [injection E1 as <-; constructor|].
  destruct (lookup_field f) as [d|] eqn:Ef; [|discriminate]. cbn [bind] in E1. destruct (mapM lookup_field r) as [ds'|]; [|discriminate].
  injection E1 as <-. constructor; [exact Ef|now apply IH].
Qed.

Lemma row_ok dtlen fields rf dtx t iv q0 q : compose_rec_format dtlen fields = Ok rf -> valid_datetime t ->
  interval_ms iv q0 -> (1 <= q0 < 10 ^ 9)%Z -> (forall qq, typed qq (q qq)) ->
  exists n cells row, row_text rf dtx iv t q = Ok row /\ row_of cells row /\ serial_ok n (us_of_day t) q0 /\
    Forall2 (cell_of dtx t n q) (rf_fields rf) cells.
Proof.
  intros Hc Ht Hiv Hq0 Hq. destruct (tsn_ok t iv q0 Ht Hiv Hq0) as [n [En Hn]]. destruct (hour_ok t Ht) as [x [Ex [Gx Hx]]].
  destruct (compose_inv _ _ _ Hc) as [ds [Hds [Hs Hne]]].
  set (vals := VInt n :: VFloat x :: VStr (dtx t) :: map none_to_0 (data_chunk q)).
  assert (H : exists cells, format_cells (rf_specs rf) vals = Ok cells /\ Forall2 (cell_of dtx t n q) (rf_fields rf) cells).
  { rewrite Hs. clear Hne Hs Hc. induction Hds as [|f d fs ds Hd Hds IH]; [exists []; split; [reflexivity|constructor]|].
    destruct IH as [cells [IH1 IH2]].
    destruct (format_cell dtx t iv n x q f d vals Ht En Gx Hx Hq eq_refl Hd) as [v [c [H1 [H2 H3]]]].
    exists (c :: cells). destruct d as [[i sp] fo]. cbn [fst snd map format_cells] in *. rewrite H1. cbn [of_option bind]. rewrite H2. cbn [bind].
    rewrite IH1. split; [reflexivity|]. now constructor. }
  destruct H as [cells [H1 H2]]. exists n, cells, (join_blank cells ++ [nl]). split.
  - unfold row_text. rewrite En. cbn [bind]. rewrite Ex. cbn [bind]. unfold format_row. fold vals. rewrite H1. reflexivity.
  - split; [|split; assumption]. apply join_row. inversion Hds; subst; [congruence|]. inversion H2; subst; [|discriminate].
    exfalso. congruence.
Qed.

Lemma names_sorted : sort_str (map fst format_def) = sort_str field_names.
Proof. vm_compute. reflexivity. Qed.
Lemma lookup_names f : (exists d, lookup_field f = Ok d) <-> In f field_names.
Proof.
  transitivity (In f (map fst format_def)).
  - unfold lookup_field. generalize format_def. induction l as [|[k v] l IH]; cbn; [split; [intros [d H]; discriminate|contradiction]|].
    destruct (seqb f k) eqn:E.
    + apply seqb_eq in E. subst. split; [auto|intros _; exists v; reflexivity].
    + rewrite IH. apply seqb_neq in E. split; [auto|]. intros [H|H]; [subst; contradiction|exact H].
  - split; intros H.
    + apply (Permutation_in _ (Permutation_sym (sort_perm field_names))). rewrite <- names_sorted. apply (Permutation_in _ (sort_perm _)). exact H.
    + apply (Permutation_in _ (Permutation_sym (sort_perm (map fst format_def)))). rewrite names_sorted. apply (Permutation_in _ (sort_perm _)). exact H.
Qed.
Lemma mapM_lookup fs : (Forall (fun f => In f field_names) fs <-> exists ds, mapM lookup_field fs = Ok ds) /\
  (forall e, mapM lookup_field fs = Err e -> e = CfgError).
Proof.
  induction fs as [|f fs [IH1 IH2]]; cbn [mapM].
  - split; [|discriminate]. split; [intros _; eexists; reflexivity|constructor].
  - destruct (lookup_field f) as [d|e0] eqn:E; cbn [bind].
    + assert (Hin : In f field_names) by (apply lookup_names; eauto).
      destruct (mapM lookup_field fs) as [ds|e'] eqn:E'; cbn [bind].
      * split; [|discriminate]. split; [eauto|]. intros _. constructor; [exact Hin|]. apply IH1. eauto.
      * split; [|intros e [= <-]; now apply IH2]. split; [|intros [ds H]; discriminate]. intros H. inversion H; subst. apply IH1 in H3. destruct H3. discriminate.
    + split.
      * split; [|intros [ds H]; discriminate]. intros H. inversion H; subst. apply lookup_names in H2. destruct H2. congruence.
      * intros e [= <-]. unfold lookup_field, of_option in E. destruct (dict_get seqb f format_def); congruence.
Qed.

Lemma all_dec fields : existsb (seqb (lit "all")) fields = true <-> In (lit "all") fields.
Proof.
  rewrite existsb_exists. split.
  - intros [x [H1 H2]]. apply seqb_eq in H2. now subst.
  - intros H. exists (lit "all"). split; [exact H|apply seqb_refl].
Qed.

Lemma compose_names dtlen fields : fields <> [] -> ~ In (lit "all") fields ->
  match compose_rec_format dtlen fields with
  | Ok rf => rf_fields rf = fields /\ Forall (fun f => In f field_names) fields
  | Err e => e = CfgError /\ ~ Forall (fun f => In f field_names) fields
  end.
Proof.
  intros Hne Hall. unfold compose_rec_format. destruct (existsb (seqb (lit "all")) fields) eqn:E; [apply all_dec in E; contradiction|].
  cbv zeta. destruct fields as [|f fs]; [congruence|]. destruct (mapM_lookup (f :: fs)) as [H1 H2]. cbn [mapM] in *.
  destruct (lookup_field f) as [d|e]; cbn [bind] in *.
  - destruct (mapM lookup_field fs) as [ds|e]; cbn [bind] in *.
    + split; [reflexivity|]. apply H1. eauto.
    + split; [now apply H2|]. intros H. apply H1 in H. destruct H. discriminate.
  - split; [now apply H2|]. intros H. apply H1 in H. destruct H. discriminate.
Qed.
Lemma sorted_list_spec l : Permutation l (sort_str l) /\ StronglySorted str_le (sort_str l).
Proof.
  split; [apply sort_perm|]. pose proof (sort_sorted l) as H. induction H; constructor; assumption.
Qed.
Lemma compose_all dtlen fields : In (lit "all") fields -> exists rf, compose_rec_format dtlen fields = Ok rf /\
  Permutation field_names (rf_fields rf) /\ StronglySorted str_le (rf_fields rf).
Proof.
  intros Hall. apply all_dec in Hall. unfold compose_rec_format. rewrite Hall. rewrite names_sorted.
  pose proof (sorted_list_spec field_names) as Hs. revert Hs.
  destruct (mapM_lookup (sort_str field_names)) as [[H _] _].
  assert (Hf : Forall (fun f => In f field_names) (sort_str field_names)).
  { apply Forall_forall. intros f Hf. apply (Permutation_in _ (Permutation_sym (sort_perm _))). exact Hf. }
  specialize (H Hf). cbv zeta. destruct (sort_str field_names) as [|f fs] eqn:E; [vm_compute in E; discriminate|].
  cbn [mapM] in H. intros [Hp Hs]. destruct (lookup_field f) as [d|]; [|destruct H; discriminate]. cbn [bind] in *.
  destruct (mapM lookup_field fs) as [ds|]; [|destruct H; discriminate]. cbn [bind]. eexists. split; [reflexivity|]. cbn [rf_fields]. split; assumption.
Qed.

(** ** Fortran format *)
Definition odd_fields : list str := [lit "site.l"; lit "site.b"; lit "site.h"].
Lemma describes_ok dtlen : Forall (fun fd => In (fst fd) odd_fields \/ describes dtlen (fst fd) (fortran_of dtlen (snd fd))) format_def.
Proof.
  unfold format_def.
  Ltac dentry := lazymatch goal with
    | |- _ \/ describes _ (fst (_, (0, _, _))) _ => right; apply des_tsn; [show_field|exact (de_int 11)]
    | |- _ \/ describes _ (fst (_, (1, _, _))) _ => right; apply des_hour; [show_field|exact (de_fix 14 11)]
    | |- _ \/ describes _ (fst (_, (2, _, _))) _ => right; apply des_dt; show_field
    | |- _ \/ describes _ (fst (_, (S (S (S ?j)), _, _))) _ =>
      first [left; cbn; tauto | right;
      let q := eval vm_compute in (nth j chunk_order QEl) in apply (des_rec _ _ _ q); [cbn [fst]; show_field|];
      let w := eval vm_compute in (fst (layout q)) in
      let k := eval vm_compute in (snd (layout q)) in
      lazymatch k with None => exact (de_int w) | Some ?k => exact (de_fix w k) end]
    end.
  repeat (constructor; [dentry|]). constructor.
Qed.
Lemma fortran_ok dtlen fields rf : compose_rec_format dtlen fields = Ok rf -> (forall f, In f odd_fields -> ~ In f (rf_fields rf)) ->
  exists ds s, rf_fortran rf = "("%char :: s ++ [")"%char] /\ descriptor_list ds s /\ Forall2 (describes dtlen) (rf_fields rf) ds.
Proof.
  unfold compose_rec_format. cbv zeta. set (names := if existsb _ _ then _ else _). destruct names as [|f0 r]; [discriminate|].
  assert (Hd : forall f d, lookup_field f = Ok d -> ~ In f odd_fields -> describes dtlen f (fortran_of dtlen d)).
  { intros f d Hl Hn. unfold lookup_field, of_option in Hl. destruct (dict_get seqb f format_def) as [d'|] eqn:E; [|discriminate]. injection Hl as <-.
    assert (Hin : In (f, d') format_def).
    { revert E. generalize format_def. induction l as [|[k v] l IH]; cbn; [discriminate|]. destruct (seqb f k) eqn:Ek.
      - apply seqb_eq in Ek. subst. intros [= <-]. now left.
      - intros H. right. now apply IH. }
    destruct (proj1 (Forall_forall _ _) (describes_ok dtlen) _ Hin) as [H|H]; [contradiction|exact H]. }
  destruct (lookup_field f0) as [d0|] eqn:E0; [|discriminate]. cbn [bind].
  destruct (mapM lookup_field r) as [ds|] eqn:E1; [|discriminate]. cbn [bind]. intros [= <-] Hodd. cbn [rf_fields rf_fortran] in *.
  enough (H : exists dd s, fortran_of dtlen d0 ++ concat (map (fun d => lit ",1X," ++ fortran_of dtlen d) ds) = s /\ descriptor_list dd s /\
    Forall2 (describes dtlen) (f0 :: r) dd).
  { destruct H as [dd [s [H1 [H2 H3]]]]. exists dd, s. split; [|split; assumption]. rewrite <- H1, app_assoc. reflexivity. }
  revert f0 d0 ds E0 E1 Hodd. induction r as [|f r IH]; intros f0 d0 ds E0 E1 Hodd; cbn [mapM] in E1.
  - injection E1 as <-. exists [fortran_of dtlen d0], (fortran_of dtlen d0). cbn [map concat]. rewrite app_nil_r. split; [reflexivity|]. split; [constructor|].
    constructor; [|constructor]. apply Hd; [exact E0|]. intros H. apply (Hodd _ H). now left.
  - destruct (lookup_field f) as [d|] eqn:Ef; [|discriminate]. cbn [bind] in E1. destruct (mapM lookup_field r) as [ds'|] eqn:Er; [|discriminate].
    injection E1 as <-. destruct (IH f d ds' Ef eq_refl) as [dd [s [H1 [H2 H3]]]].
    { intros g Hg Hin. apply (Hodd g Hg). now right. }
    exists (fortran_of dtlen d0 :: dd), (fortran_of dtlen d0 ++ lit ",1X," ++ s). split.
    + cbn [map concat]. rewrite <- H1. now rewrite <- app_assoc.
    + split; [now constructor|]. constructor; [|exact H3]. apply Hd; [exact E0|]. intros H. apply (Hodd _ H). now left.
Qed.
Lemma tsn_exact t iv q k n : valid_datetime t -> interval_ms iv q -> (1 <= q < 10 ^ 9)%Z ->
  us_of_day t = (k * (q * 1000))%Z -> tsn_of t iv = Ok n -> n = k.
Proof.
  intros Ht Hi Hq E En. destruct (tsn_ok t iv q Ht Hi Hq) as [n' [E' Hn]]. rewrite E' in En. injection En as ->.
  apply (serial_exact n (us_of_day t) q k Hn); [lia|exact E].
Qed.
