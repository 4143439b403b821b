(** End to end, part 2: the cells of a written row. *)
From Coq Require Import Reals Lra.
From Verif Require Import Base PyStr PyFloat PyDate S_Text M_Common M_Header M_Rec S_Rec P_Str P_Float P_Rec.
Open Scope nat_scope.

Lemma lit_eq a b : lit a = lit b -> a = b.
Proof.
  intros H. rewrite <- (string_of_list_ascii_of_string a), <- (string_of_list_ascii_of_string b). unfold lit in H. now rewrite H.
Qed.
Lemma app_tail_inj {A} (a b c : list A) : a ++ c = b ++ c -> a = b. Proof. apply app_inv_tail. Qed.
Lemma shows_fun f a b : shows f a -> shows f b -> a = b.
Proof.
  intros H1 H2. destruct H1 as [| | | | | |o Ho|o Ho|o|o|o];
  try (cbn in Ho; repeat destruct Ho as [<-|Ho]; try contradiction);
  inversion H2 as [E|E|E|E|E|E|o' Ho' E|o' Ho' E|o' E|o' E|o' E]; try reflexivity; try discriminate E;
  try (cbn in Ho'; repeat destruct Ho' as [<-|Ho']; try contradiction; try discriminate E; reflexivity);
  try (apply app_inv_head in E); apply lit_eq in E; subst; reflexivity.
Qed.

(** the cell of one column of a row that has been written *)
Definition column_cell (dtx : datetime -> str) (t : datetime) (q : quantity -> option pyval) (f c : str) : Prop :=
  (f = lit "datetime" -> c = dtx t) /\
  (forall qq k y, shows f (FromRecord qq) -> snd (layout qq) = Some k -> q qq = Some (VFloat y) -> good y -> real_cell (fst (layout qq)) k c (f2r y)) /\
  (forall qq k, shows f (FromRecord qq) -> snd (layout qq) = Some k -> q qq = None -> real_cell (fst (layout qq)) k c 0) /\
  (forall qq z, shows f (FromRecord qq) -> snd (layout qq) = None -> q qq = Some (VInt z) -> int_cell (fst (layout qq)) c z).
Lemma one_cell dtx t n x q f d c vals v : vals = VInt n :: VFloat x :: VStr (dtx t) :: map none_to_0 (data_chunk q) -> lookup_field f = Ok d ->
  nth_error vals (fst (fst d)) = Some v -> format_val (snd (fst d)) v = Ok c -> column_cell dtx t q f c.
Proof.
  intros -> Hl Hv Hc. destruct (lookup_ok f d Hl) as [src [Hs He]]. destruct d as [[i sp] fo]. cbn [fst snd] in *.
  assert (Hq : forall qq, shows f (FromRecord qq) -> v = none_to_0 (q qq) /\ match layout qq with (w, None) => sp = FInt w | (w, Some k) => 0 < k /\ exists b, sp = FFix b w k end).
  { intros qq Hqq. pose proof (shows_fun _ _ _ Hs Hqq) as ->. cbn [entry_ok] in He. destruct He as [j [-> [Hj Hsp]]]. split; [|exact Hsp].
    cbn [Nat.add nth_error] in Hv. unfold data_chunk in Hv. rewrite map_map, nth_error_map, Hj in Hv. cbn in Hv. congruence. }
  repeat split.
  - intros ->. pose proof (shows_fun _ _ _ Hs sh_datetime) as ->. cbn [entry_ok] in He. destruct He as [-> ->]. cbn in Hv. injection Hv as <-. cbn in Hc. congruence.
  - intros qq k y Hqq Hk Hy Gy. destruct (Hq qq Hqq) as [-> Hsp]. destruct (layout qq) as [w' k']. cbn [snd] in Hk. subst k'. cbn [fst]. destruct Hsp as [Hk [b ->]].
    rewrite Hy in Hc. cbn in Hc. injection Hc as <-. now apply real_cell_ok.
  - intros qq k Hqq Hk Hy. destruct (Hq qq Hqq) as [-> Hsp]. destruct (layout qq) as [w' k']. cbn [snd] in Hk. subst k'. cbn [fst]. destruct Hsp as [Hk [b ->]].
    rewrite Hy in Hc. cbn [none_to_0 format_val] in Hc. destruct (float_of_Z_correct 0 ltac:(lia)) as [Gz Rz]. assert (Hc' : forall A (a b : A), Ok a = Ok b -> a = b) by congruence. apply Hc' in Hc. subst c. rewrite <- Rz. apply real_cell_ok; assumption.
  - intros qq z Hqq Hk Hy. destruct (Hq qq Hqq) as [-> Hsp]. destruct (layout qq) as [w' k']. cbn [snd] in Hk. subst k'. cbn [fst]. subst sp.
    rewrite Hy in Hc. cbn in Hc. injection Hc as <-. apply int_cell_ok.
Qed.
Lemma row_cells dtlen fields rf dtx t iv q row : compose_rec_format dtlen fields = Ok rf -> row_text rf dtx iv t q = Ok row ->
  exists cells, row_of cells row /\ Forall2 (column_cell dtx t q) (rf_fields rf) cells.
Proof.
  intros Hc Hr. destruct (compose_inv _ _ _ Hc) as [ds [Hds [Hs Hne]]]. unfold row_text in Hr.
  destruct (tsn_of t iv) as [n|e]; [|destruct e; discriminate Hr]. cbn [bind] in Hr.
  destruct (hour_of t) as [x|e]; [|destruct e; discriminate Hr]. cbn [bind] in Hr. unfold format_row in Hr.
  set (vals := VInt n :: VFloat x :: VStr (dtx t) :: map none_to_0 (data_chunk q)) in *.
  destruct (format_cells (rf_specs rf) vals) as [cells|e] eqn:Ef; [|destruct e; discriminate Hr]. cbn in Hr. injection Hr as <-.
  rewrite Hs in Ef. exists cells. split.
  - apply join_row. intros ->. destruct ds as [|d ds]; [congruence|]. destruct d as [[i sp] fo]. cbn [map format_cells fst] in Ef.
    destruct (nth_error vals i); [|discriminate]. cbn [of_option bind] in Ef. destruct (format_val sp p); [|discriminate]. cbn [bind] in Ef.
    destruct (format_cells _ _); discriminate.
  - clear Hs Hne Hc. revert cells Ef. induction Hds as [|f d fs ds Hd Hds IH]; intros cells Ef.
    + injection Ef as <-. constructor.
    + destruct d as [[i sp] fo]. cbn [map format_cells fst] in Ef. destruct (nth_error vals i) as [v|] eqn:Ev; [|discriminate]. cbn [of_option bind] in Ef.
      destruct (format_val sp v) as [c|] eqn:Ec; [|discriminate]. cbn [bind] in Ef. destruct (format_cells (map fst ds) vals) as [cs|] eqn:E; [|discriminate].
      injection Ef as <-. constructor; [|now apply IH]. exact (one_cell dtx t n x q f _ c vals v eq_refl Hd Ev Ec).
Qed.
