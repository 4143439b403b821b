(** Proofs about the configuration reader. *)
From Verif Require Import Base PyStr PyFloat PyDate PyPath S_Text P_Str M_Common M_Rec M_Cfg S_Cfg P_Out.
Open Scope nat_scope.

Lemma split_on_absent c s : ~ In c s -> split_on c s = [s].
Proof.
  induction s as [|a s IH]; intros H; [reflexivity|]. cbn [split_on].
  destruct (ceqb a c) eqn:E; [apply ceqb_eq in E; subst; destruct H; now left|].
  rewrite IH; [reflexivity|]. intros HI; apply H; now right.
Qed.
Lemma split_on_app c a b : ~ In c a -> split_on c (a ++ c :: b) = a :: split_on c b.
Proof.
  induction a as [|x a IH]; intros H.
  - cbn [split_on app]. now rewrite ceqb_refl.
  - cbn [split_on app]. destruct (ceqb x c) eqn:E; [apply ceqb_eq in E; subst; destruct H; now left|].
    rewrite IH; [reflexivity|]. intros HI; apply H; now right.
Qed.

Lemma file_lines ls : Forall (fun l => absent newline (line_text l)) ls ->
  split_on newline (file_text ls) = match ls with [] => [[]] | _ => map line_text ls end.
Proof.
  induction ls as [|l r IH]; intros H; [reflexivity|].
  inversion H as [|? ? H1 H2]; subst. destruct r as [|l2 r].
  - cbn [file_text map]. now apply split_on_absent.
  - change (file_text (l :: l2 :: r)) with (line_text l ++ newline :: file_text (l2 :: r)).
    rewrite split_on_app by assumption. rewrite IH by assumption. reflexivity.
Qed.

Lemma drop_comment_app a t : ~ In "#"%char a -> drop_comment (a ++ "#"%char :: t) = a.
Proof.
  induction a as [|x a IH]; intros H; cbn [app drop_comment].
  - reflexivity.
  - destruct (ceqb x "#"%char) eqn:E; [apply ceqb_eq in E; subst; destruct H; now left|].
    rewrite IH; [reflexivity|]. intros HI; apply H; now right.
Qed.
Lemma drop_comment_none a : ~ In "#"%char a -> drop_comment a = a.
Proof.
  induction a as [|x a IH]; intros H; cbn [drop_comment]; [reflexivity|].
  destruct (ceqb x "#"%char) eqn:E; [apply ceqb_eq in E; subst; destruct H; now left|].
  rewrite IH; [reflexivity|]. intros HI; apply H; now right.
Qed.

Lemma white_not c w : is_space c = false -> white w -> ~ In c w.
Proof. intros Hc Hw HI. unfold white in Hw. rewrite Forall_forall in Hw. apply Hw in HI. congruence. Qed.

Lemma drop_space_white w : white w -> drop_space w = [].
Proof. unfold drop_space. induction 1 as [|c w Hc Hw IH]; [reflexivity|]. cbn [filter]. now rewrite Hc. Qed.
Lemma drop_space_solid n : Forall (fun c => is_space c = false) n -> drop_space n = n.
Proof. unfold drop_space. induction 1 as [|c w Hc Hw IH]; [reflexivity|]. cbn [filter]. rewrite Hc. cbn. now rewrite IH. Qed.
Lemma drop_space_app a b : drop_space (a ++ b) = drop_space a ++ drop_space b.
Proof. apply filter_app. Qed.

Lemma lstrip_white_nil w : white w -> lstrip w = [].
Proof. intros H. rewrite <- (app_nil_r w). now rewrite lstrip_white_app. Qed.
Lemma lstrip_rstrip s : lstrip (rstrip s) = strip s.
Proof.
  unfold strip. induction s as [|c s IH]; [reflexivity|].
  destruct (is_space c) eqn:E.
  - change (c :: s) with ([c] ++ s). assert (Hw : white [c]) by (constructor; [assumption|constructor]).
    rewrite (lstrip_white_app [c] s Hw).
    destruct (rstrip s) as [|x y] eqn:R.
    + replace (rstrip ([c] ++ s)) with (@nil ascii).
      * cbn. exact IH.
      * symmetry. destruct (rstrip_decomp s) as [w [Hs Hww]]. rewrite R in Hs. cbn in Hs. rewrite Hs.
        apply rstrip_white_nil. apply white_app; auto.
    + rewrite rstrip_app_nonnil by (rewrite R; discriminate). rewrite lstrip_white_app by assumption.
      now rewrite R.
  - rewrite (lstrip_nonspace c s E).
    rewrite (rstrip_snoc_nonspace [] c s E : rstrip (c :: s) = c :: rstrip s). now rewrite lstrip_nonspace.
Qed.
Lemma strip_rstrip s : strip (rstrip s) = strip s.
Proof. rewrite <- lstrip_rstrip. rewrite rstrip_idem. apply lstrip_rstrip. Qed.

Lemma rstrip_trimmed v : trimmed v -> rstrip v = v.
Proof.
  intros [_ H]. destruct v as [|c v]; [reflexivity|].
  destruct (nonempty_last (c :: v) ltac:(discriminate)) as [r [x E]]. unfold str in *. rewrite E.
  apply rstrip_nonspace_end. eapply H. exact E.
Qed.
Lemma lstrip_trimmed v : trimmed v -> lstrip v = v.
Proof. intros [H _]. destruct v as [|c v]; [reflexivity|]. apply lstrip_nonspace. eapply H. reflexivity. Qed.
Lemma strip_padded w1 v w2 : white w1 -> white w2 -> trimmed v -> strip (w1 ++ v ++ w2) = v.
Proof.
  intros H1 H2 Hv. unfold strip. rewrite lstrip_white_app by assumption.
  rewrite <- lstrip_rstrip with (s := v ++ w2) || idtac.
  change (rstrip (lstrip (v ++ w2))) with (strip (v ++ w2)). rewrite <- lstrip_rstrip.
  rewrite rstrip_app_white by assumption. rewrite rstrip_trimmed by assumption. now apply lstrip_trimmed.
Qed.

(** effect of a line *)
Definition apply_line (st : settings) (l : cline) : settings :=
  match l with
  | Assign _ n _ _ v _ _ =>
    match v with
    | [] => st
    | _ => match dict_get seqb n st with Some _ => dict_set seqb n (CStr v) st | None => st end
    end
  | _ => st
  end.

Lemma not_in_app {A} (x : A) a b : ~ In x a -> ~ In x b -> ~ In x (a ++ b).
Proof. intros H1 H2 H. apply in_app_or in H. tauto. Qed.

Lemma read_line_ok st l : line_ok l -> read_line st (line_text l) = Ok (apply_line st l).
Proof.
  intros [_ H]. destruct l as [w|t|w1 n w2 w3 v w4 c].
  - unfold read_line. cbn [line_text apply_line]. now rewrite rstrip_white_nil.
  - unfold read_line. cbn [line_text apply_line].
    rewrite (rstrip_snoc_nonspace [] "#"%char t eq_refl : rstrip ("#"%char :: t) = "#"%char :: rstrip t). reflexivity.
  - destruct H as [H1 [H2 [H3 [H4 [Hn [Hne [Hnh [Hv [Hve Hvh]]]]]]]]].
    set (A := w1 ++ n ++ w2).
    assert (HA : ~ In "="%char A).
    { unfold A. repeat apply not_in_app; try assumption; apply white_not; auto. }
    assert (HAh : ~ In "#"%char A).
    { unfold A. repeat apply not_in_app; try assumption; apply white_not; auto. }
    assert (HAn : drop_space A = n).
    { unfold A. rewrite !drop_space_app. rewrite (drop_space_white w1), (drop_space_white w2) by assumption. rewrite app_nil_r. cbn [app]. now apply drop_space_solid. }
    assert (HB : ~ In "="%char (w3 ++ v ++ w4)) by (repeat apply not_in_app; try assumption; apply white_not; auto).
    assert (HBh : ~ In "#"%char (w3 ++ v ++ w4)) by (repeat apply not_in_app; try assumption; apply white_not; auto).
    assert (Hline : exists B, drop_comment (rstrip (line_text (Assign w1 n w2 w3 v w4 c))) = A ++ "="%char :: B
              /\ ~ In "="%char B /\ strip B = v).
    { cbn [line_text].
      replace (w1 ++ n ++ w2 ++ ["="%char] ++ w3 ++ v ++ w4 ++ match c with Some t => "#"%char :: t | None => [] end)
        with (A ++ "="%char :: ((w3 ++ v ++ w4) ++ match c with Some t => "#"%char :: t | None => [] end))
        by (unfold A; rewrite <- !app_assoc; reflexivity).
      rewrite rstrip_snoc_nonspace by reflexivity.
      destruct c as [t|].
      - exists (w3 ++ v ++ w4). rewrite rstrip_snoc_nonspace by reflexivity.
        rewrite app_comm_cons, app_assoc. rewrite drop_comment_app.
        + split; [reflexivity|]. split; [assumption|]. now apply strip_padded.
        + apply not_in_app; [assumption|]. intros [E|E]; [discriminate|contradiction].
      - rewrite app_nil_r. exists (rstrip (w3 ++ v ++ w4)).
        destruct (rstrip_decomp (w3 ++ v ++ w4)) as [w [Ew Hw]].
        assert (Hsub : forall x, ~ In x (w3 ++ v ++ w4) -> ~ In x (rstrip (w3 ++ v ++ w4))).
        { intros x Hx HI. apply Hx. unfold str in *. rewrite Ew. apply in_or_app. now left. }
        rewrite drop_comment_none.
        + split; [reflexivity|]. split; [now apply Hsub|]. rewrite strip_rstrip. now apply strip_padded.
        + apply not_in_app; [assumption|]. intros [E|E]; [discriminate|]. revert E. now apply Hsub. }
    destruct Hline as [B [E [HBe HBs]]].
    unfold read_line. rewrite E. destruct (A ++ "="%char :: B) eqn:E2; [destruct A; discriminate|]. rewrite <- E2.
    rewrite split_on_app by assumption. rewrite split_on_absent by assumption.
    rewrite HAn, HBs. cbn [apply_line]. destruct v; [reflexivity|].
    destruct (dict_get seqb n st); reflexivity.
Qed.

Lemma read_lines_ok ls : Forall line_ok ls -> forall st,
  read_lines st (map line_text ls) = Ok (fold_left apply_line ls st).
Proof.
  induction 1 as [|l r H Hr IH]; intros st; [reflexivity|].
  cbn [map read_lines fold_left]. rewrite read_line_ok by assumption. cbn [bind]. apply IH.
Qed.

Lemma fold_get ls : forall st name,
  dict_get seqb name (fold_left apply_line ls st) =
  match dict_get seqb name st with
  | None => None
  | Some d => Some (match assigned name ls with Some v => CStr v | None => d end)
  end.
Proof.
  induction ls as [|l r IH]; intros st name.
  - cbn. now destruct (dict_get seqb name st).
  - cbn [fold_left assigned]. rewrite IH. destruct l as [w|t|w1 n w2 w3 v w4 c];
      try (cbn [apply_line]; destruct (dict_get seqb name st); [|reflexivity]; now destruct (assigned name r)).
    cbn [apply_line]. destruct v as [|v0 v].
    { destruct (dict_get seqb name st); [|reflexivity]. destruct (assigned name r); [reflexivity|]. now destruct (seqb n name). }
    destruct (seqb n name) eqn:E.
    + apply seqb_eq in E. subst n. destruct (dict_get seqb name st) as [d|] eqn:G.
      * rewrite sget_same. now destruct (assigned name r).
      * now rewrite G.
    + assert (N : name <> n) by (intros ->; rewrite seqb_refl in E; discriminate).
      destruct (dict_get seqb n st) eqn:G.
      * rewrite sget_other by assumption. destruct (dict_get seqb name st); [|reflexivity]. now destruct (assigned name r).
      * destruct (dict_get seqb name st); [|reflexivity]. now destruct (assigned name r).
Qed.

Lemma read_settings_ok ls : Forall line_ok ls ->
  exists st, read_settings (file_text ls) = Ok st /\
    forall name, dict_get seqb name st =
      match dict_get seqb name defaults with
      | None => None
      | Some d => Some (match assigned name ls with Some v => CStr v | None => d end)
      end.
Proof.
  intros H. exists (fold_left apply_line ls defaults). split; [|apply fold_get].
  unfold read_settings. change (ascii_of_nat 10) with newline. rewrite file_lines.
  - destruct ls as [|l r]; [reflexivity|]. now apply read_lines_ok.
  - eapply Forall_impl; [|exact H]. intros l [Hl _]. exact Hl.
Qed.
