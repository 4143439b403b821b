(** The navigation files found do not depend on the packing. *)
From Verif Require Import Base PyStr PyFloat PyDate PyPath PyRegex M_Common M_Header M_Obs2 M_Obs3 M_Label M_Rec M_Text M_Cfg M_Names M_Xyz M_Nav M_NmUtils M_Num M_Main M_Expand.
From Verif Require Import S_Text S_Names S_Expand P_Str P_Regex P_Names P_Names2 P_Names3 P_Names4 P_Expand2.
Open Scope nat_scope.

(** patterns without end anchor do not look at what follows *)
Fixpoint no_eol (r : re) : Prop := match r with REol => False | RCat a b | RAlt a b => no_eol a /\ no_eol b | RGroup _ a => no_eol a | _ => True end.
Lemma lang_rest r : no_eol r -> forall pos a b b', lang r pos a b -> lang r pos a b'.
Proof.
  induction r; cbn [no_eol lang]; intros Hn pos a b b' H; try exact H; try contradiction.
  - destruct Hn as [N1 N2], H as [a1 [a2 [-> [H1 H2]]]]. exists a1, a2. split; [reflexivity|]. split; [exact (IHr1 N1 _ _ _ _ H1)|exact (IHr2 N2 _ _ _ _ H2)].
  - destruct Hn as [N1 N2], H as [H|H]; [left; exact (IHr1 N1 _ _ _ _ H)|right; exact (IHr2 N2 _ _ _ _ H)].
  - exact (IHr Hn _ _ _ _ H).
Qed.
(** the last two characters of a name that matches *)
Definition nav_end (a : str) : Prop := exists p x y, a = p ++ [x; y] /\ (is_digit x = true /\ In (lower_c y) (lit "nghlp") \/ lower_c x = "n"%char /\ lower_c y = "x"%char).
Lemma end_app p q : nav_end q -> nav_end (p ++ q).
Proof. intros [r [x [y [-> H]]]]. exists (p ++ r), x, y. split; [now rewrite app_assoc|exact H]. Qed.
Lemma classic_end t l pos a b : In l (lit "nghlp") -> lang (classic_nav t l) pos a b -> nav_end a.
Proof.
  intros Hl. unfold classic_nav, strf_y. cbn [cats lang]. intros H.
  do 5 (destruct H as [? [? [-> [_ H]]]]; apply end_app). destruct H as [yy [e [-> [H5 [u [-> H6]]]]]].
  assert (Hy : (0 <= dy t mod 100 < 10 ^ Z.of_nat 2)%Z) by (cbn; apply Z.mod_pos_bound; lia).
  rewrite text_num in H5 by (try assumption; lia). apply ci_eq in H6. destruct H5 as [L [D _]]. unfold chars in L.
  destruct yy as [|y1 [|y2 [|]]]; try discriminate. exists [y1], y2, u. split; [reflexivity|]. left. split.
  - apply digits_class in D. inversion D as [|? ? _ D']. inversion D' as [|? ? D2 _]. exact D2.
  - rewrite H6. cbn in Hl. decompose [or] Hl; subst; cbn; auto 10; contradiction.
Qed.
Lemma modern_end t sys pos a b : lang (modern_nav t sys) pos a b -> nav_end a.
Proof.
  unfold modern_nav. cbn [cats lang]. intros H. do 15 (destruct H as [? [? [-> [_ H]]]]; apply end_app). destruct H as [? [e [-> [_ H]]]]. apply end_app.
  apply lang_text in H. unfold lower, lit in H. cbn in H. destruct e as [|c1 [|c2 [|c3 [|]]]]; try discriminate.
  cbn in H. injection H as _ H2 H3. exists [c1], c2, c3. auto.
Qed.
Lemma nav_re_end t sys pos a b : lang (compose_navigation_re sys t) pos a b -> nav_end a.
Proof.
  unfold compose_navigation_re. destruct (nav_id sys) as [l|] eqn:E; [|apply modern_end]. intros [H|H]; [|revert H; apply modern_end]. revert H. apply classic_end.
  revert E. clear. unfold nav_id. destruct sys as [[] [] [] [] [] [] [] []]; intros E; try discriminate; injection E as <-; cbn; auto 10.
Qed.
Lemma no_eol_text s : no_eol (text s).
Proof. induction s; cbn; auto. Qed.
Lemma no_eol_rep n p : no_eol (rep n (RChr p)).
Proof. induction n; cbn; auto. Qed.
Lemma nav_re_open t sys : no_eol (compose_navigation_re sys t).
Proof.
  unfold compose_navigation_re, modern_nav, classic_nav. und. destruct (nav_id sys); cbn -[rep text]; repeat split; try apply no_eol_text; try apply no_eol_rep; exact I.
Qed.
Lemma nav_arch t sys name ext packed : arch ext packed -> re_test (compose_navigation_re sys t) (name ++ ext) = re_test (compose_navigation_re sys t) name.
Proof.
  intros Ha. apply eq_iff_eq_true. rewrite !re_test_lang. split; intros [a [b [E L]]].
  2: { exists a, (b ++ ext). split; [rewrite app_assoc; now rewrite E|]. exact (lang_rest _ (nav_re_open t sys) _ _ _ _ L). }
  assert (Hb : exists z, b = z ++ ext /\ name = a ++ z).
  { destruct packed; [|cbn in Ha; subst ext; rewrite !app_nil_r in E; exists b; now rewrite app_nil_r].
    apply nav_re_end in L. destruct L as [p [x [y [-> Hxy]]]].
    assert (Hx : lower_c x <> "."%char) by (intros X; destruct Hxy as [[D _]|[D _]]; [|congruence]; revert D X; clear; destruct x as [[] [] [] [] [] [] [] []]; vm_compute; congruence).
    assert (Hy : lower_c y <> "."%char /\ lower_c y <> "z"%char) by (destruct Hxy as [[_ D]|[_ D]]; [|rewrite D; split; discriminate]; cbn in D; decompose [or] D; try contradiction; split; congruence).
    destruct Hy as [Y1 Y2]. rewrite <- app_assoc in E. revert E. clear - Ha Hx Y1 Y2. revert name. induction p as [|c p IH]; intros name E.
    - cbn [app] in E. destruct name as [|n1 [|n2 name]]; cbn [app] in E.
      + exfalso. subst ext. unfold arch, same_ci, lower, lit in Ha. cbn in Ha. destruct Ha as [Ha|Ha]; injection Ha; congruence.
      + exfalso. injection E as -> ->. unfold arch, same_ci, lower, lit in Ha. cbn in Ha. destruct Ha as [Ha|Ha]; injection Ha; congruence.
      + injection E as -> -> <-. exists name. auto.
    - destruct name as [|n name]; cbn [app] in E.
      + exfalso. subst ext. unfold arch, same_ci, lower, lit in Ha. cbn in Ha.
        destruct Ha as [Ha|Ha]; injection Ha as _ Ha; destruct p as [|p1 [|p2 p]]; cbn in Ha; try discriminate; injection Ha; try congruence; intros; try discriminate; destruct p; discriminate.
      + injection E as -> E. destruct (IH name E) as [z [-> Hz]]. exists z. split; [reflexivity|]. cbn [app]. now rewrite Hz. }
  destruct Hb as [z [-> ->]]. exists a, z. split; [reflexivity|]. exact (lang_rest _ (nav_re_open t sys) _ _ _ _ L).
Qed.
(** two listings that correspond *)
Lemma listing_pairs t t' w w' c : repacked_dirs t t' w w' c -> nav_pairs t t' w w' c.
Proof.
  intros H ep sys. assert (G : forall s, Forall2 (nav_pair t t' (priority_of c sys)) (find_nav_files (w_ls w) (c_navdir c) ep s) (find_nav_files (w_ls w') (c_navdir c) ep s)); [|auto].
  intros s. unfold find_nav_files, find_files. revert H. unfold repacked_dirs. generalize (c_navdir c). induction l as [|d l IH]; intros H; [constructor|]. cbn [flat_map]. apply Forall2_app.
  - specialize (H sys d (or_introl eq_refl)). revert H. clear. induction 1 as [|n n' ns ns' [base [ext [ext' [packed [packed' [-> [-> [Ha [Ha' Hp]]]]]]]]] _ IH]; [constructor|].
    cbn [filter]. rewrite (nav_arch ep s base ext packed Ha), (nav_arch ep s base ext' packed' Ha'). destruct (re_test _ base); [|exact IH]. constructor; [exact Hp|exact IH].
  - apply IH. intros sy d' Hd. apply H. now right.
Qed.
