(** Other files in the directories change nothing. *)
From Coq Require Import ZifyBool ZifyNat Sorting.Permutation.
From Verif Require Import Base PyStr PyFloat PyDate PyPath PyRegex M_Common M_Header M_Obs2 M_Obs3 M_Label M_Rec M_Text M_Cfg M_Names M_Xyz M_Nav M_NmUtils M_Num M_Main M_Run.
From Verif Require Import S_Text S_Names S_Main S_Run S_Alone P_Str P_Regex P_Names P_Names2 P_Names3 P_Names4 P_Run5.
Open Scope nat_scope.

Definition has_ext (name : str) : Prop := exists u x v, name = u ++ "."%char :: x ++ v /\ rinex_ext x.
Lemma ext_app p q : has_ext q -> has_ext (p ++ q).
Proof. intros [u [x [v [-> H]]]]. exists (p ++ u), x, v. split; [now rewrite app_assoc|exact H]. Qed.
Lemma app_ext p q : has_ext p -> has_ext (p ++ q).
Proof. intros [u [x [v [-> H]]]]. exists u, x, (v ++ q). split; [|exact H]. rewrite <- app_assoc. cbn [app]. now rewrite <- app_assoc. Qed.
Lemma ext_yy yy t : chars 2 yy -> digits yy -> In (lower_c t) (lit "odnghlp") -> has_ext ("."%char :: yy ++ [t]).
Proof.
  intros L D T. unfold chars in L. destruct yy as [|a [|b [|]]]; try discriminate. exists [], [a; b; t], []. split; [reflexivity|].
  right. right. exists a, b, t. inversion D as [|? ? D1 D']. inversion D' as [|? ? D2 _]. auto.
Qed.
Lemma base_ext base hat : obs_base base hat -> has_ext base.
Proof.
  intros H. destruct H as [site ddd h yy t hat L1 _ _ _ _ L2 D2 T|site src start period freq sys o ext hat _ _ _ _ _ _ _ _ _ _ _ E].
  - do 3 apply ext_app. cbn [lit app]. change (has_ext ("."%char :: yy ++ [t])). apply ext_yy; [exact L2|exact D2|]. rewrite T. destruct hat; cbn; auto.
  - do 12 apply ext_app. exists [], ext, []. split; [cbn; now rewrite app_nil_r|]. destruct hat; [right; left; exact E|left; exact E].
Qed.
Lemma obs_ext r a b : lang (RAlt (RCat fnmin_obs r) (RAlt (RCat daily_obs r) (RCat modern_obs r))) 0 a b -> has_ext a.
Proof.
  cbn [lang]. intros H.
  assert (exists a1 a2, a = a1 ++ a2 /\ exists c, lang fnmin_obs 0 a1 c \/ lang daily_obs 0 a1 c \/ lang modern_obs 0 a1 c) as [a1 [a2 [-> [c Hl]]]].
  { destruct H as [[a1 [a2 [-> [H _]]]]|[[a1 [a2 [-> [H _]]]]|[a1 [a2 [-> [H _]]]]]]; exists a1, a2; (split; [reflexivity|]); exists (a2 ++ b); auto. }
  destruct (base_lang_any a1 c Hl) as [hat Hb]. apply app_ext. exact (base_ext _ _ Hb).
Qed.
Lemma re_obs_ext name : re_test RE_OBS name = true -> has_ext name.
Proof. rewrite re_test_lang. intros [a [b [-> H]]]. apply app_ext. exact (obs_ext _ _ _ H). Qed.
Lemma re_xyz_ext name : re_test RE_XYZ name = true -> has_ext name.
Proof. rewrite re_test_lang. intros [a [b [-> H]]]. apply app_ext. exact (obs_ext _ _ _ H). Qed.
Lemma classic_nav_ext t l pos a b : In l (lit "nghlp") -> lang (classic_nav t l) pos a b -> has_ext a.
Proof.
  intros Hl. unfold classic_nav, strf_y. und. cbn [cats lang]. intros H.
  do 4 (destruct H as [? [? [-> [_ H]]]]; apply ext_app). destruct H as [? [? [-> [[dot [-> Hd]] [yy [e [-> [H5 [u [-> H6]]]]]]]]]].
  apply ci_eq in H6. fixc. cbn [app].
  assert (Hy : (0 <= dy t mod 100 < 10 ^ Z.of_nat 2)%Z) by (cbn; apply Z.mod_pos_bound; lia).
  rewrite text_num in H5 by (try assumption; lia). destruct H5 as [L [D _]].
  apply ext_yy; [exact L|exact D|]. rewrite H6. cbn in Hl. decompose [or] Hl; subst; cbn; auto 10; contradiction.
Qed.
Lemma modern_nav_ext t sys pos a b : lang (modern_nav t sys) pos a b -> has_ext a.
Proof.
  unfold modern_nav. und. cbn [cats lang]. intros H. do 15 (destruct H as [? [? [-> [_ H]]]]; apply ext_app).
  destruct H as [? [e [-> [[dot [-> Hd]] H]]]]. fixc. apply lang_text in H. exists [], e, []. split; [cbn; now rewrite app_nil_r|]. left. exact H.
Qed.
Lemma re_nav_ext t sys name : re_test (compose_navigation_re sys t) name = true -> has_ext name.
Proof.
  rewrite re_test_lang. intros [a [b [-> H]]]. apply app_ext. revert H. unfold compose_navigation_re. destruct (nav_id sys) as [l|] eqn:E; [|apply modern_nav_ext].
  intros [H|H]; [|revert H; apply modern_nav_ext]. revert H. apply classic_nav_ext.
  revert E. clear. unfold nav_id. destruct sys as [[] [] [] [] [] [] [] []]; intros E; try discriminate; injection E as <-; cbn; auto 10.
Qed.
Lemma others_filter r l l' : (forall name, re_test r name = true -> has_ext name) -> with_others l l' -> filter (re_test r) l' = filter (re_test r) l.
Proof.
  intros Hr H. induction H as [|name l l' H IH|name l l' Hn H IH]; cbn [filter]; [reflexivity|destruct (re_test r name); now rewrite IH|].
  destruct (re_test r name) eqn:E; [|exact IH]. exfalso. destruct (Hr name E) as [u [x [v [Hx He]]]]. exact (Hn u x v Hx He).
Qed.
Lemma others_find ls ls' dirs r : (forall name, re_test r name = true -> has_ext name) -> (forall d, In d dirs -> with_others (ls d) (ls' d)) ->
  find_files ls' dirs r = find_files ls dirs r.
Proof.
  intros Hr. unfold find_files. induction dirs as [|d dirs IH]; intros H; cbn [flat_map]; [reflexivity|].
  rewrite (others_filter r _ _ Hr (H d (or_introl eq_refl))), IH; [reflexivity|]. intros; apply H; now right.
Qed.
Lemma others_free save isdir w c ls f : (forall d, In d (c_obsdir c) \/ In d (c_navdir c) -> with_others (w_ls w d) (ls d)) ->
  full_main save isdir (with_ls w ls) c f = full_main save isdir w c f.
Proof.
  intros H. apply full_ls.
  - rewrite (others_find (w_ls w) ls (c_obsdir c) RE_OBS re_obs_ext (fun d Hd => H d (or_introl Hd))). apply Permutation_refl.
  - rewrite (others_find (w_ls w) ls (c_obsdir c) RE_XYZ re_xyz_ext (fun d Hd => H d (or_introl Hd))). reflexivity.
  - intros t sys. unfold find_nav_files. apply others_find; [apply re_nav_ext|]. intros d Hd. apply H. now right.
Qed.
