(** Packed files read like plain ones. *)
From Verif Require Import Base PyStr PyFloat PyDate PyPath PyRegex M_Common M_Header M_Obs2 M_Obs3 M_Label M_Rec M_Text M_Cfg M_Names M_Xyz M_Nav M_NmUtils M_Num M_Tec M_Sat M_Main M_Expand.
From Verif Require Import S_Text S_Names S_NmUtils S_Main S_Expand P_Str P_Regex P_Names P_Names2 P_Names3 P_Names4 P_Names5 P_Names6 P_NmUtils2 P_Main1 P_Expand1.
Open Scope nat_scope.

Lemma plan_text t dir base ext path hat packed b raw : stored t dir base ext path hat packed b -> unpacked t hat packed b raw ->
  expand_obs t path = Ok (universal (filter is_ascii raw)).
Proof.
  intros [Hb [Ha [Hp [Hd [Hn Hf]]]]] [x [H1 H2]]. unfold expand_obs. rewrite (expand_plan_ok dir base ext hat packed path Hb Ha Hp Hd Hn). cbn [bind]. cbv zeta. rewrite Hf.
  destruct hat, packed; cbn [plan_for].
  - destruct H1 as [gz [-> <-]]. destruct H2 as [crx [-> <-]]. cbn [of_option bind expand_text of_file]. now rewrite write_ascii_ok.
  - subst x. destruct H2 as [crx [-> <-]]. cbn [of_option bind expand_text of_file]. now rewrite write_ascii_ok.
  - destruct H1 as [gz [-> <-]]. subst raw. cbn [of_option bind expand_text of_file]. now rewrite write_ascii_ok.
  - subst x raw. reflexivity.
Qed.
Lemma missing_tool t dir base ext path hat packed b : stored t dir base ext path hat packed b -> tool_missing t hat packed -> expand_obs t path = Err UncompressError.
Proof.
  intros [Hb [Ha [Hp [Hd [Hn Hf]]]]] H. unfold expand_obs. rewrite (expand_plan_ok dir base ext hat packed path Hb Ha Hp Hd Hn). cbn [bind]. cbv zeta.
  destruct H as [[-> Hz]|[-> Hz]].
  - destruct hat; cbn [plan_for]; rewrite Hz; reflexivity.
  - destruct packed; cbn [plan_for]; rewrite Hz; [destruct (t_gzip t)|]; reflexivity.
Qed.
Lemma open_content w w' name name' r : w_fuel w = w_fuel w' -> w_content w name = r -> w_content w' name' = r -> get_rinex_date name = get_rinex_date name' ->
  (exists p, expand_plan name = Ok p) -> (exists p, expand_plan name' = Ok p) -> reads_alike (open_obs w name) (open_obs w' name').
Proof.
  intros Hf H1 H2 Hd [p Hp] [p' Hp']. unfold open_obs. rewrite Hp, Hp'. cbn [bind]. rewrite H1, H2. destruct r as [lines|e]; cbn [bind]; [|reflexivity].
  destruct (obs_class (hd [] lines)) as [v|e]; cbn [bind]; [|reflexivity]. rewrite <- Hf.
  destruct (ver_lt3 v); [destruct (open2 v lines) as [r|e]|destruct (open3 (w_fuel w) v lines) as [r|e]]; cbn [bind]; try reflexivity;
    [destruct (records2 v r) as [[ys e] o]|destruct (records3 v r) as [[ys e] o]]; cbn [reads_alike b_date b_hdr b_steps b_end]; auto.
Qed.
Lemma session_word h : session h -> 1 <= List.length h <= 3 /\ word h.
Proof.
  intros [[H1 H2]|[x [mm [-> [H1 H2]]]]]; [unfold chars in H1; split; [lia|exact H2]|].
  split; [cbn in H2; decompose [or] H2; subst; try contradiction; cbn; lia|]. constructor.
  - eapply In_lower_word; [exact H1|]. now apply lit_word.
  - cbn in H2. decompose [or] H2; subst; try contradiction; repeat constructor.
Qed.
Lemma stem_bases base hat base' hat' : same_stem base hat base' hat' -> obs_base base hat /\ obs_base base' hat'.
Proof. intros H. destruct H; split; constructor; assumption. Qed.
Lemma firstn_here {A} n (a b : list A) : List.length a = n -> firstn n (a ++ b) = a.
Proof. intros <-. rewrite firstn_app, Nat.sub_diag, firstn_O, app_nil_r. apply firstn_all. Qed.
Lemma stem_date base base' ext ext' hat hat' packed packed' dir dir' path path' : same_stem base hat base' hat' -> arch ext packed -> arch ext' packed' ->
  path_of dir (base ++ ext) path -> path_of dir' (base' ++ ext') path' -> get_rinex_date path = get_rinex_date path' /\ marker_of path = marker_of path'.
Proof.
  intros Hs Ha Ha' Hp Hp'. destruct (stem_bases _ _ _ _ Hs) as [Hb Hb'].
  pose proof (basename_path dir _ path Hp (obs_name_no_slash _ _ _ _ Hb Ha)) as B. pose proof (basename_path dir' _ path' Hp' (obs_name_no_slash _ _ _ _ Hb' Ha')) as B'.
  unfold marker_of. rewrite B, B'. clear Hb Hb'.
  destruct Hs as [site ddd h yy t hat t' hat' L1 W1 L2 D2 S L3 D3 T T'|site src start period freq sys o e hat e' hat' L1 W1 R L2 D2 L3 W3 L4 W4 Y O X X'].
  - destruct (session_word h S) as [Lh Wh].
    assert (Q : forall u (k : bool) x, lower_c u = (if k then "d"%char else "o"%char) -> classic_name ((site ++ ddd ++ h ++ lit "." ++ yy ++ [u]) ++ x) yy ddd).
    { intros u k x Hu. exists site, h, u, x. split; [now rewrite <- !app_assoc|]. repeat (split; [assumption|]). rewrite Hu. destruct k; cbn; auto 10. }
    split; [|rewrite <- !app_assoc; rewrite !firstn_here by exact L1; reflexivity].
    rewrite (rinex_date_classic path _ yy ddd B (Q t hat ext T)), (rinex_date_classic path' _ yy ddd B' (Q t' hat' ext' T')). reflexivity.
  - assert (Hst : exists yyyy ddd hhmm, start = yyyy ++ ddd ++ hhmm /\ chars 4 yyyy /\ digits yyyy /\ chars 3 ddd /\ digits ddd /\ chars 4 hhmm /\ digits hhmm).
    { exists (firstn 4 start), (firstn 3 (skipn 4 start)), (skipn 3 (skipn 4 start)). rewrite !firstn_skipn. split; [reflexivity|].
      assert (F : forall n l, digits l -> digits (firstn n l) /\ digits (skipn n l)) by (intros n l H; unfold digits in *; rewrite <- (firstn_skipn n l) in H; now apply Forall_app in H).
      destruct (F 4 start D2) as [F1 F2]. destruct (F 3 _ F2) as [F3 F4]. unfold chars in *. rewrite !firstn_length, !skipn_length, L2. repeat split; try assumption. }
    destruct Hst as [yyyy [ddd [hhmm [-> Hst]]]].
    assert (Q : forall y x, modern_name ((site ++ lit "_" ++ [src] ++ lit "_" ++ (yyyy ++ ddd ++ hhmm) ++ lit "_" ++ period ++ lit "_" ++ freq ++ lit "_" ++ [sys] ++ [o] ++ lit "." ++ y) ++ x) yyyy ddd).
    { intros y x. exists site, src, hhmm, (lit "_" ++ period ++ lit "_" ++ freq ++ lit "_" ++ [sys] ++ [o] ++ lit "." ++ y ++ x). split; [now rewrite <- !app_assoc|].
      split; [exact L1|]. split; [exact W1|]. split; [exact R|]. tauto. }
    split; [|rewrite <- !app_assoc; unfold chars in L1; do 4 (destruct site as [|? site]; [discriminate|]); reflexivity].
    rewrite (rinex_date_modern path _ yyyy ddd B (Q e ext)), (rinex_date_modern path' _ yyyy ddd B' (Q e' ext')). reflexivity.
Qed.
Lemma obs_alike t t' w w' dir dir' base base' ext ext' path path' hat hat' packed packed' b b' raw : w_fuel w = w_fuel w' ->
  stored t dir base ext path hat packed b -> stored t' dir' base' ext' path' hat' packed' b' -> same_stem base hat base' hat' ->
  unpacked t hat packed b raw -> unpacked t' hat' packed' b' raw ->
  reads_alike (open_obs (tools_world t w) path) (open_obs (tools_world t' w') path') /\ marker_of path = marker_of path'.
Proof.
  intros HF S S' Hst U U'. pose proof (plan_text _ _ _ _ _ _ _ _ _ S U) as T. pose proof (plan_text _ _ _ _ _ _ _ _ _ S' U') as T'.
  destruct S as [Hb [Ha [Hp [Hd [Hn Hf]]]]], S' as [Hb' [Ha' [Hp' [Hd' [Hn' Hf']]]]].
  destruct (stem_date _ _ _ _ _ _ _ _ _ _ _ _ Hst Ha Ha' Hp Hp') as [D M]. split; [|exact M].
  apply (open_content _ _ _ _ (lines_of (Ok (universal (filter is_ascii raw))))); [exact HF|cbn [tools_world w_content]; now rewrite T|cbn [tools_world w_content]; now rewrite T'|exact D| |].
  - exists (plan_for hat packed). exact (expand_plan_ok dir base ext hat packed path Hb Ha Hp Hd Hn).
  - exists (plan_for hat' packed'). exact (expand_plan_ok dir' base' ext' hat' packed' path' Hb' Ha' Hp' Hd' Hn').
Qed.
Lemma obs_missing t w dir base ext path hat packed b : stored t dir base ext path hat packed b -> tool_missing t hat packed -> open_obs (tools_world t w) path = Err UncompressError.
Proof.
  intros S H. unfold open_obs. cbn [tools_world w_content]. rewrite (missing_tool _ _ _ _ _ _ _ _ S H). destruct S as [Hb [Ha [Hp [Hd [Hn Hf]]]]].
  rewrite (expand_plan_ok dir base ext hat packed path Hb Ha Hp Hd Hn). reflexivity.
Qed.

(** ** navigation files *)
Lemma ascii_filter s : ascii_bytes s -> filter is_ascii s = s.
Proof.
  induction s as [|c s IH]; intros H; [reflexivity|]. cbn [filter]. rewrite is_ascii_spec. assert (X : nat_of_ascii c < 128) by (apply H; now left). apply Nat.ltb_lt in X. rewrite X.
  f_equal. apply IH. intros d Hd. apply H. now right.
Qed.
Lemma packed_z path : ~ In newline_c path -> (re_test RE_Z path = true <-> packed_name path).
Proof.
  intros Hn. rewrite (re_z_lang path Hn). unfold packed_name, same_ci. split.
  - intros [p [z [-> H]]]. exists p, ("."%char :: z). split; [reflexivity|]. destruct H as [H|H]; [left|right]; unfold lower in *; cbn [map]; rewrite H; reflexivity.
  - intros [p [ext [-> H]]]. destruct H as [H|H]; (destruct ext as [|c z]; [discriminate|]); exists p, z; unfold lower, lit in *; cbn in H; injection H as Hc Hz; (split; [|auto]); do 2 f_equal;
    clear - Hc; destruct c as [[] [] [] [] [] [] [] []]; vm_compute in Hc; congruence.
Qed.
Lemma nav_plain t path raw : ~ In newline_c path -> ~ packed_name path -> t_file t path = Some raw -> ascii_bytes raw -> sane_locale t -> expand_nav t path = Ok (universal raw).
Proof.
  intros Hn Hz Hf Ha Hl. unfold expand_nav. destruct (re_test RE_Z path) eqn:E; [exfalso; apply Hz; now apply packed_z|]. cbn [negb].
  unfold read_text. rewrite Hf. cbn [of_option bind]. rewrite (Hl raw Ha). reflexivity.
Qed.
Lemma nav_packed t path b gz : ~ In newline_c path -> packed_name path -> t_file t path = Some b -> t_gzip t = Some gz -> expand_nav t path = Ok (universal (filter is_ascii (gz b))).
Proof.
  intros Hn Hz Hf Hg. unfold expand_nav. rewrite (proj2 (packed_z path Hn) Hz). cbn [negb]. rewrite Hg, Hf. cbn [of_option bind of_file]. now rewrite write_ascii_ok.
Qed.
Lemma nav_alike t t' path path' b gz raw : ~ In newline_c path -> packed_name path -> t_file t path = Some b -> t_gzip t = Some gz -> gz b = raw ->
  ~ In newline_c path' -> ~ packed_name path' -> t_file t' path' = Some raw -> sane_locale t' -> ascii_bytes raw -> expand_nav t path = expand_nav t' path'.
Proof.
  intros H1 H2 H3 H4 <- H5 H6 H7 H8 H9. rewrite (nav_packed t path b gz) by assumption. rewrite (nav_plain t' path' (gz b)) by assumption. now rewrite ascii_filter.
Qed.
Lemma name_date dir name path path' ext : path_of dir name path -> path_of dir (name ++ ext) path' -> ~ In "/"%char name -> ~ In "/"%char ext ->
  (exists yy ddd, classic_name name yy ddd \/ modern_name name yy ddd) -> get_rinex_date path = get_rinex_date path'.
Proof.
  intros Hp Hp' Hn He [yy [ddd H]]. pose proof (basename_path dir name path Hp Hn) as B.
  assert (Hne : ~ In "/"%char (name ++ ext)) by (intros X; apply in_app_or in X; destruct X; contradiction). pose proof (basename_path dir _ path' Hp' Hne) as B'.
  destruct H as [H|H].
  - rewrite (rinex_date_classic path name yy ddd B H). symmetry. apply (rinex_date_classic path' _ yy ddd B'). destruct H as [site [h [t [rest [-> H]]]]]. exists site, h, t, (rest ++ ext).
    split; [now rewrite <- !app_assoc|exact H].
  - rewrite (rinex_date_modern path name yy ddd B H). symmetry. apply (rinex_date_modern path' _ yy ddd B'). destruct H as [site [h [t [rest [-> H]]]]]. exists site, h, t, (rest ++ ext).
    split; [now rewrite <- !app_assoc|exact H].
Qed.
(** the file chosen *)
Lemma prior_pair t t' priority files files' : Forall2 (nav_pair t t' priority) files files' -> forall prio, (forall q, In q prio -> In q priority) ->
  match prior_query files prio, prior_query files' prio with Some f, Some f' => nav_pair t t' priority f f' | None, None => True | _, _ => False end.
Proof.
  intros H. induction prio as [|q r IH]; intros Hin; cbn [prior_query].
  - destruct H; [exact I|assumption].
  - assert (Hf : match find (search_ci q) files, find (search_ci q) files' with Some f, Some f' => nav_pair t t' priority f f' | None, None => True | _, _ => False end).
    { assert (Hq : In q priority) by (apply Hin; now left). clear IH. induction H as [|f f' fs fs' Hx _ IHf]; [exact I|]. cbn [find].
      assert (E : search_ci q f = search_ci q f').
      { destruct Hx as [_ [_ Hx]]. specialize (Hx q Hq). pose proof (search_spec q f) as S1. pose proof (search_spec q f') as S2. unfold occurs in *.
        destruct (search_ci q f), (search_ci q f'); try reflexivity; exfalso; intuition congruence. }
      rewrite <- E. destruct (search_ci q f); [exact Hx|exact IHf]. }
    destruct (find (search_ci q) files), (find (search_ci q) files'); try contradiction; [exact Hf|]. apply IH. intros q' Hq'. apply Hin. now right.
Qed.
Lemma chosen_pair t t' priority files files' : Forall2 (nav_pair t t' priority) files files' -> forall prio, (forall q, In q prio -> In q priority) ->
  match (match prio with [] => hd_error files | _ => get_prior_file files prio end), (match prio with [] => hd_error files' | _ => get_prior_file files' prio end) with
  Some f, Some f' => nav_pair t t' priority f f' | None, None => True | _, _ => False end.
Proof.
  intros HF prio Hin. pose proof (prior_pair t t' priority files files' HF prio Hin) as X. unfold get_prior_file.
  destruct HF as [|f f' fs fs' H0 HF]; [destruct prio; exact I|]. destruct prio; [exact H0|exact X].
Qed.
Lemma nav_same t t' w w' c : (forall ep sys, Forall2 (nav_pair t t' (priority_of c sys)) (find_nav_files (w_ls w) (c_navdir c) ep sys) (find_nav_files (w_ls w') (c_navdir c) ep sys) /\
    Forall2 (nav_pair t t' (priority_of c sys)) (find_nav_files (w_ls w) (c_navdir c) ep "M"%char) (find_nav_files (w_ls w') (c_navdir c) ep "M"%char)) ->
  same_nav (tools_world t w) (tools_world t' w') c.
Proof.
  intros H ep sys. destruct (H ep sys) as [H1 H2]. unfold load_navigation_message. cbn [tools_world w_ls w_nav]. cbv zeta.
  set (files := match find_nav_files (w_ls w) (c_navdir c) ep sys with [] => _ | _ => _ end). set (files' := match find_nav_files (w_ls w') (c_navdir c) ep sys with [] => _ | _ => _ end).
  assert (HF : Forall2 (nav_pair t t' (priority_of c sys)) files files') by (unfold files, files'; destruct H1; [exact H2|constructor; assumption]). clearbody files files'. clear H1 H2 H.
  assert (HP : match (match priority_of c sys with [] => hd_error files | _ => get_prior_file files (priority_of c sys) end),
                     (match priority_of c sys with [] => hd_error files' | _ => get_prior_file files' (priority_of c sys) end) with
               Some f, Some f' => nav_pair t t' (priority_of c sys) f f' | None, None => True | _, _ => False end).
  { exact (chosen_pair t t' (priority_of c sys) files files' HF (priority_of c sys) (fun q X => X)). }
  destruct (match priority_of c sys with [] => hd_error files | _ => _ end) as [f|], (match priority_of c sys with [] => hd_error files' | _ => _ end) as [f'|]; cbn [of_option bind]; try contradiction; [|reflexivity].
  destruct HP as [P1 [P2 _]]. rewrite P1. destruct (lines_of (expand_nav t' f')) as [lines|e]; cbn [bind]; [|reflexivity].
  assert (En : nav_file f lines = nav_file f' lines) by (unfold nav_file, nav_read; rewrite P2; reflexivity). rewrite En.
  destruct (nav_file f' lines) as [m|e]; cbn [bind]; [|reflexivity]. destruct (dict_get ceqb sys m); reflexivity.
Qed.
