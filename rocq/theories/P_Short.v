(** The end of an observation file does not matter for the rows before it. *)
From Coq Require Import ZifyBool ZifyNat Sorting.Permutation.
From Verif Require Import Base PyStr PyFloat PyDate PyPath PyRegex PyStrftime S_Text S_Time S_Open2 M_Common M_Header M_Obs2 M_Obs3 M_Rec M_Text M_Cfg M_Label M_Names M_Xyz M_Nav M_NmUtils M_Num M_Tec M_Sat M_Main M_Run S_Names S_Xyz S_Label S_Main S_Fresh S_Run S_Alone S_Out S_Systems S_Short P_Str P_Date P_Label P_Out P_Main1 P_Main2 P_Main3 P_Main4 P_Main5 P_Main6 P_Main7 P_Main8 P_Main9 P_Main10 P_Main12 P_Set1 P_Alone P_Systems.
Open Scope nat_scope.

Lemma loop_short w w' c b b' xyzs si missing steps : w_libm w' = w_libm w -> b_date b' = b_date b -> (b_end b' = GStop \/ b_end b' = GRaise RinexError) ->
  (forall lp seen site s t sys n, fresh_body w' c xyzs lp seen site s t sys n = fresh_body w c xyzs lp seen site s t sys n) -> out_of w' c = out_of w c ->
  forall last seen site st st1 os, fresh_loop w c b xyzs si last seen site st (steps ++ missing) = (st1, os, None) ->
  exists st1' os' more, fresh_loop w' c b' xyzs si last seen site st steps = (st1', os', None) /\ os = os' ++ more.
Proof.
  intros Hl Hd He Hb Ho. induction steps as [|s r IH]; intros last seen site st st1 os; cbn [app fresh_loop].
  - intros _. exists st, [], os. split; [|reflexivity]. destruct He as [-> | ->]; reflexivity.
  - rewrite Hd. destruct (record_ident s) as [[[t sys] n]|]; [|discriminate]. destruct (accept (b_date b) si last t sys) as [last'|]; [|apply IH].
    rewrite Hb. destruct (fresh_body w c xyzs (latest (w_xyz (snd st))) seen site s t sys n) as [[[seen1 site1] ops]|]; [|discriminate].
    rewrite Ho. destruct (do_ops (out_of w c) st ops) as [st2|]; [|discriminate].
    destruct (fresh_loop w c b xyzs si last' seen1 site1 st2 (r ++ missing)) as [[st3 os3] e3] eqn:El. intros E. injection E as <- <- ->.
    destruct (IH _ _ _ _ _ _ El) as [st4 [os4 [more [-> ->]]]]. exists st4, (ops ++ os4), more. split; [reflexivity|apply app_assoc].
Qed.

Section Short.
Variables (w : world) (c : cfg) (o : str -> res (list str)).
Let w' := with_contents w o.
Hypothesis Hcont : cut_contents w c o.
Let found name := In name (find_files (w_ls w) (c_obsdir c) RE_OBS).
Lemma file_short f name g ops : found name -> fresh_file w c f name = (g, ops, None) ->
  exists g' ops' more, fresh_file w' c f name = (g', ops', None) /\ ops = ops' ++ more.
Proof.
  intros Hn. pose proof (Hcont name Hn) as Hc. unfold fresh_file. fold w' in Hc.
  destruct (open_obs w name) as [b|e] eqn:Eo, (open_obs w' name) as [b'|e'] eqn:Eo'; try contradiction.
  - destruct Hc as [H1 [H2 [H3 [H4 [missing H5]]]]]. assert (Hs : file_start w' c b' = file_start w c b) by (exact (start_same w c o b b' H1 H3)). rewrite Hs.
    destruct (file_start w c b) as [[[[[[xyzs si] l] iv] pos]|]|] eqn:Es; [| |discriminate].
    + change (out_of w' c) with (out_of w c). destruct (do_op (out_of w c) (f, new_writer name iv) pos) as [st|]; [|discriminate].
      rewrite H5. destruct (fresh_loop w c b xyzs si None [] _ st (b_steps b' ++ missing)) as [[st1 os] e] eqn:El. intros E. injection E as <- <- ->.
      destruct (loop_short w w' c b b' xyzs si missing (b_steps b') eq_refl H2 H4 (fun _ _ _ _ _ _ _ => eq_refl) eq_refl _ _ _ _ _ _ El) as [st' [os' [more [E' ->]]]].
      rewrite E'. eexists _, _, more. split; reflexivity.
    + intros E. injection E as <- <-. exists f, [], []. split; reflexivity.
  - subst e'. intros _. exists f, [], ops. split; reflexivity.
  - subst e'. destruct e; intros E; try discriminate; injection E as <- <-; exists f, [], []; split; reflexivity.
Qed.
Hypothesis Hcomp : computable_files w c.
Lemma short_incomputable t sys n : incomputable w' c t sys n -> incomputable w c t sys n.
Proof.
  intros [dt [eph [e [H1 [H2 H3]]]]]. exists dt, eph, e. split; [|split; [exact H2|exact H3]].
  assert (Hd : forall d, nav_data w' c t sys d -> nav_data w c t sys d).
  { intros d Hd. inversion Hd; subst; [apply nav_found with (m := m); assumption|apply nav_missing with (e := e0); assumption]. }
  inversion H1; subst. apply eph_chosen with (f := f) (sats := sats); [apply Hd; assumption|assumption].
Qed.
Lemma comp_short : computable_files w' c.
Proof.
  intros name b' s t sys n Hn Ho Hin Hi Hy Hx. pose proof (Hcont name Hn) as Hc. fold w' in Hc. rewrite Ho in Hc. destruct (open_obs w name) as [b|] eqn:Eo; [|contradiction].
  destruct Hc as [_ [_ [_ [_ [missing Hs]]]]]. refine (Hcomp name b s t sys n Hn Eo _ Hi Hy (short_incomputable _ _ _ Hx)). rewrite Hs. apply in_or_app. left. exact Hin.
Qed.
Lemma ends_short name : found name -> end_of w c name = None -> end_of w' c name = None /\ exists more, ops_of w c name = ops_of w' c name ++ more.
Proof.
  intros Hn. unfold end_of, ops_of. destruct (fresh_file w c [] name) as [[g ops] e] eqn:E. cbn [fst snd]. intros ->.
  destruct (file_short [] name g ops Hn E) as [g' [ops' [more [-> ->]]]]. split; [reflexivity|]. exists more. reflexivity.
Qed.
Lemma main_short f f' : stopped_by w c f = None ->
  stopped_by w' c f' = None /\ Forall2 writes_less (snd (fst (main w c f))) (snd (fst (main w' c f'))).
Proof.
  intros Hs. destruct (run_log w c Hcomp f Hs) as [Hall Hlog]. rewrite Hlog. unfold stopped_by, main in *. change (w_ls w') with (w_ls w).
  assert (Hin : forall nm, In nm (sort_str (find_files (w_ls w) (c_obsdir c) RE_OBS)) -> found nm) by (intros nm H; exact (Permutation_in nm (Permutation_sym (sort_perm _)) H)).
  destruct (sort_str (find_files (w_ls w) (c_obsdir c) RE_OBS)) as [|n0 r0]; [discriminate|].
  assert (Hall' : forall nm, In nm (n0 :: r0) -> comp w' c nm /\ end_of w' c nm = None).
  { intros nm Hm. split; [exact (found_comp w' c comp_short nm (Hin nm Hm))|]. exact (proj1 (ends_short nm (Hin nm Hm) (proj2 (Hall nm (Hin nm Hm))))). }
  rewrite (comp_files w' c (n0 :: r0) no_caches f' (good_none w' c)) by (intros nm Hm; exact (proj1 (Hall' nm Hm))).
  destruct (fresh_log w' c (n0 :: r0) f' Hall') as [f2 ->]. cbn [fst snd]. split; [reflexivity|].
  clear -Hin Hall Hcont. induction (n0 :: r0) as [|nm r IH]; cbn [map]; [constructor|]. constructor; [|exact (IH (fun n H => Hin n (or_intror H)))].
  split; [reflexivity|]. exact (proj2 (ends_short nm (Hin nm (or_introl eq_refl)) (proj2 (Hall nm (Hin nm (or_introl eq_refl)))))).
Qed.

(** the contents of the result files *)
Lemma short_split log log' pre' name ops' post' : Forall2 writes_less log log' -> log' = pre' ++ (name, ops') :: post' ->
  exists pre ops post, log = pre ++ (name, ops) :: post /\ (exists more, ops = ops' ++ more) /\ map fst post = map fst post'.
Proof.
  intros H. revert pre'. induction H as [|a b l l' Hab Hl IH]; intros pre' E; [destruct pre'; discriminate|]. destruct pre' as [|p pre']; cbn [app] in E; injection E as -> E.
  - subst l'. destruct a as [nm os]. destruct Hab as [Hn Hr]. cbn [fst snd] in *. subst nm. exists [], os, l. split; [reflexivity|]. split; [exact Hr|].
    clear -Hl. induction Hl as [|x y l l' [Hx _] _ IH]; [reflexivity|]. cbn [map]. rewrite Hx, IH. reflexivity.
  - destruct (IH pre' E) as [pre [ops [post [-> H2]]]]. exists (a :: pre), ops, post. split; [reflexivity|exact H2].
Qed.
Lemma rows_app sat a b : rows_of sat (a ++ b) = rows_of sat a ++ rows_of sat b.
Proof. induction a as [|[t p l|s sd nav t q] r IH]; cbn [app rows_of]; [reflexivity|exact IH|]. rewrite IH. apply app_assoc. Qed.
Lemma results_short f f' pre' name ops' post' sat : stopped_by w c f = None -> snd (fst (main w' c f')) = pre' ++ (name, ops') :: post' ->
  rows_of sat ops' <> [] -> (forall name' os, In (name', os) post' -> marker_of name' <> marker_of name \/ get_rinex_date name' <> get_rinex_date name) ->
  exists d head head' rows missing, get_rinex_date name = Some d /\ comments head /\ comments head' /\
    fs_get (result_file (c_outdir c) (marker_of name) sat d) (fst (fst (main w c f))) = Some (head ++ concat rows ++ missing) /\
    fs_get (result_file (c_outdir c) (marker_of name) sat d) (fst (fst (main w' c f'))) = Some (head' ++ concat rows) /\
    exists b iv, open_obs w name = Ok b /\ h_interval (b_hdr b) = Some iv /\
      Forall2 (fun tq row => row_text (c_format c) (strftime (w_strftime w) (c_dtformat c)) iv (fst tq) (snd tq) = Ok row) (rows_of sat ops') rows.
Proof.
  intros Hs Hlog' Hr' Hpost'. destruct (main_short f f' Hs) as [Hs' Hl]. destruct (short_split _ _ _ _ _ _ Hl Hlog') as [pre [ops [post [Hlog [[more Ho] Hp]]]]].
  assert (Hr : rows_of sat ops <> []) by (rewrite Ho, rows_app; destruct (rows_of sat ops'); [contradiction|discriminate]).
  assert (Hpost : forall name' os, In (name', os) post -> rows_of sat os <> [] -> marker_of name' <> marker_of name \/ get_rinex_date name' <> get_rinex_date name).
  { intros nm os Hin _. apply (in_map fst) in Hin. cbn [fst] in Hin. rewrite Hp in Hin. apply in_map_iff in Hin. destruct Hin as [[n1 o1] [<- Hin]]. exact (Hpost' n1 o1 Hin). }
  destruct (run_files w c f pre name ops post sat Hs Hlog Hr Hpost) as [b [iv1 [d [content [B1 [B2 [B3 [B4 [h [rs [B5 [B6 B7]]]]]]]]]]]].
  destruct (run_files w' c f' pre' name ops' post' sat Hs' Hlog' Hr' (fun n x Hn _ => Hpost' n x Hn)) as [b' [iv' [d' [content' [C1 [C2 [C3 [C4 [h' [rs' [C5 [C6 C7]]]]]]]]]]]].
  rewrite B3 in C3. injection C3 as <-.
  assert (Hn : found name).
  { destruct (run_log w c Hcomp f Hs) as [_ Hg]. apply (Permutation_in name (Permutation_sym (sort_perm _))).
    assert (X : In name (map fst (snd (fst (main w c f))))) by (rewrite Hlog, map_app; apply in_or_app; right; left; reflexivity).
    rewrite Hg, map_map in X. cbn [fst] in X. rewrite map_id in X. exact X. }
  assert (iv' = iv1).
  { pose proof (Hcont name Hn) as Hc. fold w' in Hc. rewrite B1, C1 in Hc. destruct Hc as [_ [_ [E _]]]. rewrite E, B2 in C2. congruence. }
  subst iv'. rewrite Ho, rows_app in B7. apply Forall2_app_inv_l in B7. destruct B7 as [r1 [r2 [R1 [R2 ->]]]].
  assert (rs' = r1).
  { clear -R1 C7. change (out_of w' c) with (out_of w c) in C7. revert rs' C7. induction R1 as [|x y l l' H Hl IH]; intros rs' C7; inversion C7; subst; [reflexivity|]. f_equal; [congruence|apply IH; assumption]. }
  subst rs'. exists d, h, h', r1, (concat r2). split; [exact B3|]. split; [exact B6|]. split; [exact C6|]. split; [rewrite B4, B5, concat_app; reflexivity|]. split; [rewrite C4, C5; reflexivity|].
  exists b, iv1. split; [exact B1|]. split; [exact B2|exact R1].
Qed.
End Short.
