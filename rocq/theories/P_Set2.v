(** Settings: the directory for the results. *)
From Verif Require Import Base PyStr PyFloat PyDate PyPath PyRegex S_Text S_Time S_Open2 M_Common M_Header M_Obs2 M_Obs3 M_Rec M_Text M_Cfg M_Label M_Names M_Xyz M_Nav M_NmUtils M_Num M_Tec M_Sat M_Main S_Out S_Tec S_Main S_Settings P_Str P_Date P_Out P_Tec P_End4 P_Main8 P_Run4 P_Main1 P_Set1.
Open Scope nat_scope.

(** ** two writers *)
Section Writers.
Variables (c c' : out_cfg).
Hypothesis Hfmt : oc_format c = oc_format c'.
Hypothesis Hdtf : oc_dtformat c = oc_dtformat c'.
Hypothesis Hstr : oc_strftime c = oc_strftime c'.
Hypothesis Hzer : oc_zeros c = oc_zeros c'.
Hypothesis Hnow : oc_now c = oc_now c'.
Hypothesis Hsam : oc_sampling c = oc_sampling c'.
Lemma header_moved w w' s s' : w_obs w = w_obs w' -> w_interval w = w_interval w' -> w_xyz w = w_xyz w' -> w_lbh w = w_lbh w' ->
  s_def s = s_def s' -> s_nav s = s_nav s' -> header_text c w s = header_text c' w' s'.
Proof. intros E1 E2 E3 E4 E5 E6. unfold header_text, sampling_text. rewrite E1, E2, E3, E4, E5, E6, Hfmt, Hdtf, Hzer, Hnow, Hsam. reflexivity. Qed.

(** the same but for the names of the files written *)
Definition alike_sat (s s' : option satst) : Prop :=
  match s, s' with
  | None, None => True
  | Some a, Some b => s_def a = s_def b /\ s_nav a = s_nav b /\ (s_fout a = None <-> s_fout b = None)
  | _, _ => False
  end.
Definition alike (w w' : writer) : Prop :=
  w_obs w = w_obs w' /\ w_interval w = w_interval w' /\ w_xyz w = w_xyz w' /\ w_lbh w = w_lbh w' /\
  forall sat, alike_sat (dict_get seqb sat (w_sats w)) (dict_get seqb sat (w_sats w')).
Definition alike_end (r r' : res (fs * writer)) : Prop :=
  match r, r' with Ok (_, w), Ok (_, w') => alike w w' | Err e, Err e' => e = e' | _, _ => False end.
Lemma alike_set w w' w1 w1' sat a b : alike w w' -> alike_sat (Some a) (Some b) ->
  w_obs w1 = w_obs w -> w_interval w1 = w_interval w -> w_xyz w1 = w_xyz w -> w_lbh w1 = w_lbh w -> w_sats w1 = dict_set seqb sat a (w_sats w) ->
  w_obs w1' = w_obs w' -> w_interval w1' = w_interval w' -> w_xyz w1' = w_xyz w' -> w_lbh w1' = w_lbh w' -> w_sats w1' = dict_set seqb sat b (w_sats w') ->
  alike w1 w1'.
Proof.
  intros (A1 & A2 & A3 & A4 & A5) Hs E1 E2 E3 E4 E5 F1 F2 F3 F4 F5. unfold alike. rewrite E1, E2, E3, E4, E5, F1, F2, F3, F4, F5.
  repeat (split; [assumption|]). intros s. destruct (path_dec s sat) as [->|Hn]; [rewrite !sget_same; exact Hs|]. rewrite !sget_other by exact Hn. apply A5.
Qed.
Lemma update_alike w w' sat sd nav : alike w w' ->
  alike (match dict_get seqb sat (w_sats w) with Some _ => w | None => update_satellite w sat sd nav end)
        (match dict_get seqb sat (w_sats w') with Some _ => w' | None => update_satellite w' sat sd nav end).
Proof.
  intros H. pose proof H as (_ & _ & _ & _ & A5). specialize (A5 sat). unfold update_satellite.
  destruct (dict_get seqb sat (w_sats w)) as [s|] eqn:Es, (dict_get seqb sat (w_sats w')) as [s'|] eqn:Es'; try contradiction; [exact H|].
  eapply (alike_set w w' _ _ sat (mkSat sd nav None) (mkSat sd nav None) H); try reflexivity. cbn [alike_sat s_def s_nav s_fout]. repeat split; auto.
Qed.
Lemma data_alike f f' w w' sat t q : alike w w' -> alike_end (write_data c f w sat t q) (write_data c' f' w' sat t q).
Proof.
  intros H. pose proof H as (A1 & A2 & A3 & A4 & A5). specialize (A5 sat). unfold write_data. cbn [w_sats w_obs w_path w_interval w_xyz w_lbh].
  destruct (dict_get seqb sat (w_sats w)) as [s|] eqn:Es, (dict_get seqb sat (w_sats w')) as [s'|] eqn:Es'; try contradiction; cbn [of_option bind]; [|reflexivity].
  destruct A5 as (B1 & B2 & B3). destruct (s_fout s) as [out|] eqn:Eo, (s_fout s') as [out'|] eqn:Eo'; cbn [bind].
  - rewrite <- Hfmt, <- Hstr, <- A2. destruct (row_text _ _ _ _ _) as [row|e]; cbn [bind alike_end]; [|reflexivity]. repeat split; cbn; try assumption. exact (proj2 (proj2 (proj2 (proj2 H)))).
  - destruct B3 as [_ B3]. specialize (B3 eq_refl). discriminate.
  - destruct B3 as [B3 _]. specialize (B3 eq_refl). discriminate.
  - match goal with |- alike_end (do _ <- (do h <- header_text c ?x s; _); _) (do _ <- (do h <- header_text c' ?y s'; _); _) =>
      set (wx := x); set (wy := y); assert (Eh : header_text c wx s = header_text c' wy s') by (apply header_moved; assumption) end.
    rewrite <- Eh. destruct (header_text c wx s) as [h|e]; cbn [bind]; [|reflexivity].
    assert (Er : row_text (oc_format c) (oc_strftime c) (w_interval wx) t q = row_text (oc_format c') (oc_strftime c') (w_interval wy) t q).
    { cbn [wx wy w_interval]. rewrite Hfmt, Hstr, A2. reflexivity. }
    rewrite <- Er. destruct (row_text _ _ _ _ _) as [row|e]; cbn [bind alike_end]; [|reflexivity].
    eapply (alike_set w w' wx wy sat _ _ H); try reflexivity. cbn [alike_sat s_def s_nav s_fout]. split; [exact B1|]. split; [exact B2|]. split; discriminate.
Qed.
Lemma op_alike f f' w w' o : alike w w' -> alike_end (do_op c (f, w) o) (do_op c' (f', w') o).
Proof.
  intros H. destruct o as [t p l|sat sd nav t q]; cbn [do_op].
  - destruct H as (A1 & A2 & A3 & A4 & A5). cbn [alike_end]. unfold update_lbh, update_xyz, alike. cbn. rewrite A1, A2, A3, A4. auto 10.
  - apply data_alike. apply update_alike. exact H.
Qed.
Lemma ops_alike os : forall f f' w w', alike w w' -> alike_end (do_ops c (f, w) os) (do_ops c' (f', w') os).
Proof.
  induction os as [|o os IH]; intros f f' w w' H; cbn [do_ops]; [exact H|]. pose proof (op_alike f f' w w' o H) as G.
  destruct (do_op c (f, w) o) as [[g v]|e], (do_op c' (f', w') o) as [[g' v']|e']; cbn [bind]; try contradiction; [apply IH; exact G|exact G].
Qed.
Lemma new_alike name iv : alike (new_writer name iv) (new_writer name iv).
Proof. repeat split. Qed.

(** ** the files of one observation file *)
Section One.
Variables (name : str) (d : date).
Hypothesis Hd : date_ok d.
Hypothesis Hb : basename name <> [].
Let tg sat := result_file (oc_dir c) (marker_of name) sat d.
Let tg' sat := result_file (oc_dir c') (marker_of name) sat d.
Lemma marker_some : marker_of name <> [].
Proof. unfold marker_of. destruct (basename name); [congruence|discriminate]. Qed.
Lemma tg_inj s s' : tg s = tg s' -> s = s'.
Proof. intros E. apply result_file_inj in E; try assumption; try apply marker_no_slash. tauto. Qed.
Lemma tg_inj' s s' : tg' s = tg' s' -> s = s'.
Proof. intros E. apply result_file_inj in E; try assumption; try apply marker_no_slash. tauto. Qed.
(** the files open have the same contents *)
Definition moved (f f' : fs) (w w' : writer) : Prop :=
  alike w w' /\ w_obs w = name /\
  (forall p t, w_path w = Some p -> dt_date t = d -> p = out_dir c name t) /\ (forall p t, w_path w' = Some p -> dt_date t = d -> p = out_dir c' name t) /\
  forall sat s s', dict_get seqb sat (w_sats w) = Some s -> dict_get seqb sat (w_sats w') = Some s' ->
    (forall out, s_fout s = Some out -> out = tg sat /\ fs_get (tg sat) f = fs_get (tg' sat) f') /\ (forall out, s_fout s' = Some out -> out = tg' sat).
Lemma dir_same k t t' : dt_date t = d -> dt_date t' = d -> out_dir k name t = out_dir k name t'.
Proof. intros E E'. unfold out_dir. rewrite !strf_Y_text, !strf_j_text by (rewrite ?E, ?E'; exact Hd). now rewrite E, E'. Qed.
Lemma path_of k w t sat : w_obs w = name -> (forall p t, w_path w = Some p -> dt_date t = d -> p = out_dir k name t) -> dt_date t = d -> no_slash sat ->
  path_join (match w_path w with Some p => p | None => out_dir k (w_obs w) t end) (out_name (w_obs w) sat t) = result_file (oc_dir k) (marker_of name) sat d.
Proof.
  intros E H Ht Hs. rewrite E. assert (match w_path w with Some p => p | None => out_dir k name t end = out_dir k name t) as ->.
  { destruct (w_path w) eqn:Ep; [|reflexivity]. now apply H. }
  rewrite result_path; [now rewrite Ht|rewrite Ht; exact Hd|exact marker_some|exact Hs].
Qed.
Lemma path_kept k w t p t' : w_obs w = name -> (forall p t, w_path w = Some p -> dt_date t = d -> p = out_dir k name t) -> dt_date t = d ->
  Some (match w_path w with Some p => p | None => out_dir k (w_obs w) t end) = Some p -> dt_date t' = d -> p = out_dir k name t'.
Proof.
  intros E H Ht Ep Ht'. apply some_inj in Ep. subst p. rewrite E. destruct (w_path w) as [p|]; [now apply H|]. now apply dir_same.
Qed.
Definition moved_end (r r' : res (fs * writer)) : Prop :=
  match r, r' with Ok (f, w), Ok (f', w') => moved f f' w w' | Err e, Err e' => e = e' | _, _ => False end.
Lemma data_moved f f' w w' sat t q : moved f f' w w' -> dt_date t = d -> no_slash sat -> moved_end (write_data c f w sat t q) (write_data c' f' w' sat t q).
Proof.
  intros (Ha & Hn & Hp & Hp' & Ho) Ht Hs. pose proof (data_alike f f' w w' sat t q Ha) as Hend.
  assert (Hn' : w_obs w' = name) by (rewrite <- (proj1 Ha); exact Hn).
  pose proof Ha as (A1 & A2 & A3 & A4 & A5). specialize (A5 sat). pose proof (Ho sat) as Hsat.
  pose proof (fun p t' => path_kept c w t p t' Hn Hp Ht) as Pk. pose proof (fun p t' => path_kept c' w' t p t' Hn' Hp' Ht) as Pk'.
  pose proof (path_of c w t sat Hn Hp Ht Hs) as Po. pose proof (path_of c' w' t sat Hn' Hp' Ht Hs) as Po'.
  fold (tg sat) in Po. fold (tg' sat) in Po'.
  revert Hend. unfold write_data. cbn [w_sats w_obs w_path w_interval w_xyz w_lbh].
  destruct (dict_get seqb sat (w_sats w)) as [s|] eqn:Es, (dict_get seqb sat (w_sats w')) as [s'|] eqn:Es'; try contradiction; cbn [of_option bind]; [|intros X; exact X].
  destruct A5 as (B1 & B2 & B3). destruct (s_fout s) as [out|] eqn:Eo, (s_fout s') as [out'|] eqn:Eo'; cbn [bind].
  - rewrite <- Hfmt, <- Hstr, <- A2. destruct (row_text _ _ _ _ _) as [row|e]; cbn [bind alike_end moved_end]; [|intros X; exact X]. intros X.
    split; [exact X|]. split; [exact Hn|]. split; [exact Pk|]. split; [exact Pk'|]. cbn [w_sats]. intros sa x x' Hx Hx'. specialize (Hsat s s' eq_refl eq_refl).
    destruct Hsat as [H1 H2]. destruct (H1 _ Eo) as [-> E]. rewrite (H2 _ Eo').
    destruct (Ho sa x x' Hx Hx') as [H3 H4]. split; [|exact H4]. intros o Hxo. destruct (H3 o Hxo) as [-> E2]. split; [reflexivity|].
    destruct (path_dec sa sat) as [->|Hne]; [rewrite !append_get, E; reflexivity|].
    rewrite !fs_append_other; [exact E2| |]; intros X2; apply Hne; [now apply tg_inj'|now apply tg_inj].
  - exfalso. destruct B3 as [_ B3]. specialize (B3 eq_refl). discriminate.
  - exfalso. destruct B3 as [B3 _]. specialize (B3 eq_refl). discriminate.
  - match goal with |- alike_end (do _ <- (do h <- header_text c ?x s; _); _) (do _ <- (do h <- header_text c' ?y s'; _); _) -> _ =>
      set (wx := x); set (wy := y); assert (Eh : header_text c wx s = header_text c' wy s') by (apply header_moved; assumption) end.
    rewrite <- Eh. destruct (header_text c wx s) as [h|e]; cbn [bind]; [|intros X; exact X].
    assert (Er : row_text (oc_format c) (oc_strftime c) (w_interval wx) t q = row_text (oc_format c') (oc_strftime c') (w_interval wy) t q).
    { cbn [wx wy w_interval]. rewrite Hfmt, Hstr, A2. reflexivity. }
    rewrite <- Er. destruct (row_text _ _ _ _ _) as [row|e]; cbn [bind alike_end moved_end]; [|intros X; exact X]. intros X.
    split; [exact X|]. split; [exact Hn|]. split; [exact Pk|]. split; [exact Pk'|]. rewrite Po, Po'.
    intros sa x x' Hx Hx'. destruct (path_dec sa sat) as [->|Hne].
    + cbn [wx wy w_sats] in Hx, Hx'. rewrite sget_same in Hx, Hx'. apply some_inj in Hx, Hx'. subst x x'. cbn [s_fout]. rewrite Po, Po'. split.
      * intros o Hxo. apply some_inj in Hxo. subst o. split; [reflexivity|]. rewrite !append_get, !truncate_same. reflexivity.
      * intros o Hxo. now apply some_inj in Hxo.
    + cbn [wx wy w_sats] in Hx, Hx'. rewrite sget_other in Hx by exact Hne. rewrite sget_other in Hx' by exact Hne.
      destruct (Ho sa x x' Hx Hx') as [H3 H4]. split; [|exact H4]. intros o Hxo. destruct (H3 o Hxo) as [-> E2]. split; [reflexivity|].
      rewrite !fs_append_other, !truncate_other; [exact E2|..]; intros X2; apply Hne; first [exact (tg_inj' _ _ X2)|exact (tg_inj _ _ X2)].
Qed.
Lemma op_moved f f' w w' o : moved f f' w w' -> (forall s sd nav t q, o = WRow s sd nav t q -> dt_date t = d /\ no_slash s) ->
  moved_end (do_op c (f, w) o) (do_op c' (f', w') o).
Proof.
  intros H Hrow. destruct o as [t p l|sat sd nav t q]; cbn [do_op].
  - destruct H as (Ha & Hn & Hp & Hp' & Ho). cbn [moved_end]. pose proof (op_alike f f' w w' (WPos t p l) Ha) as X. cbn [do_op alike_end] in X.
    split; [exact X|]. split; [exact Hn|]. split; [exact Hp|]. split; [exact Hp'|exact Ho].
  - destruct (Hrow _ _ _ _ _ eq_refl) as [Ht Hs]. apply data_moved; [|exact Ht|exact Hs].
    destruct H as (Ha & Hn & Hp & Hp' & Ho). pose proof (update_alike w w' sat sd nav Ha) as X. pose proof Ha as (_ & _ & _ & _ & A5). specialize (A5 sat). unfold update_satellite in *.
    destruct (dict_get seqb sat (w_sats w)) as [s|] eqn:Es, (dict_get seqb sat (w_sats w')) as [s'|] eqn:Es'; try contradiction; [repeat (split; [assumption|]); exact Ho|].
    split; [exact X|]. split; [exact Hn|]. split; [exact Hp|]. split; [exact Hp'|]. cbn [w_sats]. intros sa x x' Hx Hx'.
    destruct (path_dec sa sat) as [->|Hne].
    + rewrite sget_same in Hx, Hx'. apply some_inj in Hx, Hx'. subst x x'. cbn [s_fout]. split; discriminate.
    + rewrite sget_other in Hx by exact Hne. rewrite sget_other in Hx' by exact Hne. exact (Ho sa x x' Hx Hx').
Qed.
Lemma ops_moved os : forall f f' w w', moved f f' w w' -> (forall s sd nav t q, In (WRow s sd nav t q) os -> dt_date t = d /\ no_slash s) ->
  moved_end (do_ops c (f, w) os) (do_ops c' (f', w') os).
Proof.
  induction os as [|o os IH]; intros f f' w w' H Hrow; cbn [do_ops]; [exact H|].
  pose proof (op_moved f f' w w' o H) as G. specialize (G (fun s sd nav t q E => Hrow s sd nav t q (or_introl E))).
  destruct (do_op c (f, w) o) as [[g v]|e], (do_op c' (f', w') o) as [[g' v']|e']; cbn [bind]; try contradiction; [|exact G].
  apply IH; [exact G|]. intros s sd nav t q Hi. apply (Hrow s sd nav t q). now right.
Qed.
End One.
Lemma file_moved f f' name iv os g g' d sat : job_ok (name, iv, os) d -> rows_of sat os <> [] ->
  write_file c f name iv os = Ok g -> write_file c' f' name iv os = Ok g' ->
  fs_get (result_file (oc_dir c) (marker_of name) sat d) g = fs_get (result_file (oc_dir c') (marker_of name) sat d) g'.
Proof.
  intros [K1 [K2 [K3 K4]]] Hr. cbn [fst snd] in *.
  assert (Hrow : forall s sd nav t q, In (WRow s sd nav t q) os -> dt_date t = d /\ no_slash s).
  { intros s sd nav t q H. split; [exact (K3 _ _ _ _ _ H)|exact (K4 _ _ _ _ _ H)]. }
  assert (M0 : moved name d f f' (new_writer name iv) (new_writer name iv)).
  { split; [apply new_alike|]. split; [reflexivity|]. split; [discriminate|]. split; [discriminate|]. intros sa s s' H. discriminate. }
  pose proof (ops_moved name d K1 K2 os f f' _ _ M0 Hrow) as M. intros E E'.
  assert (I0 : winv c name iv d f [] f (new_writer name iv)). { repeat split; cbn; try reflexivity; try discriminate. }
  unfold write_file in E, E'.
  destruct (do_ops c (f, new_writer name iv) os) as [[g1 w1]|e] eqn:E1; [|discriminate E]. cbn [bind] in E. injection E as ->.
  destruct (do_ops c' (f', new_writer name iv) os) as [[g2 w2]|e] eqn:E2; [|discriminate E']. cbn [bind] in E'. injection E' as ->.
  assert (Hm : marker_of name <> []) by (unfold marker_of; destruct (basename name); [congruence|discriminate]).
  assert (Hinj : forall s s', result_file (oc_dir c) (marker_of name) s d = result_file (oc_dir c) (marker_of name) s' d -> s = s').
  { intros s s' X. apply result_file_inj in X; try assumption; try apply marker_no_slash. tauto. }
  pose proof (do_ops_inv c name iv d f K1 Hm Hinj os [] f _ g w1 I0 Hrow E1) as I. cbn [app] in I. destruct I as (I1 & I2 & I3 & I4 & I5 & I6 & I7).
  cbn [moved_end] in M. destruct M as (Ma & _ & _ & _ & Mo). pose proof Ma as (_ & _ & _ & _ & A5). specialize (A5 sat).
  destruct (dict_get seqb sat (w_sats w1)) as [s|] eqn:Es; [|exfalso; exact (Hr (I5 sat Es))].
  destruct (dict_get seqb sat (w_sats w2)) as [s'|] eqn:Es'; [|contradiction].
  destruct (s_fout s) as [out|] eqn:Eo; [|exfalso; exact (Hr (I4 sat s Es Eo))].
  exact (proj2 (proj1 (Mo sat s s' Es Es') out Eo)).
Qed.
End Writers.

(** ** the program *)
Section Moved.
Variables (w : world) (c c' : cfg).
Hypothesis Hin : same_inputs c c'.
Hypothesis Hfmt : c_format c = c_format c'.
Hypothesis Hig : c_ignore c = c_ignore c'.
Hypothesis Hdtf : c_dtformat c = c_dtformat c'.
Let o := out_of w c.
Let o' := out_of w c'.
Lemma out_eqs : oc_format o = oc_format o' /\ oc_dtformat o = oc_dtformat o' /\ oc_strftime o = oc_strftime o' /\ oc_zeros o = oc_zeros o' /\ oc_now o = oc_now o' /\ oc_sampling o = oc_sampling o'.
Proof. unfold o, o', out_of. cbn. rewrite Hfmt, Hdtf. destruct Hin as (_ & _ & _ & _ & _ & ->). repeat split. Qed.
Lemma mv_ops os f f' a b : alike a b -> alike_end (do_ops o (f, a) os) (do_ops o' (f', b) os).
Proof. destruct out_eqs as (E1 & E2 & E3 & E4 & E5 & E6). apply ops_alike; assumption. Qed.
Lemma body_eq xyzs lp k l s t sys n : record_body w c xyzs lp k l s t sys n = record_body w c' xyzs lp k l s t sys n.
Proof. unfold record_body. rewrite (nav_step_set w c c' Hin). unfold view, row_step. rewrite Hfmt, Hig. reflexivity. Qed.
Lemma loop_moved b xyzs si steps : forall last k l f f' a a', alike a a' ->
  let '(k1, _, os1, e1) := record_loop w c b xyzs si last k l (f, a) steps in
  let '(k2, _, os2, e2) := record_loop w c' b xyzs si last k l (f', a') steps in k1 = k2 /\ os1 = os2 /\ e1 = e2.
Proof.
  induction steps as [|s r IH]; intros last k l f f' a a' Ha; cbn [record_loop]; [auto|].
  destruct (record_ident s) as [[[t sys] n]|e]; [|auto]. destruct (accept _ _ _ _ _) as [last'|]; [|apply IH; exact Ha]. cbn [snd].
  rewrite body_eq. pose proof Ha as (_ & _ & <- & _). destruct (record_body w c' xyzs _ k l s t sys n) as [[[k' l'] ops]|e]; [|auto].
  pose proof (mv_ops ops f f' a a' Ha) as H. unfold o, o' in H.
  destruct (do_ops (out_of w c) (f, a) ops) as [[g b1]|e1], (do_ops (out_of w c') (f', a') ops) as [[g' b2]|e2]; try contradiction; [|cbn [alike_end] in H; subst; auto].
  cbn [alike_end] in H. specialize (IH last' k' l' g g' b1 b2 H).
  destruct (record_loop w c b xyzs si last' k' l' (g, b1) r) as [[[k1 s1] os1] e1], (record_loop w c' b xyzs si last' k' l' (g', b2) r) as [[[k2 s2] os2] e2].
  destruct IH as [-> [-> ->]]. auto.
Qed.
Lemma step_moved k f f' name :
  let '(k1, _, os1, e1) := file_step w c k f name in let '(k2, _, os2, e2) := file_step w c' k f' name in k1 = k2 /\ os1 = os2 /\ e1 = e2.
Proof.
  unfold file_step. destruct (open_obs w name) as [b|e]; [|destruct e; auto]. rewrite (start_set w c c' Hin).
  destruct (file_start w c' b) as [[[[[[xyzs si] l] iv] pos]|]|e]; auto.
  pose proof (mv_ops [pos] f f' _ _ (new_alike name iv)) as H. cbn [do_ops] in H. unfold o, o' in H.
  destruct (do_op (out_of w c) (f, new_writer name iv) pos) as [[a wa]|e1], (do_op (out_of w c') (f', new_writer name iv) pos) as [[b' wb]|e2]; cbn [bind alike_end] in H; try contradiction; [|subst; auto].
  pose proof (loop_moved b xyzs si (b_steps b) None k l a b' wa wb H) as G.
  destruct (record_loop w c b xyzs si None k l (a, wa) (b_steps b)) as [[[k1 [f1' w1]] os1] e1], (record_loop w c' b xyzs si None k l (b', wb) (b_steps b)) as [[[k2 [f2' w2]] os2] e2].
  destruct G as [-> [-> ->]]. auto.
Qed.
Lemma files_moved names : forall k f f',
  let '(_, log1, e1) := files_loop w c k f names in let '(_, log2, e2) := files_loop w c' k f' names in log1 = log2 /\ e1 = e2.
Proof.
  induction names as [|nm r IH]; intros k f1 f2; cbn [files_loop]; [auto|].
  pose proof (step_moved k f1 f2 nm) as H. destruct (file_step w c k f1 nm) as [[[k1 a] os1] e1], (file_step w c' k f2 nm) as [[[k2 b] os2] e2].
  destruct H as [<- [<- <-]]. destruct e1 as [e|]; [auto|]. specialize (IH k1 a b).
  destruct (files_loop w c k1 a r) as [[a' log1] e1], (files_loop w c' k1 b r) as [[b' log2] e2]. destruct IH as [-> ->]. auto.
Qed.
Lemma main_moved f f' : snd (fst (main w c f)) = snd (fst (main w c' f')) /\ stopped_by w c f = stopped_by w c' f'.
Proof.
  unfold stopped_by, main. destruct Hin as (<- & _). destruct (sort_str _) as [|nm r]; [auto|]. pose proof (files_moved (nm :: r) no_caches f f') as H.
  destruct (files_loop w c no_caches f (nm :: r)) as [[a log1] e1], (files_loop w c' no_caches f' (nm :: r)) as [[b log2] e2]. exact H.
Qed.
Lemma last_such {A} (P : A -> Prop) (l : list A) : (forall x, P x \/ ~ P x) -> (exists x, In x l /\ P x) ->
  exists pre x post, l = pre ++ x :: post /\ P x /\ forall y, In y post -> ~ P y.
Proof.
  intros Hdec. induction l as [|a l IH]; intros [x [Hx Hp]]; [contradiction|].
  assert (D : (exists x, In x l /\ P x) \/ ~ exists x, In x l /\ P x).
  { clear -Hdec. induction l as [|b l IH]; [right; intros [x [[] _]]|]. destruct (Hdec b) as [H|H]; [left; exists b; cbn; auto|]. destruct IH as [[x [H1 H2]]|IH].
    - left. exists x. cbn. auto.
    - right. intros [x [[->|H1] H2]]; [contradiction|]. apply IH. eauto. }
  destruct D as [D|D].
  - destruct (IH D) as (pre & y & post & -> & H1 & H2). exists (a :: pre), y, post. auto.
  - destruct Hx as [->|Hx]; [|exfalso; eauto]. exists [], x, l. split; [reflexivity|]. split; [exact Hp|]. intros y Hy Hpy. apply D. eauto.
Qed.
Lemma result_moved f f' name ops sat d : stopped_by w c f = None -> written w c f name ops -> rows_of sat ops <> [] -> get_rinex_date name = Some d ->
  fs_get (result_file (c_outdir c) (marker_of name) sat d) (fst (fst (main w c f))) = fs_get (result_file (c_outdir c') (marker_of name) sat d) (fst (fst (main w c' f'))).
Proof.
  intros Hs Hw Hr Hd. destruct (main_moved f f') as [El Es]. assert (Hs' : stopped_by w c' f' = None) by congruence.
  set (P := fun x : str * list wop => rows_of sat (snd x) <> [] /\ marker_of (fst x) = marker_of name /\ get_rinex_date (fst x) = get_rinex_date name).
  assert (Hdec : forall x, P x \/ ~ P x).
  { intros [n os]. unfold P. cbn [fst snd]. destruct (rows_of sat os) as [|r rs]; [right; intros [X _]; auto|].
    destruct (path_dec (marker_of n) (marker_of name)) as [->|X]; [|right; tauto]. rewrite Hd.
    destruct (get_rinex_date n) as [x|]; [|right; intros (_ & _ & X); discriminate].
    assert (Dd : x = d \/ x <> d). { destruct x as [[y m] dd], d as [[y' m'] dd']. destruct (Z.eq_dec y y') as [->|X]; [|right; congruence]. destruct (Z.eq_dec m m') as [->|X]; [|right; congruence]. destruct (Z.eq_dec dd dd') as [->|X]; [now left|right; congruence]. }
    destruct Dd as [->|X]; [left; split; [discriminate|auto]|right; intros (_ & _ & Y); congruence]. }
  destruct (last_such P (snd (fst (main w c f))) Hdec) as (pre & [n os] & post & L & (P1 & P2 & P3) & N).
  { exists (name, ops). split; [exact Hw|]. unfold P. cbn [fst snd]. auto. }
  cbn [fst snd] in P1, P2, P3.
  assert (Hpost : forall n' o', In (n', o') post -> rows_of sat o' <> [] -> marker_of n' <> marker_of n \/ get_rinex_date n' <> get_rinex_date n).
  { intros n' o1 Hi Hr'. destruct (path_dec (marker_of n') (marker_of n)) as [X|X]; [|now left]. right. intros Y. apply (N _ Hi). unfold P. cbn [fst snd]. split; [exact Hr'|]. split; congruence. }
  destruct (run_target w c f pre n os post sat Hs L P1 Hpost) as [b [iv [d1 [f1 [f2 [Ho [Hiv [Hd1 [_ [K [E2 Ht]]]]]]]]]]].
  rewrite El in L.
  destruct (run_target w c' f' pre n os post sat Hs' L P1 Hpost) as [b' [iv' [d1' [f1' [f2' [Ho' [Hiv' [Hd1' [_ [K' [E2' Ht']]]]]]]]]]].
  assert (b' = b) by congruence. subst b'. assert (iv' = iv) by congruence. subst iv'. assert (d1 = d) by congruence. assert (d1' = d) by congruence. subst d1 d1'.
  rewrite <- P2, Ht, Ht'. destruct out_eqs as (E3 & E4 & E5 & E6 & E7 & E8). exact (file_moved o o' E3 E4 E5 E6 E7 E8 f1 f1' n iv os f2 f2' d sat K P1 E2 E2').
Qed.
End Moved.
