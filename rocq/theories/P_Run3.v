(** The count of errors of a run. *)
From Coq Require Import ZifyBool ZifyNat.
From Verif Require Import Base PyStr PyFloat PyDate PyPath PyRegex S_Text S_Time S_Open2 M_Common M_Header M_Obs2 M_Obs3 M_Rec M_Text M_Cfg M_Label M_Names M_Xyz M_Nav M_NmUtils M_Num M_Tec M_Sat M_Main M_Run S_Names S_Xyz S_Main S_Fresh S_Run S_Out P_Str P_Date P_Label P_Main1 P_Main2 P_Main3 P_Main4 P_Main5 P_Main6 P_Main7 P_Main8 P_Main12 P_Run1 P_Run2.
Open Scope nat_scope.

Section Errors.
Variables (w : world) (c : cfg).
(** the trouble of one file *)
Inductive ftrouble (use : obs -> step -> Prop) (bad : list (datetime * xyz) -> step -> Prop) (name : str) : Prop :=
| ft_open : open_obs w name = Err RinexError \/ open_obs w name = Err UncompressError -> ftrouble use bad name
| ft_time b t0 ts : open_obs w name = Ok b -> of_system b -> h_tofo (b_hdr b) = Some (t0, ts) -> ts <> lit "GPS" -> ftrouble use bad name
| ft_broken b : open_obs w name = Ok b -> suitable b -> b_end b = GRaise RinexError -> ftrouble use bad name
| ft_record b xyzs s : open_obs w name = Ok b -> suitable b -> coordinates w c name xyzs ->
    In s (b_steps b) -> usable (b_date b) s -> use b s -> bad xyzs s -> ftrouble use bad name.
Lemma trouble_iff use bad : trouble w c use bad <-> exists name, found w c name /\ ftrouble use bad name.
Proof.
  split.
  - intros [name Hf H|name b t0 ts Hf H1 H2 H3 H4|name b Hf H1 H2 H3|name b xyzs s Hf H1 H2 H3 H4 H5 H6 H7]; exists name; (split; [exact Hf|]).
    + now apply ft_open.
    + exact (ft_time _ _ _ b t0 ts H1 H2 H3 H4).
    + exact (ft_broken _ _ _ b H1 H2 H3).
    + exact (ft_record _ _ _ b xyzs s H1 H2 H3 H4 H5 H6 H7).
  - intros [name [Hf [H|b t0 ts H1 H2 H3 H4|b H1 H2 H3|b xyzs s H1 H2 H3 H4 H5 H6 H7]]].
    + exact (tr_open _ _ _ _ name Hf H).
    + exact (tr_time _ _ _ _ name b t0 ts Hf H1 H2 H3 H4).
    + exact (tr_broken _ _ _ _ name b Hf H1 H2 H3).
    + exact (tr_record _ _ _ _ name b xyzs s Hf H1 H2 H3 H4 H5 H6 H7).
Qed.
Lemma coordinates_fun name a b : coordinates w c name a -> coordinates w c name b -> a = b.
Proof.
  intros [H|H|fa da Ha Hb Hc] H'; inversion H' as [H2|H2|fb db Ha' Hb' Hc']; subst; try reflexivity; try contradiction; try (rewrite H in *; discriminate).
  all: try (rewrite H2 in *; try discriminate; try contradiction).
  - rewrite Hb in Hb'. apply some_inj in Hb'. subst fb. rewrite Hc in Hc'. now injection Hc'.
Qed.
Lemma open_name name b : open_obs w name = Ok b -> b_name b = name.
Proof.
  unfold open_obs. destruct (expand_plan name); cbn [bind]; [|discriminate]. cbv zeta. destruct (w_content w name); cbn [bind]; [|discriminate]. destruct (obs_class _) as [v|]; cbn [bind]; [|discriminate].
  destruct (ver_lt3 v); [destruct (open2 _ _) as [r|]|destruct (open3 _ _ _) as [r|]]; cbn [bind]; try discriminate;
    [destruct (records2 v r) as [[ys ge] o]|destruct (records3 v r) as [[ys ge] o]]; intros E; injection E as <-; reflexivity.
Qed.
Lemma start_suitable b x : file_start w c b = Ok x -> (x <> None <-> suitable b) /\ (x = None -> time_errors b <> 0 <-> of_system b).
Proof.
  unfold file_start, suitable, of_system, time_errors.
  destruct (h_ver (b_hdr b)) as [[[rv ft] ss]|]; cbn [of_option bind]; [|discriminate].
  assert (Hss : supports ss || ceqb ss "M" = true <-> In ss systems \/ ss = "M"%char).
  { rewrite orb_true_iff, P_Main3.supports_iff, ceqb_eq. reflexivity. }
  destruct (supports ss || ceqb ss "M") eqn:E1; cbn [negb andb].
  - pose proof (proj1 Hss eq_refl) as Hin. destruct (h_tofo (b_hdr b)) as [[t0 ts]|]; cbn [of_option bind]; [|discriminate].
    destruct (seqb ts (lit "GPS")) eqn:E2; cbn [negb].
    + apply seqb_eq in E2. subst ts. intros H. assert (Hx : x <> None).
      { destruct (lbh_of w _); cbn [bind] in H; [|discriminate]. destruct (xyz_data _ _ _); cbn [bind] in H; [|discriminate].
        destruct (interval_of b); cbn [bind] in H; [|discriminate]. destruct (sampling_of c b); cbn [bind] in H; [|discriminate]. injection H as <-. discriminate. }
      split; [|contradiction]. split; [|auto]. intros _. split; [exists rv, ft, ss; auto|now exists t0].
    + intros H. injection H as <-. split.
      * split; [now destruct 1|]. intros [_ [t1 E]]. injection E as _ ->. rewrite seqb_refl in E2. discriminate.
      * intros _. split; [|discriminate]. intros _. exists rv, ft, ss. auto.
  - assert (Hno : ~ (In ss systems \/ ss = "M"%char)) by (intros X; apply Hss in X; discriminate).
    intros H. injection H as <-. split.
    + split; [now destruct 1|]. intros [[a [b0 [d [E Hd]]]] _]. injection E as _ _ <-. contradiction.
    + intros _. destruct (h_tofo (b_hdr b)) as [[t0 ts]|]; (split; [intros X; now destruct X|]; intros [a [b0 [d [E Hd]]]]; injection E as _ _ <-; contradiction).
Qed.
Lemma time_errors_gps b : time_errors b <> 0 <-> of_system b /\ exists t0 ts, h_tofo (b_hdr b) = Some (t0, ts) /\ ts <> lit "GPS".
Proof.
  unfold time_errors, of_system. destruct (h_ver (b_hdr b)) as [[[rv ft] ss]|].
  2:{ split; [intros X; now destruct X|]. intros [[a [b0 [d [E _]]]] _]. discriminate. }
  destruct (h_tofo (b_hdr b)) as [[t0 ts]|].
  2:{ split; [intros X; now destruct X|]. intros [_ [t0 [ts [E _]]]]. discriminate. }
  assert (Hss : supports ss || ceqb ss "M" = true <-> In ss systems \/ ss = "M"%char).
  { rewrite orb_true_iff, P_Main3.supports_iff, ceqb_eq. reflexivity. }
  destruct (supports ss || ceqb ss "M"); cbn [andb].
  - destruct (seqb ts (lit "GPS")) eqn:E2; cbn [negb].
    + apply seqb_eq in E2. subst ts. split; [intros X; now destruct X|]. intros [_ [t1 [ts [E Hn]]]]. injection E as _ <-. contradiction.
    + split; [|discriminate]. intros _. split; [exists rv, ft, ss; split; [reflexivity|now apply Hss]|]. exists t0, ts. split; [reflexivity|].
      intros ->. rewrite seqb_refl in E2. discriminate.
  - split; [intros X; now destruct X|]. intros [[a [b0 [d [E Hd]]]] _]. injection E as _ _ <-. apply Hss in Hd. discriminate.
Qed.
Definition u_some (b : obs) (s : step) : Prop := forall kept, used c b kept -> In s kept.
Definition u_all (b : obs) (s : step) : Prop := exists kept, used c b kept /\ In s kept.
Lemma file_errors_spec k f name k' f' os : good w c k -> file_step w c k f name = (k', f', os, None) ->
  (file_errors w c k f name <> 0 -> ftrouble u_some (bad_some w c) name) /\
  (file_errors w c k f name = 0 -> no_bad w c k -> no_bad w c k' /\ ~ ftrouble u_all (bad_all w c) name).
Proof.
  intros G. unfold file_step, file_errors.
  destruct (open_obs w name) as [b|e] eqn:Eo.
  2:{ destruct e; try discriminate; (intros H; injection H as <- _ _; split; [intros _; apply ft_open; auto|discriminate]). }
  destruct (file_start w c b) as [[[[[[xyzs si] l] iv] pos]|]|e] eqn:Es; [| |discriminate].
  - destruct (file_start_spec w c b xyzs si l iv pos Es) as [Hl [Hg [_ [Hco [Hsi _]]]]]. rewrite (open_name _ _ Eo) in Hco.
    assert (Hsu : suitable b) by (apply (start_suitable b _ Es); intros X; clear -X; discriminate).
    destruct (do_op _ _ pos) as [st|e]; [|discriminate].
    destruct (record_loop w c b xyzs si None k l st (b_steps b)) as [[[k2 st2] os2] e2] eqn:Er. intros H. apply pair4 in H. destruct H as [<- [_ [_ ->]]].
    assert (Gl : forall day, b_date b = Some day -> loc_good w c day k l) by (intros; apply loc_nil; exact Hl).
    pose proof (open_obs_dated w name b Eo) as Hd. split.
    + intros Hne. destruct (used_errors_some w c b xyzs si k l st k2 st2 os2 Hd Hsi G Gl Hg Er Hne) as [X|[s [H1 [H2 [H3 H4]]]]].
      * exact (ft_broken _ _ _ b Eo Hsu X).
      * exact (ft_record _ _ _ b xyzs s Eo Hsu Hco H1 H2 H3 H4).
    + intros Hz Hn. destruct (loop_errors_spec w c b xyzs si _ _ _ _ _ _ _ _ G Gl Hg Er) as [_ H2]. destruct (H2 Hz Hn) as [Hn' [Hend _]]. split; [exact Hn'|].
      intros [[X|X]|b' t0 ts X X2 X3 X4|b' X X2 X3|b' xyzs' s X X2 X3 X4 X5 X6 X7]; try (rewrite Eo in X; apply (f_equal (fun r => match r with Ok x => Some x | Err _ => None end)) in X; cbv beta iota in X).
      * clear -X. discriminate.
      * clear -X. discriminate.
      * apply some_inj in X. subst b'. destruct Hsu as [_ [t1 E]]. rewrite E in X3. apply some_inj in X3. apply X4. now injection X3 as _ <-.
      * apply some_inj in X. subst b'. exact (Hend X3).
      * apply some_inj in X. subst b'. rewrite (coordinates_fun name _ _ X3 Hco) in X7. destruct X6 as [kept [Hu Hin]].
        rewrite (used_loop w c b xyzs si kept None k l st Hd Hsi Hu) in Er. rewrite (used_errors w c b xyzs si kept None k l st Hd Hsi Hu) in Hz.
        destruct (loop_errors_spec w c b xyzs None _ _ _ _ _ _ _ _ G Gl Hg Er) as [_ H3]. destruct (H3 Hz Hn) as [_ [_ H4]].
        exact (H4 eq_refl s Hin X5 X7).
  - intros H. apply pair4 in H. destruct H as [<- _]. split.
    + intros Hne. apply time_errors_gps in Hne. destruct Hne as [H1 [t0 [ts [H2 H3]]]]. exact (ft_time _ _ _ b t0 ts Eo H1 H2 H3).
    + intros Hz Hn. split; [exact Hn|]. pose proof (proj1 (start_suitable b _ Es)) as Hsu.
      intros [[X|X]|b' t0 ts X X2 X3 X4|b' X X2 X3|b' xyzs' s X X2 X3 X4 X5 X6 X7]; try (rewrite Eo in X; apply (f_equal (fun r => match r with Ok x => Some x | Err _ => None end)) in X; cbv beta iota in X).
      * clear -X. discriminate.
      * clear -X. discriminate.
      * apply some_inj in X. subst b'. apply (proj2 (time_errors_gps b)); [|exact Hz]. split; [exact X2|]. exists t0, ts. auto.
      * apply some_inj in X. subst b'. apply (proj2 Hsu X2). reflexivity.
      * apply some_inj in X. subst b'. apply (proj2 Hsu X2). reflexivity.
Qed.
Lemma files_errors_spec names : forall k f f' log, good w c k -> files_loop w c k f names = (f', log, None) ->
  (files_errors w c k f names <> 0 -> exists name, In name names /\ ftrouble u_some (bad_some w c) name) /\
  (files_errors w c k f names = 0 -> no_bad w c k -> forall name, In name names -> ~ ftrouble u_all (bad_all w c) name).
Proof.
  induction names as [|nm r IH]; intros k f f' log G; cbn [files_loop files_errors]; [intros _; split; [intros X; now destruct X|intros _ _ name []]|].
  destruct (file_step w c k f nm) as [[[k1 f1] os] e] eqn:Ef. destruct e as [e|]; [intros X; clear -X; discriminate|].
  destruct (file_step_spec w c k f nm k1 f1 os None G Ef) as [G1 _]. destruct (file_errors_spec _ _ _ _ _ _ G Ef) as [F1 F2].
  destruct (files_loop w c k1 f1 r) as [[f2 log2] e2] eqn:El. intros H. apply pair3 in H. destruct H as [_ [_ ->]].
  destruct (IH _ _ _ _ (G1 eq_refl) El) as [H1 H2]. split.
  - intros Hne. destruct (Nat.eq_dec (file_errors w c k f nm) 0) as [Hz|Hz].
    + destruct H1 as [name [Hin Ht]]; [lia|]. exists name. split; [now right|exact Ht].
    + exists nm. split; [now left|exact (F1 Hz)].
  - intros Hz Hn. destruct (F2 ltac:(lia) Hn) as [Hn1 Hnt]. intros name [<-|Hin]; [exact Hnt|]. exact (H2 ltac:(lia) Hn1 name Hin).
Qed.
Lemma no_bad_none : no_bad w c no_caches.
Proof. intros sys n t v H. discriminate. Qed.
Lemma found_iff name : In name (sort_str (find_files (w_ls w) (c_obsdir c) RE_OBS)) <-> found w c name.
Proof. unfold found. split; apply Permutation.Permutation_in; [apply Permutation.Permutation_sym|]; apply sort_perm. Qed.
Lemma main_errors_spec f : stopped_by w c f = None ->
  (main_errors w c f <> 0 -> may_fail w c) /\ (must_fail w c -> main_errors w c f <> 0).
Proof.
  unfold stopped_by, main, main_errors. pose proof found_iff as Hf. destruct (sort_str _) as [|nm r] eqn:En; [discriminate|].
  destruct (files_loop w c no_caches f (nm :: r)) as [[f' log] e] eqn:El. cbn [fst snd]. intros ->.
  destruct (files_errors_spec _ _ _ _ _ (good_none w c) El) as [H1 H2]. split.
  - intros Hne. destruct (H1 Hne) as [name [Hin Ht]]. apply trouble_iff. exists name. split; [now apply Hf|exact Ht].
  - intros Hm Hz. apply trouble_iff in Hm. destruct Hm as [name [Hin Ht]]. apply Hf in Hin. exact (H2 Hz no_bad_none name Hin Ht).
Qed.
End Errors.
