(** The order of the directories' entries, and the file of coordinates. *)
From Coq Require Import ZifyBool ZifyNat Sorting.Sorted Sorting.Permutation.
From Verif Require Import Base PyStr PyFloat PyDate PyPath PyRegex S_Text S_Time S_Open2 M_Common M_Header M_Obs2 M_Obs3 M_Rec M_Text M_Cfg M_Label M_Names M_Xyz M_Nav M_NmUtils M_Num M_Tec M_Sat M_Main M_Run S_Names S_Xyz S_Label S_Main S_Fresh S_Run S_Out P_Str P_Date P_Label P_Out P_Main1 P_Main2 P_Main3 P_Main4 P_Main5 P_Main6 P_Main7 P_Main8 P_Main12 P_Run1 P_Run2 P_Run3 P_Run4.
Open Scope nat_scope.

Lemma sorted_unique {A} (le : A -> A -> Prop) : (forall a b, le a b -> le b a -> a = b) ->
  forall l l', Permutation l l' -> StronglySorted le l -> StronglySorted le l' -> l = l'.
Proof.
  intros Hanti. induction l as [|a l IH]; intros l' Hp Hs Hs'.
  - symmetry. apply Permutation_nil. exact Hp.
  - destruct l' as [|b l']; [symmetry in Hp; apply Permutation_nil in Hp; discriminate|].
    inversion Hs as [|? ? H1 H2]; inversion Hs' as [|? ? H1' H2']; subst. rewrite Forall_forall in H2, H2'.
    assert (a = b).
    { destruct (Permutation_in a Hp (or_introl eq_refl)) as [->|Ha]; [reflexivity|].
      destruct (Permutation_in b (Permutation_sym Hp) (or_introl eq_refl)) as [->|Hb]; [reflexivity|]. apply Hanti; auto. }
    subst b. f_equal. apply IH; [|exact H1|exact H1']. exact (Permutation_cons_inv Hp).
Qed.
Lemma files_perm ls ls' dirs r : (forall d, In d dirs -> Permutation (ls d) (ls' d)) -> Permutation (find_files ls dirs r) (find_files ls' dirs r).
Proof.
  unfold find_files. induction dirs as [|d dirs IH]; intros H; cbn [flat_map]; [constructor|]. apply Permutation_app; [|apply IH; intros; apply H; now right].
  apply Permutation_map. specialize (H d (or_introl eq_refl)). clear -H. induction H; cbn [filter]; [constructor| | |].
  - destruct (re_test r x); [now constructor|exact IHPermutation].
  - destruct (re_test r x), (re_test r y); try apply perm_swap; apply Permutation_refl.
  - exact (Permutation_trans IHPermutation1 IHPermutation2).
Qed.
Lemma files_eq ls ls' dirs r : (forall d, In d dirs -> ls' d = ls d) -> find_files ls' dirs r = find_files ls dirs r.
Proof. unfold find_files. induction dirs as [|d dirs IH]; intros H; cbn [flat_map]; [reflexivity|]. rewrite (H d (or_introl eq_refl)), IH; [reflexivity|]. intros; apply H; now right. Qed.

Lemma str_le_antisym a b : str_le a b -> str_le b a -> a = b.
Proof.
  intros H. induction H as [s|a b s t H|a s t H IH]; intros G.
  - now inversion G.
  - inversion G as [|? ? ? ? G'|]; subst; exfalso; [exact (N.lt_irrefl _ (N.lt_trans _ _ _ H G'))|exact (N.lt_irrefl _ H)].
  - inversion G as [|? ? ? ? G'|? ? ? G']; subst; [exfalso; exact (N.lt_irrefl _ G')|]. now rewrite (IH G').
Qed.
Section Order.
Variables (w : world) (c : cfg) (ls : str -> list str).
Hypothesis Hobs : Permutation (find_files (w_ls w) (c_obsdir c) RE_OBS) (find_files ls (c_obsdir c) RE_OBS).
Hypothesis Hxyz : find_files ls (c_obsdir c) RE_XYZ = [] <-> find_files (w_ls w) (c_obsdir c) RE_XYZ = [].
Hypothesis Hnav : forall t sys, find_nav_files ls (c_navdir c) t sys = find_nav_files (w_ls w) (c_navdir c) t sys.
Let w' := with_ls w ls.
Lemma load_ls t sys prio : load_navigation_message ls (w_nav w) (c_navdir c) t sys prio = load_navigation_message (w_ls w) (w_nav w) (c_navdir c) t sys prio.
Proof. unfold load_navigation_message. rewrite !Hnav. reflexivity. Qed.
Lemma nav_step_ls k l t sys : nav_step w' c k l t sys = nav_step w c k l t sys.
Proof. unfold nav_step. cbn [w' with_ls w_ls w_nav]. rewrite load_ls. reflexivity. Qed.
Lemma body_ls xyzs lp k l s t sys n : record_body w' c xyzs lp k l s t sys n = record_body w c xyzs lp k l s t sys n.
Proof. unfold record_body. rewrite nav_step_ls. reflexivity. Qed.
Lemma loop_ls b xyzs si steps : forall last k l st, record_loop w' c b xyzs si last k l st steps = record_loop w c b xyzs si last k l st steps.
Proof.
  induction steps as [|s r IH]; intros last k l st; cbn [record_loop]; [reflexivity|].
  destruct (record_ident s) as [[[t sys] n]|e]; [|reflexivity]. destruct (accept _ _ _ _ _) as [last'|]; [|apply IH].
  rewrite body_ls. destruct (record_body w c xyzs _ k l s t sys n) as [[[k' l'] ops]|e]; [|reflexivity].
  change (out_of w' c) with (out_of w c). destruct (do_ops _ _ _) as [st'|e]; [|reflexivity]. rewrite IH. reflexivity.
Qed.
Lemma xyz_ls name : xyz_data w' c name = xyz_data w c name.
Proof.
  unfold xyz_data. cbn [w' with_ls w_ls w_crd w_there].
  destruct (find_files (w_ls w) (c_obsdir c) RE_XYZ) as [|a l], (find_files ls (c_obsdir c) RE_XYZ) as [|a' l']; try reflexivity.
  - destruct Hxyz as [_ H]. specialize (H eq_refl). discriminate.
  - destruct Hxyz as [H _]. specialize (H eq_refl). discriminate.
Qed.
Lemma start_ls b : file_start w' c b = file_start w c b.
Proof. unfold file_start. rewrite xyz_ls. reflexivity. Qed.
Lemma file_ls k f name : file_step w' c k f name = file_step w c k f name.
Proof.
  unfold file_step. change (open_obs w' name) with (open_obs w name). destruct (open_obs w name) as [b|e]; [|reflexivity]. rewrite start_ls.
  destruct (file_start w c b) as [[[[[[xyzs si] l] iv] pos]|]|e]; [|reflexivity|reflexivity].
  change (out_of w' c) with (out_of w c). destruct (do_op _ _ pos) as [st|e]; [|reflexivity]. rewrite loop_ls. reflexivity.
Qed.
Lemma files_ls names : forall k f, files_loop w' c k f names = files_loop w c k f names.
Proof.
  induction names as [|nm r IH]; intros k f; cbn [files_loop]; [reflexivity|]. rewrite file_ls.
  destruct (file_step w c k f nm) as [[[k' f'] os] [e|]]; [reflexivity|]. rewrite IH. reflexivity.
Qed.
Lemma names_ls : sort_str (find_files ls (c_obsdir c) RE_OBS) = sort_str (find_files (w_ls w) (c_obsdir c) RE_OBS).
Proof.
  apply (sorted_unique str_le str_le_antisym); [|apply sort_strongly|apply sort_strongly].
  eapply Permutation_trans; [apply Permutation_sym, sort_perm|]. eapply Permutation_trans; [apply Permutation_sym, Hobs|apply sort_perm].
Qed.
Lemma main_ls f : main w' c f = main w c f.
Proof.
  unfold main. cbn [w' with_ls w_ls]. rewrite names_ls.
  destruct (sort_str (find_files (w_ls w) (c_obsdir c) RE_OBS)) as [|nm r]; [reflexivity|]. apply files_ls.
Qed.
Lemma record_errors_ls xyzs k l s t sys n : record_errors w' c xyzs k l s t sys n = record_errors w c xyzs k l s t sys n.
Proof. unfold record_errors. rewrite nav_step_ls. reflexivity. Qed.
Lemma loop_errors_ls b xyzs si steps : forall last k l st, loop_errors w' c b xyzs si last k l st steps = loop_errors w c b xyzs si last k l st steps.
Proof.
  induction steps as [|s r IH]; intros last k l st; cbn [loop_errors]; [reflexivity|].
  destruct (record_ident s) as [[[t sys] n]|e]; [|reflexivity]. destruct (accept _ _ _ _ _) as [last'|]; [|apply IH].
  rewrite body_ls. destruct (record_body w c xyzs _ k l s t sys n) as [[[k' l'] ops]|e]; [|reflexivity].
  change (out_of w' c) with (out_of w c). destruct (do_ops _ _ _) as [st'|e]; [|reflexivity]. rewrite IH, record_errors_ls. reflexivity.
Qed.
Lemma file_errors_ls k f name : file_errors w' c k f name = file_errors w c k f name.
Proof.
  unfold file_errors. change (open_obs w' name) with (open_obs w name). destruct (open_obs w name) as [b|e]; [|reflexivity]. rewrite start_ls.
  destruct (file_start w c b) as [[[[[[xyzs si] l] iv] pos]|]|e]; [|reflexivity|reflexivity].
  change (out_of w' c) with (out_of w c). destruct (do_op _ _ pos) as [st|e]; [|reflexivity]. apply loop_errors_ls.
Qed.
Lemma files_errors_ls names : forall k f, files_errors w' c k f names = files_errors w c k f names.
Proof.
  induction names as [|nm r IH]; intros k f; cbn [files_errors]; [reflexivity|]. rewrite file_ls, file_errors_ls.
  destruct (file_step w c k f nm) as [[[k' f'] os] e]. rewrite IH. reflexivity.
Qed.
Lemma save_ls names : forall f, save_loop w' f names = save_loop w f names.
Proof.
  induction names as [|nm r IH]; intros f; cbn [save_loop]; [reflexivity|]. change (open_obs w' nm) with (open_obs w nm).
  destruct (open_obs w nm) as [b|e]; [|destruct e; auto]. change (crds_line w' nm b) with (crds_line w nm b).
  destruct (crds_line w nm b) as [[line|]|e]; auto.
Qed.
Lemma nonav_ls names : nonav_files w' c names = nonav_files w c names /\ nonav_errors w' c names = nonav_errors w c names.
Proof.
  induction names as [|nm r [IH1 IH2]]; cbn [nonav_files nonav_errors]; [auto|]. change (open_obs w' nm) with (open_obs w nm).
  destruct (open_obs w nm) as [b|e]; [|rewrite IH1, IH2; auto]. rewrite start_ls, IH1, IH2. auto.
Qed.
Lemma full_ls save isdir f : full_main save isdir w' c f = full_main save isdir w c f.
Proof.
  assert (Hm : main_errors w' c f = main_errors w c f).
  { unfold main_errors. cbn [w' with_ls w_ls]. rewrite names_ls. apply files_errors_ls. }
  assert (Hs : save_main w' c f = save_main w c f).
  { unfold save_main. cbn [w' with_ls w_ls]. rewrite names_ls. destruct (sort_str (find_files (w_ls w) (c_obsdir c) RE_OBS)); [reflexivity|]. apply save_ls. }
  unfold full_main. rewrite main_ls, Hm, Hs. cbn [w' with_ls w_ls]. rewrite names_ls.
  destruct (negb _); [reflexivity|]. destruct save.
  - assert (E : forall names, save_errors w' names = save_errors w names).
    { induction names as [|nm r IH]; cbn [save_errors]; [reflexivity|]. change (open_obs w' nm) with (open_obs w nm). rewrite IH. reflexivity. }
    rewrite E. reflexivity.
  - destruct (negb _); [|reflexivity]. destruct (sort_str (find_files (w_ls w) (c_obsdir c) RE_OBS)); [reflexivity|].
    destruct (nonav_ls (s :: l)) as [-> ->]. reflexivity.
Qed.
End Order.
Lemma perm_short {A} (l l' : list A) : Permutation l l' -> length l <= 1 -> l' = l.
Proof.
  intros H Hl. destruct l as [|a [|b l]]; [now apply Permutation_nil in H|now apply Permutation_length_1_inv in H|cbn in Hl; lia].
Qed.
Lemma order_free save isdir w c ls f :
  (forall d, In d (c_obsdir c) \/ In d (c_navdir c) -> Permutation (w_ls w d) (ls d)) ->
  (forall t sys, length (find_nav_files (w_ls w) (c_navdir c) t sys) <= 1) \/ (forall d, In d (c_navdir c) -> ls d = w_ls w d) ->
  full_main save isdir (with_ls w ls) c f = full_main save isdir w c f.
Proof.
  intros Hp Hn. apply full_ls; [apply files_perm; intros d Hd; apply Hp; auto| |].
  { pose proof (files_perm (w_ls w) ls (c_obsdir c) RE_XYZ (fun d Hd => Hp d (or_introl Hd))) as H.
    split; intros E; rewrite E in H; [symmetry in H|]; apply Permutation_nil in H; exact H. }
  intros t sys. destruct Hn as [Hn|Hn].
  - apply perm_short; [|apply Hn]. unfold find_nav_files. apply files_perm. intros d Hd. apply Hp. auto.
  - unfold find_nav_files. apply files_eq. exact Hn.
Qed.
