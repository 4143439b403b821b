(** Runs over other sets of observation files: what the other files of the directories are to a file. *)
From Coq Require Import ZifyBool ZifyNat Sorting.Permutation.
From Verif Require Import Base PyStr PyFloat PyDate PyPath PyRegex S_Text S_Time S_Open2 M_Common M_Header M_Obs2 M_Obs3 M_Rec M_Text M_Cfg M_Label M_Names M_Xyz M_Nav M_NmUtils M_Num M_Tec M_Sat M_Main M_Run S_Names S_Xyz S_Label S_Main S_Fresh S_Run S_Alone S_Out P_Str P_Date P_Label P_Out P_Main1 P_Main2 P_Main3 P_Main4 P_Main5 P_Main6 P_Main7 P_Main8 P_Main9 P_Main10 P_Main12 P_Run1 P_Run2 P_Run3 P_Run4 P_Run5.
Open Scope nat_scope.

Section Other.
Variables (w : world) (c : cfg) (ls : str -> list str).
Hypothesis Hsame : same_aids w c ls.
Let w' := with_ls w ls.
Lemma al_files names k f : files_loop w' c k f names = files_loop w c k f names.
Proof. apply files_ls; apply Hsame. Qed.
Lemma al_main f names : sort_str (find_files ls (c_obsdir c) RE_OBS) = names -> names <> [] -> main w' c f = files_loop w c no_caches f names.
Proof.
  intros Hn Hne. unfold main. cbn [w' with_ls w_ls]. rewrite Hn. destruct names as [|nm r]; [contradiction|]. apply al_files.
Qed.
(** a file that cannot be opened, and the run without it *)
Lemma skip_without f names1 name names2 : sort_str (find_files (w_ls w) (c_obsdir c) RE_OBS) = names1 ++ name :: names2 ->
  sort_str (find_files ls (c_obsdir c) RE_OBS) = names1 ++ names2 -> names1 ++ names2 <> [] ->
  (open_obs w name = Err RinexError \/ open_obs w name = Err UncompressError) ->
  fst (fst (main w c f)) = fst (fst (main w' c f)) /\ stopped_by w c f = stopped_by w' c f /\
  (forall nm ops, ops <> [] -> written w c f nm ops <-> written w' c f nm ops).
Proof.
  intros H1 H2 Hne Ho. pose proof (skip_file w c f names1 name names2 H1 Ho) as H. cbv zeta in H.
  unfold stopped_by, written in *. rewrite (al_main f _ H2 Hne). exact H.
Qed.

(** ** without the dictionaries *)
Definition comp (name : str) : Prop := forall b s t sys n, open_obs w name = Ok b -> In s (b_steps b) -> identifies s t sys n -> In sys systems -> ~ incomputable w c t sys n.
Definition ops_of (name : str) : list wop := snd (fst (fresh_file w c [] name)).
Definition end_of (name : str) : option exn := snd (fresh_file w c [] name).
Lemma comp_files names : forall k f, good w c k -> (forall nm, In nm names -> comp nm) -> files_loop w c k f names = fresh_files w c f names.
Proof.
  induction names as [|nm r IH]; intros k f G Hc; cbn [files_loop fresh_files]; [reflexivity|].
  pose proof (file_fresh w c k f nm G (Hc nm (or_introl eq_refl))) as H.
  destruct (file_step w c k f nm) as [[[k1 f1] os] e]. destruct H as [H1 ->]. destruct e as [e|]; [reflexivity|].
  now rewrite (IH k1 f1 (H1 eq_refl) (fun n Hn => Hc n (or_intror Hn))).
Qed.
Lemma fresh_any f name : comp name -> exists f', fresh_file w c f name = (f', ops_of name, end_of name).
Proof.
  intros Hc. unfold ops_of, end_of.
  pose proof (file_same w c no_caches f [] name) as H.
  pose proof (file_fresh w c no_caches f name (good_none w c) Hc) as A.
  pose proof (file_fresh w c no_caches [] name (good_none w c) Hc) as B.
  destruct (file_step w c no_caches f name) as [[[k1 f1] os1] e1], (file_step w c no_caches [] name) as [[[k2 f2] os2] e2].
  destruct H as [_ [<- <-]]. destruct A as [_ A], B as [_ B]. rewrite A, B. exists f1. reflexivity.
Qed.
Lemma fresh_log names : forall f, (forall nm, In nm names -> comp nm /\ end_of nm = None) ->
  exists f', fresh_files w c f names = (f', map (fun nm => (nm, ops_of nm)) names, None).
Proof.
  induction names as [|nm r IH]; intros f H; cbn [fresh_files map]; [exists f; reflexivity|].
  destruct (H nm (or_introl eq_refl)) as [H1 H2]. destruct (fresh_any f nm H1) as [f1 E]. rewrite E, H2.
  destruct (IH f1 (fun n Hn => H n (or_intror Hn))) as [f2 ->]. exists f2. reflexivity.
Qed.
Lemma fresh_none names : (forall nm, In nm names -> comp nm) -> forall f f' log, fresh_files w c f names = (f', log, None) -> forall nm, In nm names -> end_of nm = None.
Proof.
  intros Hc. induction names as [|nm r IH]; intros f f' log; cbn [fresh_files]; [intros _ n []|].
  destruct (fresh_any f nm (Hc nm (or_introl eq_refl))) as [f1 E]. rewrite E. destruct (end_of nm) as [e|] eqn:Ee; [discriminate|].
  destruct (fresh_files w c f1 r) as [[f2 log2] e2] eqn:E2. intros X n [<-|Hn]; [exact Ee|].
  assert (e2 = None) by congruence. subst e2. exact (IH (fun n Hn => Hc n (or_intror Hn)) f1 f2 log2 E2 n Hn).
Qed.
Hypothesis Hc : computable_files w c.
Lemma found_comp nm : In nm (find_files (w_ls w) (c_obsdir c) RE_OBS) -> comp nm.
Proof. intros H b s t sys n. exact (Hc nm b s t sys n H). Qed.
Lemma run_log f : stopped_by w c f = None ->
  (forall nm, In nm (find_files (w_ls w) (c_obsdir c) RE_OBS) -> comp nm /\ end_of nm = None) /\
  snd (fst (main w c f)) = map (fun nm => (nm, ops_of nm)) (sort_str (find_files (w_ls w) (c_obsdir c) RE_OBS)).
Proof.
  unfold stopped_by, main. pose proof found_comp as Hf.
  set (names := sort_str (find_files (w_ls w) (c_obsdir c) RE_OBS)).
  assert (Hin : forall nm, In nm (find_files (w_ls w) (c_obsdir c) RE_OBS) <-> In nm names) by (intros nm; split; intros H; [exact (Permutation_in nm (sort_perm _) H)|exact (Permutation_in nm (Permutation_sym (sort_perm _)) H)]).
  clearbody names. destruct names as [|n0 r0]; [discriminate|].
  assert (Hcn : forall nm, In nm (n0 :: r0) -> comp nm) by (intros nm H; apply Hf, Hin, H).
  rewrite (comp_files _ no_caches f (good_none w c) Hcn).
  destruct (fresh_files w c f (n0 :: r0)) as [[f' log] e] eqn:E. cbn [fst snd]. intros ->.
  pose proof (fresh_none _ Hcn _ _ _ E) as Hn. split; [intros nm H; split; [exact (Hf nm H)|apply Hn, Hin, H]|].
  destruct (fresh_log (n0 :: r0) f (fun nm H => conj (Hcn nm H) (Hn nm H))) as [f2 E2]. rewrite E in E2. congruence.
Qed.
Lemma sub_log f : find_files ls (c_obsdir c) RE_OBS <> [] ->
  (forall nm, In nm (find_files ls (c_obsdir c) RE_OBS) -> comp nm /\ end_of nm = None) ->
  stopped_by w' c f = None /\ snd (fst (main w' c f)) = map (fun nm => (nm, ops_of nm)) (sort_str (find_files ls (c_obsdir c) RE_OBS)).
Proof.
  intros Hne Hn. set (names := sort_str (find_files ls (c_obsdir c) RE_OBS)).
  assert (Hp : Permutation (find_files ls (c_obsdir c) RE_OBS) names) by apply sort_perm.
  assert (Hne' : names <> []). { intros E. rewrite E in Hp. apply Hne. symmetry in Hp. now apply Permutation_nil in Hp. }
  assert (Hn' : forall nm, In nm names -> comp nm /\ end_of nm = None) by (intros nm Hin; apply Hn; exact (Permutation_in nm (Permutation_sym Hp) Hin)).
  unfold stopped_by. rewrite (al_main f names eq_refl Hne'), (comp_files names no_caches f (good_none w c) (fun nm H => proj1 (Hn' nm H))).
  destruct (fresh_log names f Hn') as [f' ->]. split; reflexivity.
Qed.
Lemma alone_written f f' : stopped_by w c f = None -> find_files ls (c_obsdir c) RE_OBS <> [] ->
  (forall nm, In nm (find_files ls (c_obsdir c) RE_OBS) -> In nm (find_files (w_ls w) (c_obsdir c) RE_OBS)) ->
  stopped_by w' c f' = None /\
  (forall name ops, In name (find_files ls (c_obsdir c) RE_OBS) -> (written w' c f' name ops <-> written w c f name ops)).
Proof.
  intros Hs Hne Hsub. destruct (run_log f Hs) as [He Hl]. destruct (sub_log f' Hne (fun nm H => He nm (Hsub nm H))) as [Hs' Hl'].
  split; [exact Hs'|]. intros name ops Hin. unfold written. rewrite Hl, Hl', !in_map_iff. split; intros [nm [E Hi]]; exists nm; (split; [exact E|]).
  - apply (Permutation_in nm (sort_perm _)), Hsub, (Permutation_in nm (Permutation_sym (sort_perm _))), Hi.
  - injection E as -> _. exact (Permutation_in name (sort_perm _) Hin).
Qed.
End Other.
Lemma last_split (name : str) (names : list str) : In name names -> exists pre post, names = pre ++ name :: post /\ ~ In name post.
Proof.
  induction names as [|n r IH]; [intros []|]. intros Hin.
  assert (Hd : In name r \/ ~ In name r).
  { clear. induction r as [|x r IH]; [right; intros []|]. destruct (path_dec x name) as [->|H]; [left; now left|]. destruct IH as [IH|IH]; [left; now right|].
    right. intros [E|E]; contradiction. }
  destruct Hd as [Hd|Hd].
  - destruct (IH Hd) as [pre [post [-> Hn]]]. exists (n :: pre), post. split; [reflexivity|exact Hn].
  - destruct Hin as [->|Hin]; [|contradiction]. exists [], r. split; [reflexivity|exact Hd].
Qed.
Section Files.
Variables (w : world) (c : cfg) (ls : str -> list str).
Hypothesis Hsame : same_aids w c ls.
Hypothesis Hc : computable_files w c.
Lemma alone_files f f' name ops sat d : stopped_by w c f = None ->
  (forall nm, In nm (find_files ls (c_obsdir c) RE_OBS) -> In nm (find_files (w_ls w) (c_obsdir c) RE_OBS)) ->
  In name (find_files ls (c_obsdir c) RE_OBS) -> written w c f name ops -> rows_of sat ops <> [] -> get_rinex_date name = Some d ->
  (forall name' ops', written w c f name' ops' -> rows_of sat ops' <> [] -> name' = name \/ marker_of name' <> marker_of name \/ get_rinex_date name' <> get_rinex_date name) ->
  let p := result_file (c_outdir c) (marker_of name) sat d in
  fs_get p (fst (fst (main (with_ls w ls) c f'))) = fs_get p (fst (fst (main w c f))).
Proof.
  intros Hs Hsub Hin Hw Hr Hd Hother p.
  assert (Hne : find_files ls (c_obsdir c) RE_OBS <> []) by (intros E; rewrite E in Hin; contradiction).
  destruct (alone_written w c ls Hsame Hc f f' Hs Hne Hsub) as [Hs' Hwr].
  destruct (run_log w c Hc f Hs) as [He Hl]. destruct (sub_log w c ls Hsame f' Hne (fun nm H => He nm (Hsub nm H))) as [_ Hl'].
  assert (Hsp : forall v g names, snd (fst (main v c g)) = map (fun nm => (nm, ops_of w c nm)) names -> In name names ->
     exists pre post, snd (fst (main v c g)) = pre ++ (name, ops_of w c name) :: post /\ forall n o, In (n, o) post -> n <> name).
  { intros v g names E Hi. destruct (last_split name names Hi) as [pre [post [-> Hn]]]. rewrite E, map_app. cbn [map]. eexists; eexists. split; [reflexivity|].
    intros n o Ho. apply in_map_iff in Ho. destruct Ho as [x [X Hx]]. injection X as <- _. intros ->. contradiction. }
  assert (Eo : ops = ops_of w c name). { unfold written in Hw. rewrite Hl in Hw. apply in_map_iff in Hw. destruct Hw as [x [X _]]. congruence. }
  subst ops.
  destruct (Hsp w f _ Hl (Permutation_in name (sort_perm _) (Hsub _ Hin))) as [pre [post [L N]]].
  destruct (Hsp (with_ls w ls) f' _ Hl' (Permutation_in name (sort_perm _) Hin)) as [pre' [post' [L' N']]].
  destruct (run_target w c f pre name _ post sat Hs L Hr) as [b [iv [d1 [f1 [f2 [Ho [Hiv [Hd1 [_ [K [E2 Ht]]]]]]]]]]].
  { intros n o Hi Hrow. destruct (Hother n o) as [X|X]; [unfold written; rewrite L; apply in_app_iff; right; now right|exact Hrow|destruct (N n o Hi X)|exact X]. }
  destruct (run_target (with_ls w ls) c f' pre' name _ post' sat Hs' L' Hr) as [b' [iv' [d1' [f1' [f2' [Ho' [Hiv' [Hd1' [_ [K' [E2' Ht']]]]]]]]]]].
  { intros n o Hi Hrow. assert (Hwn : written (with_ls w ls) c f' n o) by (unfold written; rewrite L'; apply in_app_iff; right; now right).
    assert (Hn : In n (find_files ls (c_obsdir c) RE_OBS)).
    { unfold written in Hwn. rewrite Hl' in Hwn. apply in_map_iff in Hwn. destruct Hwn as [x [X Hx]]. injection X as -> _. exact (Permutation_in n (Permutation_sym (sort_perm _)) Hx). }
    destruct (Hother n o (proj1 (Hwr n o Hn) Hwn) Hrow) as [X|X]; [destruct (N' n o Hi X)|exact X]. }
  change (open_obs (with_ls w ls) name) with (open_obs w name) in Ho'. change (out_of (with_ls w ls) c) with (out_of w c) in E2'.
  assert (b' = b) by congruence. subst b'. assert (iv' = iv) by congruence. subst iv'. assert (d1 = d) by congruence. assert (d1' = d) by congruence. subst d1 d1'.
  unfold p. rewrite Ht, Ht'. symmetry. exact (written_same (out_of w c) f1 f1' name iv _ f2 f2' d sat K Hr E2 E2').
Qed.
End Files.
(** ... and nothing but such a file *)
Lemma skip_only w c f name : find_files (w_ls w) (c_obsdir c) RE_OBS = [name] -> (open_obs w name = Err RinexError \/ open_obs w name = Err UncompressError) ->
  fst (fst (main w c f)) = f /\ stopped_by w c f = None /\ forall nm ops, written w c f nm ops -> ops = [].
Proof.
  intros Hn Ho. unfold stopped_by, written, main. rewrite Hn. change (sort_str [name]) with [name]. cbn [files_loop]. unfold file_step.
  destruct Ho as [-> | ->]; cbn [fst snd]; (split; [reflexivity|]; split; [reflexivity|]); intros nm ops [E|[]]; now injection E as _ <-.
Qed.
