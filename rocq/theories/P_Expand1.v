(** Runs over the same data stored differently. *)
From Verif Require Import Base PyStr PyFloat PyDate PyPath PyRegex M_Common M_Header M_Obs2 M_Obs3 M_Label M_Rec M_Text M_Cfg M_Names M_Xyz M_Nav M_NmUtils M_Num M_Tec M_Sat M_Main M_Expand.
From Verif Require Import S_Names S_Main S_Expand P_Str P_Main1.
Open Scope nat_scope.

(** dictionaries under a map of the values *)
Section Dict.
Context {K V W : Type} (eqb : K -> K -> bool) (g : V -> W).
Definition vmap (d : list (K * V)) : list (K * W) := map (fun e => (fst e, g (snd e))) d.
Lemma vmap_get k d : dict_get eqb k (vmap d) = option_map g (dict_get eqb k d).
Proof. induction d as [|[k' v] d IH]; [reflexivity|]. cbn [vmap map fst snd dict_get]. destruct (eqb k k'); [reflexivity|exact IH]. Qed.
Lemma vmap_set k v d : vmap (dict_set eqb k v d) = dict_set eqb k (g v) (vmap d).
Proof. induction d as [|[k' v'] d IH]; [reflexivity|]. cbn [dict_set vmap map fst snd]. destruct (eqb k k'); [reflexivity|]. cbn [vmap map fst snd]. f_equal. exact IH. Qed.
End Dict.

Definition en (n : option str) : option unit := option_map (fun _ => tt) n.
Definition ef (l : list (ascii * option str)) : list (ascii * option unit) := vmap en l.
Definition ek (l : list (date * list (ascii * option str))) : list (date * list (ascii * option unit)) := vmap ef l.
Definition simk (k k' : caches) : Prop := ek (k_nav k) = ek (k_nav k') /\ k_xyz k = k_xyz k' /\ k_glo k = k_glo k'.
Definition es (s : satst) : str * option str := (s_def s, s_fout s).
Definition simw (x x' : writer) : Prop :=
  marker_of (w_obs x) = marker_of (w_obs x') /\ w_interval x = w_interval x' /\ w_path x = w_path x' /\ vmap es (w_sats x) = vmap es (w_sats x') /\
  w_xyz x = w_xyz x' /\ w_lbh x = w_lbh x'.
Definition rr {A B} (R : A -> B -> Prop) (r : res A) (r' : res B) : Prop := match r, r' with Ok a, Ok b => R a b | Err e, Err e' => e = e' | _, _ => False end.

(** ** the writer *)
Section Writer.
Variable (o o' : out_cfg).
Hypothesis (Hdir : oc_dir o = oc_dir o') (Hfmt : oc_format o = oc_format o') (Hstr : oc_strftime o = oc_strftime o').
Lemma sat_get x x' sat : simw x x' -> option_map es (dict_get seqb sat (w_sats x)) = option_map es (dict_get seqb sat (w_sats x')).
Proof. intros [_ [_ [_ [H _]]]]. rewrite <- !vmap_get. now rewrite H. Qed.
Lemma header_sim x x' s s' : simw x x' -> rr (fun _ _ => True) (header_text o x s) (header_text o' x' s').
Proof.
  intros [H1 [H2 [H3 [H4 [H5 H6]]]]]. unfold header_text. rewrite <- H5, <- H6. destruct (latest (w_xyz x)); cbn [bind rr]; [|reflexivity]. destruct (latest (w_lbh x)); cbn [bind rr]; auto.
Qed.
Lemma write_sim f f' x x' sat t q : simw x x' -> rr (fun st st' => simw (snd st) (snd st')) (write_data o f x sat t q) (write_data o' f' x' sat t q).
Proof.
  intros H. unfold write_data. cbv zeta. pose proof (sat_get x x' sat H) as Hg. destruct H as [H1 [H2 [H3 [H4 [H5 H6]]]]]. cbn [w_sats w_obs w_interval w_path w_xyz w_lbh].
  assert (Hp : (match w_path x with Some p => p | None => out_dir o (w_obs x) t end) = match w_path x' with Some p => p | None => out_dir o' (w_obs x') t end).
  { rewrite <- H3. unfold out_dir. rewrite H1, Hdir. reflexivity. }
  rewrite <- Hp, <- H2, Hfmt, Hstr. set (p := match w_path x with Some p => p | None => out_dir o (w_obs x) t end).
  destruct (dict_get seqb sat (w_sats x)) as [s|], (dict_get seqb sat (w_sats x')) as [s'|]; cbn [option_map] in Hg; try discriminate; [|reflexivity].
  injection Hg as Hd Hf. cbn [of_option bind]. rewrite <- Hf.
  destruct (s_fout s) as [out|].
  - cbn [bind]. destruct (row_text _ _ _ t q); cbn [bind rr snd]; [|reflexivity]. repeat split; assumption.
  - assert (Ho : path_join p (out_name (w_obs x) sat t) = path_join p (out_name (w_obs x') sat t)) by (unfold out_name; now rewrite H1).
    rewrite <- Ho, Hd. set (out := path_join p (out_name (w_obs x) sat t)).
    set (y := mkWriter (w_obs x) _ _ _ _ _). set (y' := mkWriter (w_obs x') _ _ _ _ _).
    assert (Hy : simw y y').
    { unfold y, y'. repeat split; cbn [w_obs w_interval w_path w_sats w_xyz w_lbh]; try assumption; try reflexivity. rewrite !vmap_set, H4. cbn [es s_def s_fout]. now rewrite ?Hd. }
    pose proof (header_sim y y' s s' Hy) as Hh. destruct (header_text o y s) as [h|], (header_text o' y' s') as [h'|]; cbn [rr] in Hh; try contradiction; cbn [bind]; [|exact Hh].
    destruct (row_text _ _ _ t q); cbn [bind rr snd]; [exact Hy|reflexivity].
Qed.
End Writer.

Section Ops.
Variable (o o' : out_cfg).
Hypothesis (Hdir : oc_dir o = oc_dir o') (Hfmt : oc_format o = oc_format o') (Hstr : oc_strftime o = oc_strftime o').
Lemma op_sim st st' x x' : simw (snd st) (snd st') -> same_call x x' -> rr (fun st st' => simw (snd st) (snd st')) (do_op o st x) (do_op o' st' x').
Proof.
  destruct st as [f y], st' as [f' y']. cbn [snd]. intros H Hc. destruct Hc as [t p l|sat sd nav nav' t q Hn]; cbn [do_op].
  - destruct H as [H1 [H2 [H3 [H4 [H5 H6]]]]]. cbn [rr snd]. unfold update_lbh, update_xyz. repeat split; cbn [w_obs w_interval w_path w_sats w_xyz w_lbh]; congruence.
  - apply write_sim; try assumption. pose proof (sat_get y y' sat H) as Hg.
    destruct (dict_get seqb sat (w_sats y)) as [s|] eqn:E, (dict_get seqb sat (w_sats y')) as [s'|] eqn:E'; cbn [option_map] in Hg; try discriminate; [exact H|].
    destruct H as [H1 [H2 [H3 [H4 [H5 H6]]]]]. unfold update_satellite. rewrite E, E'. repeat split; cbn [w_obs w_interval w_path w_sats w_xyz w_lbh]; try assumption.
    rewrite !vmap_set, H4. reflexivity.
Qed.
Lemma ops_sim os os' : Forall2 same_call os os' -> forall st st', simw (snd st) (snd st') -> rr (fun st st' => simw (snd st) (snd st')) (do_ops o st os) (do_ops o' st' os').
Proof.
  induction 1 as [|x x' os os' Hx _ IH]; intros st st' H; cbn [do_ops]; [exact H|].
  pose proof (op_sim st st' x x' H Hx) as Hs. destruct (do_op o st x) as [s1|], (do_op o' st' x') as [s1'|]; cbn [rr] in Hs; try contradiction; cbn [bind]; [now apply IH|exact Hs].
Qed.
End Ops.

(** ** the records *)
Section Run.
Variable (w w' : world) (c : cfg).
Hypothesis (Hm : same_machine w w') (Hn : same_nav w w' c).
Lemma nav_sim k k' l t sys : simk k k' ->
  rr (fun a b => simk (fst (fst a)) (fst (fst b)) /\ snd (fst a) = snd (fst b) /\ snd a = snd b) (nav_step w c k l t sys) (nav_step w' c k' l t sys).
Proof.
  intros [H1 [H2 H3]]. unfold nav_step. cbv zeta.
  set (nav := match dict_get date_eqb (dt_date t) (k_nav k) with Some _ => k_nav k | None => dict_set date_eqb (dt_date t) [] (k_nav k) end).
  set (nav' := match dict_get date_eqb (dt_date t) (k_nav k') with Some _ => k_nav k' | None => dict_set date_eqb (dt_date t) [] (k_nav k') end).
  assert (Hnav : ek nav = ek nav').
  { pose proof (f_equal (dict_get date_eqb (dt_date t)) H1) as X. unfold ek in X. rewrite !vmap_get in X. unfold nav, nav'.
    destruct (dict_get date_eqb (dt_date t) (k_nav k)), (dict_get date_eqb (dt_date t) (k_nav k')); cbn [option_map] in X; try discriminate; [exact H1|].
    unfold ek in *. rewrite !vmap_set, H1. reflexivity. }
  destruct (dict_mem ceqb sys (l_nav l)); [cbn [rr fst snd]; repeat split; assumption|].
  assert (Hfl : ef (match dict_get date_eqb (dt_date t) nav with Some x => x | None => [] end) = ef (match dict_get date_eqb (dt_date t) nav' with Some x => x | None => [] end)).
  { pose proof (f_equal (dict_get date_eqb (dt_date t)) Hnav) as X. unfold ek in X. rewrite !vmap_get in X.
    destruct (dict_get date_eqb (dt_date t) nav), (dict_get date_eqb (dt_date t) nav'); cbn [option_map] in X; try discriminate; [now injection X|reflexivity]. }
  assert (Hset : forall n n', en n = en n' -> ek (dict_set date_eqb (dt_date t) (dict_set ceqb sys n (match dict_get date_eqb (dt_date t) nav with Some x => x | None => [] end)) nav) =
     ek (dict_set date_eqb (dt_date t) (dict_set ceqb sys n' (match dict_get date_eqb (dt_date t) nav' with Some x => x | None => [] end)) nav')).
  { intros n n' E. unfold ek in *. rewrite !vmap_set, Hnav. unfold ef in *. rewrite !vmap_set, Hfl, E. reflexivity. }
  specialize (Hn t sys). destruct (load_navigation_message (w_ls w) (w_nav w) (c_navdir c) t sys (priority_of c sys)) as [[fn m]|e],
    (load_navigation_message (w_ls w') (w_nav w') (c_navdir c) t sys (priority_of c sys)) as [[fn' m']|e']; try contradiction.
  - subst m'. cbn [rr fst snd]. repeat split; try assumption. now apply Hset.
  - subst e'. destruct e; cbn [rr fst snd]; try reflexivity; (repeat split; try assumption; now apply Hset).
Qed.
Lemma sat_sim k k' l t sys n : simk k k' -> rr (fun a b => simk (fst a) (fst b) /\ snd a = snd b) (sat_step w k l t sys n) (sat_step w' k' l t sys n).
Proof.
  destruct Hm as [M1 [M2 M3]]. intros [H1 [H2 H3]]. unfold sat_step. cbv zeta. rewrite <- H2, <- H3. destruct (dict_mem _ _ (k_xyz k)); [cbn [rr fst snd]; repeat split; assumption|].
  destruct (select_navigation_message t sys n (l_nav l) true) as [[[dt eph]|]|e]; cbn [bind rr fst snd]; [|repeat split; assumption|reflexivity].
  unfold get_sat_xyz. rewrite <- M1, <- M2. set (r := match sys with "R"%char | "S"%char => _ | _ => _ end). destruct r as [p|e].
  - destruct (ceqb sys "R"); [|cbn [rr fst snd]; repeat split; assumption]. destruct (eph_at eph 7); cbn [bind rr]; [|reflexivity]. destruct (eph_at eph 3); cbn [bind rr fst snd]; [|reflexivity]. repeat split; try assumption.
  - destruct (existsb _ _); cbn [rr fst snd]; [|reflexivity]. repeat split; assumption.
Qed.
Lemma lbh_sim p : lbh_of w p = lbh_of w' p.
Proof. destruct Hm as [M1 [M2 _]]. unfold lbh_of. now rewrite M1, M2. Qed.
Lemma site_sim xyzs l s t : site_step w xyzs l s t = site_step w' xyzs l s t.
Proof. unfold site_step. now rewrite !lbh_sim; destruct (dict_get dt_eqb t xyzs); rewrite ?lbh_sim. Qed.
Lemma view_sim site p sys : view w c site p sys = view w' c site p sys.
Proof. destruct Hm as [M1 [M2 _]]. unfold view. now rewrite M1, M2. Qed.
Lemma row_sim nav nav' glo l s t sys n v : en nav = en nav' ->
  rr (fun a b => match a, b with Some x, Some y => same_call x y | None, None => True | _, _ => False end) (row_step w c nav glo l s t sys n v) (row_step w' c nav' glo l s t sys n v).
Proof.
  destruct Hm as [M1 [M2 M3]]. intros E. unfold row_step. destruct v as [[p elev] az]. rewrite <- M1. unfold sat_def_of.
  destruct (if ceqb sys "R" then of_option KeyError glo else Ok (fzero, fzero, fzero)) as [[[f1 f2] nn]|e]; cbn [bind]; [|reflexivity].
  destruct (tec_columns _ _ _ _) as [tecs|e]; cbn [bind]; [|reflexivity]. destruct (s_types s sys) as [ty|e]; cbn [bind]; [|reflexivity].
  destruct (record_validity ty (s_rec s)) as [va|e]; cbn [rr].
  - constructor. destruct nav, nav'; cbn in E; try discriminate; split; congruence.
  - destruct e; cbn [rr]; auto.
Qed.
Lemma body_sim xyzs lp k k' l s t sys n : simk k k' ->
  rr (fun a b => simk (fst (fst a)) (fst (fst b)) /\ snd (fst a) = snd (fst b) /\ Forall2 same_call (snd a) (snd b))
    (record_body w c xyzs lp k l s t sys n) (record_body w' c xyzs lp k' l s t sys n).
Proof.
  intros H. unfold record_body. pose proof (nav_sim k k' l t sys H) as H1.
  destruct (nav_step w c k l t sys) as [[[k1 l1] g1]|e], (nav_step w' c k' l t sys) as [[[k1' l1'] g1']|e']; cbn [rr] in H1; try contradiction; cbn [bind]; [|exact H1].
  cbn [fst snd] in H1. destruct H1 as [H1 [<- <-]]. destruct g1; cbn [negb]; [|cbn [rr fst snd]; auto].
  pose proof (sat_sim k1 k1' l1 t sys n H1) as H2.
  destruct (sat_step w k1 l1 t sys n) as [[k2 g2]|e], (sat_step w' k1' l1 t sys n) as [[k2' g2']|e']; cbn [rr] in H2; try contradiction; cbn [bind]; [|exact H2].
  cbn [fst snd] in H2. destruct H2 as [H2 <-]. destruct g2; cbn [negb]; [|cbn [rr fst snd]; auto].
  rewrite <- site_sim. destruct (site_step w xyzs l1 s t) as [l2|e]; cbn [bind]; [|reflexivity]. destruct lp as [last|e]; cbn [bind]; [|reflexivity]. cbv zeta.
  destruct H2 as [H2 [H3 H4]]. rewrite <- H3. destruct (dict_get sat_key_eqb _ (k_xyz k2)) as [cur|]; cbn [of_option bind]; [|reflexivity]. rewrite <- view_sim.
  assert (Hpos : Forall2 same_call (if same_xyz (l_xyz l2) last then [] else [WPos t (l_xyz l2) (l_lbh l2)]) (if same_xyz (l_xyz l2) last then [] else [WPos t (l_xyz l2) (l_lbh l2)])).
  { destruct (same_xyz (l_xyz l2) last); repeat constructor. }
  destruct (view w c (l_xyz l2) cur sys) as [[v|]|e]; cbn [bind]; [|cbn [rr fst snd]; repeat split; assumption|reflexivity].
  pose proof (f_equal (dict_get date_eqb (dt_date t)) H2) as X. unfold ek in X. rewrite !vmap_get in X.
  destruct (dict_get date_eqb (dt_date t) (k_nav k2)) as [fl|], (dict_get date_eqb (dt_date t) (k_nav k2')) as [fl'|]; cbn [option_map] in X; try discriminate; cbn [of_option bind]; [|reflexivity].
  assert (X' : ef fl = ef fl') by congruence. pose proof (f_equal (dict_get ceqb sys) X') as Y. unfold ef in Y. rewrite !vmap_get in Y.
  destruct (dict_get ceqb sys fl) as [nv|], (dict_get ceqb sys fl') as [nv'|]; cbn [option_map] in Y; try discriminate; cbn [of_option bind]; [|reflexivity].
  assert (Y' : en nv = en nv') by congruence. rewrite <- H4.
  pose proof (row_sim nv nv' (dict_get glo_key_eqb (n, dt_date t, dt_time t) (k_glo k2)) l2 s t sys n v Y') as R.
  destruct (row_step w c nv _ l2 s t sys n v) as [r|e], (row_step w' c nv' _ l2 s t sys n v) as [r'|e']; cbn [rr] in R; try contradiction; cbn [bind]; [|exact R].
  cbn [rr fst snd]. split; [repeat split; assumption|]. split; [reflexivity|]. apply Forall2_app; [exact Hpos|]. destruct r, r'; try contradiction; repeat constructor. exact R.
Qed.
Lemma out_dir_sim : oc_dir (out_of w c) = oc_dir (out_of w' c) /\ oc_format (out_of w c) = oc_format (out_of w' c) /\ oc_strftime (out_of w c) = oc_strftime (out_of w' c).
Proof. destruct Hm as [M1 [M2 M3]]. unfold out_of. cbn [oc_dir oc_format oc_strftime]. rewrite M3. auto. Qed.
Lemma loop_sim b b' xyzs si : b_date b = b_date b' -> b_end b = b_end b' -> forall steps last k k' l st st', simk k k' -> simw (snd st) (snd st') ->
  let r := record_loop w c b xyzs si last k l st steps in let r' := record_loop w' c b' xyzs si last k' l st' steps in
  simk (fst (fst (fst r))) (fst (fst (fst r'))) /\ Forall2 same_call (snd (fst r)) (snd (fst r')) /\ snd r = snd r'.
Proof.
  intros Hd He. destruct out_dir_sim as [O1 [O2 O3]]. induction steps as [|s steps IH]; intros last k k' l st st' Hk Hw; cbv zeta; cbn [record_loop].
  - cbn [fst snd]. rewrite He. auto.
  - destruct (record_ident s) as [[[t sys] n]|e]; [|cbn [fst snd]; auto]. rewrite <- Hd. destruct (accept (b_date b) si last t sys) as [last'|]; [|now apply IH].
    assert (Hx : w_xyz (snd st) = w_xyz (snd st')) by (destruct Hw as [_ [_ [_ [_ [X _]]]]]; exact X). rewrite <- Hx.
    pose proof (body_sim xyzs (latest (w_xyz (snd st))) k k' l s t sys n Hk) as B.
    destruct (record_body w c xyzs _ k l s t sys n) as [[[k1 l1] ops]|e], (record_body w' c xyzs _ k' l s t sys n) as [[[k1' l1'] ops']|e']; cbn [rr] in B; try contradiction; [|cbn [fst snd]; subst; auto].
    cbn [fst snd] in B. destruct B as [B1 [<- B3]].
    pose proof (ops_sim _ _ O1 O2 O3 ops ops' B3 st st' Hw) as D.
    destruct (do_ops (out_of w c) st ops) as [st1|e], (do_ops (out_of w' c) st' ops') as [st1'|e']; cbn [rr] in D; try contradiction; [|cbn [fst snd]; subst; auto].
    specialize (IH last' k1 k1' l1 st1 st1' B1 D). cbv zeta in IH.
    destruct (record_loop w c b xyzs si last' k1 l1 st1 steps) as [[[k2 st2] os] e], (record_loop w' c b' xyzs si last' k1' l1 st1' steps) as [[[k2' st2'] os'] e'].
    cbn [fst snd] in *. destruct IH as [I1 [I2 I3]]. split; [exact I1|]. split; [now apply Forall2_app|exact I3].
Qed.
Lemma step_sim k k' f f' name name' : simk k k' -> same_file w w' c name name' ->
  let r := file_step w c k f name in let r' := file_step w' c k' f' name' in
  simk (fst (fst (fst r))) (fst (fst (fst r'))) /\ Forall2 same_call (snd (fst r)) (snd (fst r')) /\ snd r = snd r'.
Proof.
  intros Hk [Ho [Hmk Hx]]. cbv zeta. unfold file_step. destruct (open_obs w name) as [b|e] eqn:E, (open_obs w' name') as [b'|e'] eqn:E'; cbn [reads_alike] in Ho; try contradiction.
  - destruct Ho as [D1 [D2 [D3 D4]]].
    assert (Hn1 : b_name b = name /\ b_name b' = name').
    { revert E E'. clear. intros E E'. split; [revert E; generalize w, name, b; clear|revert E'; generalize w', name', b'; clear]; intros w name b; unfold open_obs; cbv zeta.
      all: destruct (expand_plan name); cbn [bind]; [|discriminate]; destruct (w_content w name); cbn [bind]; [|discriminate]; destruct (obs_class _) as [v|]; cbn [bind]; [|discriminate];
        destruct (ver_lt3 v); [destruct (open2 _ _) as [r|]; cbn [bind]; [|discriminate]; destruct (records2 v r) as [[ys e] o]|destruct (open3 _ _ _) as [r|]; cbn [bind]; [|discriminate]; destruct (records3 v r) as [[ys e] o]];
        intros X; injection X as <-; reflexivity. }
    destruct Hn1 as [N1 N2].
    assert (Hs : file_start w c b = file_start w' c b').
    { unfold file_start, interval_of, sampling_of. rewrite <- D2, N1, N2, <- Hx. destruct (h_ver (b_hdr b)) as [[[rv ft] ss]|]; cbn [of_option bind]; [|reflexivity].
      destruct (negb _); [reflexivity|]. destruct (h_tofo (b_hdr b)) as [[t0 ts]|]; cbn [of_option bind]; [|reflexivity]. destruct (negb _); [reflexivity|]. cbv zeta. now rewrite <- lbh_sim. }
    rewrite <- Hs. destruct (file_start w c b) as [[[[[[xyzs si] l] iv] pos]|]|e]; [|cbn [fst snd]; auto|cbn [fst snd]; auto].
    destruct out_dir_sim as [O1 [O2 O3]].
    assert (Hw0 : simw (new_writer name iv) (new_writer name' iv)) by (unfold new_writer; repeat split; cbn; auto).
    assert (Hp : same_call pos pos) by (destruct pos; constructor; tauto).
    pose proof (op_sim _ _ O1 O2 O3 (f, new_writer name iv) (f', new_writer name' iv) pos pos Hw0 Hp) as D.
    destruct (do_op (out_of w c) (f, new_writer name iv) pos) as [st|e], (do_op (out_of w' c) (f', new_writer name' iv) pos) as [st'|e']; cbn [rr] in D; try contradiction; [|cbn [fst snd]; subst; auto].
    pose proof (loop_sim b b' xyzs si D1 D4 (b_steps b) None k k' l st st' Hk D) as L. cbv zeta in L. rewrite D3 in L |- *.
    destruct (record_loop w c b xyzs si None k l st (b_steps b')) as [[[k2 st2] os] e], (record_loop w' c b' xyzs si None k' l st' (b_steps b')) as [[[k2' st2'] os'] e'].
    cbn [fst snd] in *. destruct L as [L1 [L2 L3]]. auto.
  - subst e'. destruct e; cbn [fst snd]; auto.
Qed.
Lemma files_sim names names' : Forall2 (same_file w w' c) names names' -> forall k k' f f', simk k k' ->
  let r := files_loop w c k f names in let r' := files_loop w' c k' f' names' in
  Forall2 (fun x x' => same_file w w' c (fst x) (fst x') /\ Forall2 same_call (snd x) (snd x')) (snd (fst r)) (snd (fst r')) /\ snd r = snd r'.
Proof.
  induction 1 as [|name name' names names' H _ IH]; intros k k' f f' Hk; cbv zeta; cbn [files_loop]; [cbn [fst snd]; auto|].
  pose proof (step_sim k k' f f' name name' Hk H) as S. cbv zeta in S. destruct (file_step w c k f name) as [[[k1 f1] os] e], (file_step w' c k' f' name') as [[[k1' f1'] os'] e'].
  cbn [fst snd] in S. destruct S as [S1 [S2 <-]]. destruct e as [e|]; [cbn [fst snd]; split; [apply Forall2_cons; [cbn [fst snd]; split; assumption|apply Forall2_nil]|reflexivity]|].
  specialize (IH k1 k1' f1 f1' S1). cbv zeta in IH. destruct (files_loop w c k1 f1 names) as [[f2 log] e2], (files_loop w' c k1' f1' names') as [[f2' log'] e2'].
  cbn [fst snd] in *. destruct IH as [I1 I2]. split; [|exact I2]. constructor; [cbn [fst snd]; auto|exact I1].
Qed.
Lemma main_sim f f' : Forall2 (same_file w w' c) (sort_str (find_files (w_ls w) (c_obsdir c) RE_OBS)) (sort_str (find_files (w_ls w') (c_obsdir c) RE_OBS)) ->
  Forall2 (fun x x' => same_file w w' c (fst x) (fst x') /\ Forall2 same_call (snd x) (snd x')) (snd (fst (main w c f))) (snd (fst (main w' c f'))) /\
  stopped_by w c f = stopped_by w' c f'.
Proof.
  intros H. unfold stopped_by, main. destruct H as [|name name' names names' H1 H2]; [cbn [fst snd]; auto|].
  apply files_sim; [now constructor|repeat split].
Qed.
End Run.
