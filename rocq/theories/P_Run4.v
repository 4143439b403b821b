(** Running again: what a run writes does not depend on the files that were there. *)
From Coq Require Import ZifyBool ZifyNat.
From Verif Require Import Base PyStr PyFloat PyDate PyPath PyRegex S_Text S_Time S_Open2 M_Common M_Header M_Obs2 M_Obs3 M_Rec M_Text M_Cfg M_Label M_Names M_Xyz M_Nav M_NmUtils M_Num M_Tec M_Sat M_Main M_Run S_Names S_Xyz S_Main S_Fresh S_Run S_Out P_Str P_Date P_Label P_Out P_Main1 P_Main2 P_Main3 P_Main4 P_Main5 P_Main6 P_Main7 P_Main8 P_Main12 P_Run1 P_Run2 P_Run3.
Open Scope nat_scope.

(** ** one writer on two file systems *)
Definition agree (f1 f2 : fs) (p : str) : Prop := fs_get p f1 = fs_get p f2.
(** the files the writer has open are equal *)
Definition open_agree (f1 f2 : fs) (w : writer) : Prop :=
  forall sat s out, dict_get seqb sat (w_sats w) = Some s -> s_fout s = Some out -> agree f1 f2 out.
(** every file stays equal, and is equal or untouched *)
Definition follows (f1 f2 f1' f2' : fs) : Prop :=
  forall p, (agree f1 f2 p -> agree f1' f2' p) /\ (agree f1' f2' p \/ fs_get p f1' = fs_get p f1 /\ fs_get p f2' = fs_get p f2).
Lemma follows_refl f1 f2 : follows f1 f2 f1 f2.
Proof. intros p. split; auto. Qed.
Lemma follows_trans a b a1 b1 a2 b2 : follows a b a1 b1 -> follows a1 b1 a2 b2 -> follows a b a2 b2.
Proof.
  intros H1 H2 p. destruct (H1 p) as [P1 P2], (H2 p) as [Q1 Q2]. split; [auto|]. destruct Q2 as [Q|[Qa Qb]]; [now left|].
  destruct P2 as [P|[Pa Pb]]; [left; auto|]. right. rewrite Qa, Qb. auto.
Qed.
Lemma truncate_same p f : fs_get p (fs_truncate p f) = Some [].
Proof. unfold fs_get, fs_truncate. apply (sget_same p [] f). Qed.
Lemma truncate_other p p' f : p <> p' -> fs_get p (fs_truncate p' f) = fs_get p f.
Proof. unfold fs_get, fs_truncate. apply (sget_other p p' [] f). Qed.
Lemma append_get p s f : fs_get p (fs_append p s f) = Some (match fs_get p f with Some x => x ++ s | None => s end).
Proof. unfold fs_append, fs_get. destruct (dict_get seqb p f); apply sget_same. Qed.
Lemma path_dec (p q : str) : p = q \/ p <> q.
Proof. destruct (seqb p q) eqn:E; [left; now apply seqb_eq|right; intros ->; rewrite seqb_refl in E; discriminate]. Qed.
Lemma append_follows f1 f2 p s : agree f1 f2 p -> follows f1 f2 (fs_append p s f1) (fs_append p s f2).
Proof.
  intros H q. unfold agree in *. destruct (path_dec q p) as [->|Hn].
  - rewrite !append_get, H. auto.
  - rewrite !fs_append_other by exact Hn. auto.
Qed.
Lemma truncate_follows f1 f2 p : follows f1 f2 (fs_truncate p f1) (fs_truncate p f2).
Proof.
  intros q. unfold agree. destruct (path_dec q p) as [->|Hn].
  - rewrite !truncate_same. auto.
  - rewrite !truncate_other by exact Hn. auto.
Qed.
Lemma open_agree_sats f1 f2 w w' : w_sats w = w_sats w' -> open_agree f1 f2 w -> open_agree f1 f2 w'.
Proof. unfold open_agree. now intros <-. Qed.
Lemma follows_open f1 f2 f1' f2' w : follows f1 f2 f1' f2' -> open_agree f1 f2 w -> open_agree f1' f2' w.
Proof. intros H Ho sat s out H1 H2. apply (H out). exact (Ho sat s out H1 H2). Qed.
Definition same_end (r1 r2 : res (fs * writer)) (f1 f2 : fs) : Prop :=
  match r1, r2 with
  | Ok (f1', w1), Ok (f2', w2) => w1 = w2 /\ follows f1 f2 f1' f2' /\ open_agree f1' f2' w1
  | Err e1, Err e2 => e1 = e2
  | _, _ => False
  end.
Lemma write_data_same c f1 f2 w sat t q : open_agree f1 f2 w -> same_end (write_data c f1 w sat t q) (write_data c f2 w sat t q) f1 f2.
Proof.
  intros Ho. unfold write_data. cbn [w_sats w_obs w_path w_interval w_xyz w_lbh].
  destruct (dict_get seqb sat (w_sats w)) as [s|] eqn:Es; cbn [of_option bind]; [|reflexivity].
  destruct (s_fout s) as [out|] eqn:Eo; cbn [bind].
  - destruct (row_text _ _ _ _ _) as [row|e]; cbn [bind same_end]; [|reflexivity].
    pose proof (append_follows f1 f2 out row (Ho sat s out Es Eo)) as Hf. split; [reflexivity|]. split; [exact Hf|].
    eapply open_agree_sats; [|exact (follows_open _ _ _ _ _ Hf Ho)]. reflexivity.
  - set (path := match w_path w with Some p => p | None => out_dir c (w_obs w) t end). set (out := path_join path (out_name (w_obs w) sat t)).
    set (w' := mkWriter (w_obs w) (w_interval w) (Some path) (dict_set seqb sat (mkSat (s_def s) (s_nav s) (Some out)) (w_sats w)) (w_xyz w) (w_lbh w)).
    destruct (header_text c w' s) as [h|e]; cbn [bind]; [|reflexivity].
    destruct (row_text _ _ _ _ _) as [row|e]; cbn [bind same_end]; [|reflexivity].
    pose proof (truncate_follows f1 f2 out) as F1.
    assert (A1 : agree (fs_truncate out f1) (fs_truncate out f2) out) by (unfold agree; now rewrite !truncate_same).
    pose proof (append_follows _ _ out h A1) as F2. assert (A2 : agree (fs_append out h (fs_truncate out f1)) (fs_append out h (fs_truncate out f2)) out) by exact (proj1 (F2 out) A1).
    pose proof (append_follows _ _ out row A2) as F3. pose proof (proj1 (F3 out) A2) as A3.
    pose proof (follows_trans _ _ _ _ _ _ (follows_trans _ _ _ _ _ _ F1 F2) F3) as F. split; [reflexivity|]. split; [exact F|].
    intros sat' s' out' Hs' Ho'. cbn [w_sats w'] in Hs'. destruct (path_dec sat' sat) as [->|Hn].
    + rewrite sget_same in Hs'. apply some_inj in Hs'. subst s'. cbn in Ho'. apply some_inj in Ho'. subst out'. exact A3.
    + rewrite sget_other in Hs' by exact Hn. apply (proj1 (F out')). exact (Ho sat' s' out' Hs' Ho').
Qed.
Lemma do_op_same c f1 f2 w o : open_agree f1 f2 w -> same_end (do_op c (f1, w) o) (do_op c (f2, w) o) f1 f2.
Proof.
  intros Ho. destruct o as [t p l|sat sd nav t q]; cbn [do_op].
  - cbn [same_end]. split; [reflexivity|]. split; [apply follows_refl|]. eapply open_agree_sats; [|exact Ho]. reflexivity.
  - apply write_data_same. destruct (dict_get seqb sat (w_sats w)) as [s|] eqn:Es; [exact Ho|].
    unfold update_satellite. rewrite Es. intros sat' s' out' Hs' Ho'. cbn [w_sats] in Hs'. destruct (path_dec sat' sat) as [->|Hn].
    + rewrite sget_same in Hs'. apply some_inj in Hs'. subst s'. discriminate.
    + rewrite sget_other in Hs' by exact Hn. exact (Ho sat' s' out' Hs' Ho').
Qed.
Lemma do_ops_same c os : forall f1 f2 w, open_agree f1 f2 w -> same_end (do_ops c (f1, w) os) (do_ops c (f2, w) os) f1 f2.
Proof.
  induction os as [|o os IH]; intros f1 f2 w Ho; cbn [do_ops].
  - cbn [same_end]. split; [reflexivity|]. split; [apply follows_refl|exact Ho].
  - pose proof (do_op_same c f1 f2 w o Ho) as H. unfold same_end in H.
    destruct (do_op c (f1, w) o) as [[f1' w1]|e1], (do_op c (f2, w) o) as [[f2' w2]|e2]; cbn [bind]; try contradiction.
    + destruct H as [<- [F Ho']]. pose proof (IH f1' f2' w1 Ho') as H2. unfold same_end in *.
      destruct (do_ops c (f1', w1) os) as [[a wa]|e1], (do_ops c (f2', w1) os) as [[b wb]|e2]; try contradiction; [|exact H2].
      destruct H2 as [<- [F2 Ho2]]. split; [reflexivity|]. split; [exact (follows_trans _ _ _ _ _ _ F F2)|exact Ho2].
    + exact H.
Qed.
Lemma new_agree f1 f2 name iv : open_agree f1 f2 (new_writer name iv).
Proof. intros sat s out H. discriminate. Qed.
(** one observation file: what is written is the same *)
Lemma write_file_same c f1 f2 name iv os f1' : write_file c f1 name iv os = Ok f1' -> exists f2', write_file c f2 name iv os = Ok f2' /\ follows f1 f2 f1' f2'.
Proof.
  unfold write_file. pose proof (do_ops_same c os f1 f2 _ (new_agree f1 f2 name iv)) as H. unfold same_end in H.
  destruct (do_ops c (f1, new_writer name iv) os) as [[a wa]|e1], (do_ops c (f2, new_writer name iv) os) as [[b wb]|e2]; cbn [bind]; try contradiction; [|discriminate].
  intros E. injection E as <-. exists b. split; [reflexivity|]. exact (proj1 (proj2 H)).
Qed.
Lemma written_same c f1 f2 name iv os f1' f2' d sat : job_ok (name, iv, os) d -> rows_of sat os <> [] ->
  write_file c f1 name iv os = Ok f1' -> write_file c f2 name iv os = Ok f2' ->
  agree f1' f2' (result_file (oc_dir c) (marker_of name) sat d).
Proof.
  intros [K1 [K2 [K3 K4]]] Hr H1 H2. cbn [fst snd] in *. set (p := result_file (oc_dir c) (marker_of name) sat d).
  assert (Hone : forall f f', write_file c f name iv os = Ok f' -> exists g, write_file c [] name iv os = Ok g /\ agree f' g p).
  { intros f f' H. destruct (write_file_same c f [] name iv os f' H) as [g [Hg F]]. exists g. split; [exact Hg|].
    destruct (F p) as [_ [Ha|[_ Hu]]]; [exact Ha|]. exfalso.
    destruct (one_file c [] name iv os g d K1 K2 K3 K4 Hg) as [Hc _]. destruct (Hc sat Hr) as [content [Hget _]]. fold p in Hget. rewrite Hget in Hu. discriminate. }
  destruct (Hone _ _ H1) as [g [Hg A1]], (Hone _ _ H2) as [g' [Hg' A2]]. rewrite Hg in Hg'. injection Hg' as <-. unfold agree in *. congruence.
Qed.

(** ** the program on two file systems *)
Section Again.
Variables (w : world) (c : cfg).
Lemma loop_same b xyzs si steps : forall last k l f1 f2 wr, open_agree f1 f2 wr ->
  let '(k1, (f1', w1), os1, e1) := record_loop w c b xyzs si last k l (f1, wr) steps in
  let '(k2, (f2', w2), os2, e2) := record_loop w c b xyzs si last k l (f2, wr) steps in
  k1 = k2 /\ w1 = w2 /\ os1 = os2 /\ e1 = e2.
Proof.
  induction steps as [|s r IH]; intros last k l f1 f2 wr Ho; cbn [record_loop]; [auto|].
  destruct (record_ident s) as [[[t sys] n]|e]; [|auto]. destruct (accept _ _ _ _ _) as [last'|]; [|apply IH; exact Ho]. cbn [snd].
  destruct (record_body w c xyzs (latest (w_xyz wr)) k l s t sys n) as [[[k' l'] ops]|e]; [|auto].
  pose proof (do_ops_same (out_of w c) ops f1 f2 wr Ho) as H. unfold same_end in H.
  destruct (do_ops (out_of w c) (f1, wr) ops) as [[a wa]|e1], (do_ops (out_of w c) (f2, wr) ops) as [[b' wb]|e2]; try contradiction; [|subst; auto].
  destruct H as [<- [_ Ho']]. specialize (IH last' k' l' a b' wa Ho').
  destruct (record_loop w c b xyzs si last' k' l' (a, wa) r) as [[[k1 [f1' w1]] os1] e1], (record_loop w c b xyzs si last' k' l' (b', wa) r) as [[[k2 [f2' w2]] os2] e2].
  destruct IH as [-> [-> [-> ->]]]. auto.
Qed.
Lemma file_same k f1 f2 name :
  let '(k1, _, os1, e1) := file_step w c k f1 name in let '(k2, _, os2, e2) := file_step w c k f2 name in k1 = k2 /\ os1 = os2 /\ e1 = e2.
Proof.
  unfold file_step. destruct (open_obs w name) as [b|e]; [|destruct e; auto].
  destruct (file_start w c b) as [[[[[[xyzs si] l] iv] pos]|]|e]; auto.
  pose proof (do_op_same (out_of w c) f1 f2 _ pos (new_agree f1 f2 name iv)) as H. unfold same_end in H.
  destruct (do_op (out_of w c) (f1, new_writer name iv) pos) as [[a wa]|e1], (do_op (out_of w c) (f2, new_writer name iv) pos) as [[b' wb]|e2]; try contradiction; [|subst; auto].
  destruct H as [<- [_ Ho]]. pose proof (loop_same b xyzs si (b_steps b) None k l a b' wa Ho) as H.
  destruct (record_loop w c b xyzs si None k l (a, wa) (b_steps b)) as [[[k1 [f1' w1]] os1] e1], (record_loop w c b xyzs si None k l (b', wa) (b_steps b)) as [[[k2 [f2' w2]] os2] e2].
  destruct H as [-> [_ [-> ->]]]. auto.
Qed.
Lemma files_same names : forall k f1 f2,
  let '(_, log1, e1) := files_loop w c k f1 names in let '(_, log2, e2) := files_loop w c k f2 names in log1 = log2 /\ e1 = e2.
Proof.
  induction names as [|nm r IH]; intros k f1 f2; cbn [files_loop]; [auto|].
  pose proof (file_same k f1 f2 nm) as H. destruct (file_step w c k f1 nm) as [[[k1 a] os1] e1], (file_step w c k f2 nm) as [[[k2 b] os2] e2].
  destruct H as [<- [<- <-]]. destruct e1 as [e|]; [auto|]. specialize (IH k1 a b).
  destruct (files_loop w c k1 a r) as [[a' log1] e1], (files_loop w c k1 b r) as [[b' log2] e2]. destruct IH as [-> ->]. auto.
Qed.
Lemma main_same f f' : snd (fst (main w c f)) = snd (fst (main w c f')) /\ stopped_by w c f = stopped_by w c f'.
Proof.
  unfold stopped_by, main. destruct (sort_str _) as [|nm r]; [auto|]. pose proof (files_same (nm :: r) no_caches f f') as H.
  destruct (files_loop w c no_caches f (nm :: r)) as [[a log1] e1], (files_loop w c no_caches f' (nm :: r)) as [[b log2] e2]. exact H.
Qed.
Lemma main_jobs f : stopped_by w c f = None -> exists js, map (fun j => (fst (fst j), snd j)) js = snd (fst (main w c f)) /\
  Forall (fun j => job_of w (fst (fst j)) (snd j) (snd (fst j))) js /\ write_files (out_of w c) f js = Ok (fst (fst (main w c f))).
Proof.
  unfold stopped_by, main in *. destruct (sort_str _) as [|nm r]; [discriminate|].
  destruct (files_loop w c no_caches f (nm :: r)) as [[f' log] e] eqn:El. cbn [fst snd] in *. intros ->. exact (files_ops w c _ _ _ _ _ El).
Qed.
Lemma jobs_same js1 : forall js2 f, map (fun j => (fst (fst j), snd j)) js1 = map (fun j => (fst (fst j), snd j)) js2 ->
  Forall (fun j => job_of w (fst (fst j)) (snd j) (snd (fst j))) js1 -> Forall (fun j => job_of w (fst (fst j)) (snd j) (snd (fst j))) js2 ->
  write_files (out_of w c) f js1 = write_files (out_of w c) f js2.
Proof.
  induction js1 as [|[[nm iv] os] js1 IH]; intros [|[[nm2 iv2] os2] js2] f E H1 H2; try discriminate; [reflexivity|].
  cbn [map fst snd] in E. injection E as <- <- E. inversion H1 as [|? ? J1 H1']; inversion H2 as [|? ? J2 H2']; subst. cbn [fst snd] in *. cbn [write_files].
  assert (Hw : write_file (out_of w c) f nm iv os = write_file (out_of w c) f nm iv2 os).
  { destruct J1 as [->|[b [Ho Hi]]]; [reflexivity|]. destruct J2 as [->|[b2 [Ho2 Hi2]]]; [reflexivity|]. rewrite Ho in Ho2. injection Ho2 as <-.
    rewrite Hi in Hi2. apply some_inj in Hi2. now subst. }
  rewrite Hw. clear Hw. destruct (write_file (out_of w c) f nm iv2 os) as [f'|e]; cbn [bind]; [|reflexivity]. exact (IH js2 f' E H1' H2').
Qed.
Lemma jobs_agree (js : list job) : (forall j, In j js -> snd j <> [] -> exists d, job_ok j d /\ forall sat, rows_of sat (snd j) <> [] -> get_rinex_date (fst (fst j)) = Some d) ->
  forall f1 f2 f1' f2', write_files (out_of w c) f1 js = Ok f1' -> write_files (out_of w c) f2 js = Ok f2' ->
  follows f1 f2 f1' f2' /\ forall name iv ops sat d, In (name, iv, ops) js -> rows_of sat ops <> [] -> get_rinex_date name = Some d ->
    agree f1' f2' (result_file (c_outdir c) (marker_of name) sat d) /\ fs_get (result_file (c_outdir c) (marker_of name) sat d) f1' <> None.
Proof.
  induction js as [|[[nm iv] os] js IH]; intros Hj f1 f2 f1' f2'; cbn [write_files].
  { intros H1 H2. injection H1 as <-. injection H2 as <-. split; [apply follows_refl|]. intros ? ? ? ? ? []. }
  destruct (write_file (out_of w c) f1 nm iv os) as [a|e] eqn:E1; cbn [bind]; [|discriminate].
  destruct (write_file (out_of w c) f2 nm iv os) as [b|e] eqn:E2; cbn [bind]; [|discriminate]. intros H1 H2.
  destruct (write_file_same _ f1 f2 nm iv os a E1) as [b' [E2' F]]. rewrite E2 in E2'. injection E2' as <-.
  destruct (IH (fun j Hin => Hj j (or_intror Hin)) a b f1' f2' H1 H2) as [F2 Hall]. split; [exact (follows_trans _ _ _ _ _ _ F F2)|].
  intros name iv' ops sat d [E|Hin] Hr Hd; [|exact (Hall name iv' ops sat d Hin Hr Hd)]. injection E as <- <- <-.
  assert (Hne : os <> []) by (intros ->; apply Hr; reflexivity).
  destruct (Hj _ (or_introl eq_refl) Hne) as [d' [Hok Hd']]. pose proof (Hd' sat Hr) as E. cbn [fst] in E. rewrite Hd in E. apply some_inj in E. subst d'. split.
  - apply (proj1 (F2 _)). exact (written_same (out_of w c) f1 f2 nm iv os a b d sat Hok Hr E1 E2).
  - destruct Hok as [K1 [K2 [K3 K4]]]. destruct (one_file (out_of w c) f1 nm iv os a d K1 K2 K3 K4 E1) as [Hc _]. destruct (Hc sat Hr) as [content [Hg _]].
    change (oc_dir (out_of w c)) with (c_outdir c) in Hg.
    assert (Hkeep : forall js f f' p, write_files (out_of w c) f js = Ok f' -> fs_get p f <> None -> fs_get p f' <> None).
    { clear. induction js as [|[[nm iv] os] js IH]; intros f f' p; cbn [write_files]; [intros H; injection H as <-; auto|].
      destruct (write_file (out_of w c) f nm iv os) as [g|e] eqn:E; cbn [bind]; [|discriminate]. intros H Hp. apply (IH g f' p H).
      revert E. unfold write_file. destruct (do_ops (out_of w c) (f, new_writer nm iv) os) as [[g' wr]|e] eqn:E; cbn [bind]; [|discriminate]. intros X. injection X as <-.
      assert (Hset : forall f q x, fs_get p f <> None -> fs_get p (fs_append q x f) <> None).
      { intros f0 q x H0. destruct (path_dec p q) as [->|Hn]; [rewrite append_get; discriminate|now rewrite fs_append_other]. }
      assert (Hcut : forall f q, fs_get p f <> None -> fs_get p (fs_truncate q f) <> None).
      { intros f0 q H0. destruct (path_dec p q) as [->|Hn]; [rewrite truncate_same; discriminate|now rewrite truncate_other]. }
      revert E Hp. generalize (new_writer nm iv). revert f. clear -Hset Hcut. induction os as [|o os IH]; intros f w0; cbn [do_ops]; [intros H; injection H as <- _; auto|].
      destruct (do_op (out_of w c) (f, w0) o) as [[f1 w1]|e] eqn:Eo; cbn [bind]; [|discriminate]. intros H Hp. apply (IH f1 w1 H).
      destruct o as [t p0 l|sat sd nav t q]; cbn [do_op] in Eo; [injection Eo as <- _; exact Hp|].
      revert Eo. unfold write_data. destruct (dict_get seqb sat (w_sats _)) as [s|]; cbn [of_option bind]; [|discriminate].
      destruct (s_fout s) as [out|]; cbn [bind].
      - destruct (row_text _ _ _ _ _); cbn [bind]; [|discriminate]. intros X. injection X as <- _. now apply Hset.
      - destruct (header_text _ _ _); cbn [bind]; [|discriminate]. destruct (row_text _ _ _ _ _); cbn [bind]; [|discriminate]. intros X. injection X as <- _. apply Hset, Hset, Hcut. exact Hp. }
    apply (Hkeep _ _ _ _ H1). rewrite Hg. discriminate.
Qed.
Lemma rerun_files f f' : stopped_by w c f = None ->
  (forall name ops sat d, written w c f name ops -> rows_of sat ops <> [] -> get_rinex_date name = Some d ->
     let p := result_file (c_outdir c) (marker_of name) sat d in
     fs_get p (fst (fst (main w c f))) <> None /\ fs_get p (fst (fst (main w c f))) = fs_get p (fst (fst (main w c f')))) /\
  (forall p, (forall name ops sat d, written w c f name ops -> rows_of sat ops <> [] -> get_rinex_date name = Some d ->
       p <> result_file (c_outdir c) (marker_of name) sat d) ->
     fs_get p (fst (fst (main w c f))) = fs_get p f).
Proof.
  intros Hs. destruct (main_same f f') as [Hlog Hst]. destruct (main_jobs f Hs) as [js [Hjs [Hjob Hw]]].
  destruct (main_jobs f') as [js' [Hjs' [Hjob' Hw']]]; [now rewrite <- Hst|].
  rewrite (jobs_same js' js f') in Hw'; [|now rewrite Hjs, Hjs'|exact Hjob'|exact Hjob].
  assert (Hin : forall name iv ops, In (name, iv, ops) js -> written w c f name ops).
  { intros name iv ops Hin. unfold written. rewrite <- Hjs. apply in_map_iff. exists (name, iv, ops). auto. }
  assert (Hok : forall j, In j js -> snd j <> [] -> exists d, job_ok j d /\ forall sat, rows_of sat (snd j) <> [] -> get_rinex_date (fst (fst j)) = Some d).
  { intros [[name iv] ops] Hj Hne. rewrite Forall_forall in Hjob. exact (run_job w c f name ops iv (Hin _ _ _ Hj) (Hjob _ Hj) Hne). }
  destruct (jobs_agree js Hok f f' _ _ Hw Hw') as [_ Hall]. split.
  - intros name ops sat d Hwr Hr Hd. cbv zeta. unfold written in Hwr. rewrite <- Hjs in Hwr. apply in_map_iff in Hwr. destruct Hwr as [[[nm iv] os] [E Hj]]. cbn [fst snd] in E. injection E as -> ->.
    destruct (Hall name iv ops sat d Hj Hr Hd) as [H1 H2]. split; [exact H2|exact H1].
  - intros p Hp. clear Hw' Hall. revert Hw. generalize (fst (fst (main w c f))). intros final Hw.
    assert (Hp' : forall name iv ops sat d, In (name, iv, ops) js -> rows_of sat ops <> [] -> get_rinex_date name = Some d -> p <> result_file (c_outdir c) (marker_of name) sat d).
    { intros name iv ops sat d Hj. exact (Hp name ops sat d (Hin _ _ _ Hj)). }
    revert Hw. generalize f as f0. clear - Hok Hp'. induction js as [|[[nm iv] os] js IH]; intros f0 Hw; cbn [write_files] in Hw; [now injection Hw as <-|].
    destruct (write_file (out_of w c) f0 nm iv os) as [a|e] eqn:E; cbn [bind] in Hw; [|discriminate].
    rewrite (IH (fun j Hj => Hok j (or_intror Hj)) (fun name iv0 ops sat d Hj => Hp' name iv0 ops sat d (or_intror Hj)) a Hw).
    destruct os as [|o os]; [unfold write_file in E; cbn in E; now injection E as <-|].
    destruct (Hok _ (or_introl eq_refl) ltac:(discriminate)) as [d [[K1 [K2 [K3 K4]]] Hd]].
    apply (proj2 (one_file (out_of w c) f0 nm iv (o :: os) a d K1 K2 K3 K4 E)). intros sat Hr. exact (Hp' nm iv (o :: os) sat d (or_introl eq_refl) Hr (Hd sat Hr)).
Qed.
Lemma row_dec (ops : list wop) p (name : str) : (exists sat d, rows_of sat ops <> [] /\ get_rinex_date name = Some d /\ p = result_file (c_outdir c) (marker_of name) sat d) \/
  (forall sat d, rows_of sat ops <> [] -> get_rinex_date name = Some d -> p <> result_file (c_outdir c) (marker_of name) sat d).
Proof.
  destruct (get_rinex_date name) as [d|]; [|right; discriminate].
  assert (H : forall all, (exists sat, rows_of sat all <> [] /\ (exists sd nav t q, In (WRow sat sd nav t q) ops) /\ p = result_file (c_outdir c) (marker_of name) sat d) \/
    (forall sat, rows_of sat all <> [] -> (exists sd nav t q, In (WRow sat sd nav t q) ops) -> p <> result_file (c_outdir c) (marker_of name) sat d)).
  { intros all. induction ops as [|o os IH]; [right; intros sat _ [? [? [? [? []]]]]|]. destruct IH as [[sat [H1 [[sd [nav [t [q H2]]]] H3]]]|IH].
    - left. exists sat. split; [exact H1|]. split; [|exact H3]. exists sd, nav, t, q. now right.
    - destruct o as [t p0 l|sat sd nav t q].
      + right. intros sat Hr [sd [nav [t' [q [E|Hin]]]]]; [discriminate|]. apply IH; [exact Hr|]. exists sd, nav, t', q. exact Hin.
      + assert (Hd : rows_of sat all = [] \/ rows_of sat all <> []) by (destruct (rows_of sat all); [now left|right; discriminate]).
        destruct (path_dec p (result_file (c_outdir c) (marker_of name) sat d)) as [E|E], Hd as [Hd|Hd].
        2:{ left. exists sat. split; [exact Hd|]. split; [|exact E]. exists sd, nav, t, q. now left. }
        all: right; intros sat' Hr [sd' [nav' [t' [q' [X|Hin]]]]]; [injection X as <- <- <- <- <-; contradiction || exact E|apply IH; [exact Hr|]; exists sd', nav', t', q'; exact Hin]. }
  assert (Hrow : forall sat os, rows_of sat os <> [] -> exists sd nav t q, In (WRow sat sd nav t q) os).
  { intros sat os. induction os as [|o os IH]; [intros X; now destruct X|]. destruct o as [t p0 l|s sd nav t q]; cbn [rows_of].
    - intros X. destruct (IH X) as [sd [nav [t' [q Hin]]]]. exists sd, nav, t', q. now right.
    - destruct (seqb sat s) eqn:Es; [intros _; apply seqb_eq in Es; subst; exists sd, nav, t, q; now left|]. cbn [app]. intros X. destruct (IH X) as [sd' [nav' [t' [q' Hin]]]]. exists sd', nav', t', q'. now right. }
  destruct (H ops) as [[sat [H1 [_ H3]]]|Hn].
  - left. exists sat, d. auto.
  - right. intros sat d' Hr E. injection E as <-. exact (Hn sat Hr (Hrow sat ops Hr)).
Qed.
(** a second run leaves the files as they are *)
Lemma rerun_again f : stopped_by w c f = None -> let done := fst (fst (main w c f)) in
  stopped_by w c done = None /\ forall p, fs_get p (fst (fst (main w c done))) = fs_get p done.
Proof.
  intros Hs done. destruct (main_same f done) as [Hlog Hst]. split; [now rewrite <- Hst|]. intros p.
  assert (H : (exists name ops sat d, written w c f name ops /\ rows_of sat ops <> [] /\ get_rinex_date name = Some d /\ p = result_file (c_outdir c) (marker_of name) sat d) \/
    (forall name ops sat d, written w c f name ops -> rows_of sat ops <> [] -> get_rinex_date name = Some d -> p <> result_file (c_outdir c) (marker_of name) sat d)).
  { unfold written. generalize (snd (fst (main w c f))). intros log. induction log as [|[nm os] log IH]; [right; intros ? ? ? ? []|].
    destruct IH as [[name [ops [sat [d [H1 H2]]]]]|IH]; [left; exists name, ops, sat, d; split; [now right|exact H2]|].
    destruct (row_dec os p nm) as [[sat [d [H1 [H2 H3]]]]|Hn].
    - left. exists nm, os, sat, d. split; [now left|auto].
    - right. intros name ops sat d [E|Hin]; [injection E as <- <-; apply Hn|exact (IH name ops sat d Hin)]. }
  destruct (rerun_files f done Hs) as [R1 _]. destruct (rerun_files done f) as [_ R4]; [now rewrite <- Hst|].
  destruct H as [[name [ops [sat [d [H1 [H2 [H3 ->]]]]]]]|Hn].
  - destruct (R1 name ops sat d H1 H2 H3) as [_ E]. now rewrite <- E.
  - apply R4. intros name ops sat d Hw. apply Hn. unfold written in *. now rewrite Hlog.
Qed.
End Again.
