(** Disk contents: proofs about sequences of file operations. *)
From Verif Require Import Base PyStr PyFloat PyDate PyPath M_Common M_Header M_Rec M_Text M_Main M_Disk S_Disk S_Out P_Str P_Out P_Run4.
Open Scope nat_scope.

(** the operations without buffers *)
Definition sem1 (f : fs) (e : event) : fs :=
  match e with EOpen p => fs_truncate p f | EWrite p s => fs_append p s f | EClose _ => f end.
Definition sem (f : fs) (evs : list event) : fs := fold_left sem1 evs f.
Lemma sem_app f a b : sem f (a ++ b) = sem (sem f a) b.
Proof. apply fold_left_app. Qed.

Definition known (o : option str) : str := match o with Some x => x | None => [] end.
(** what is in the file and what is in the buffer make up the text *)
Definition backed (g : fs) (d : disk) : Prop := forall p,
  match dict_get seqb p (d_open d) with
  | None => fs_get p (d_files d) = fs_get p g
  | Some b => fs_get p g = Some (known (fs_get p (d_files d)) ++ b)
  end.
Lemma remove_same p l : dict_get seqb p (d_remove p l) = None.
Proof.
  induction l as [|[q b] l IH]; [reflexivity|]. cbn [d_remove filter fst]. destruct (seqb p q) eqn:E; cbn [negb]; [exact IH|].
  cbn [dict_get]. rewrite E. exact IH.
Qed.
Lemma remove_other p q l : p <> q -> dict_get seqb p (d_remove q l) = dict_get seqb p l.
Proof.
  intros Hn. induction l as [|[r b] l IH]; [reflexivity|]. cbn [d_remove filter fst dict_get]. destruct (seqb q r) eqn:E; cbn [negb].
  - apply seqb_eq in E. subst r. apply seqb_neq in Hn. rewrite Hn. exact IH.
  - cbn [dict_get]. destruct (seqb p r); [reflexivity|exact IH].
Qed.
Lemma append_known p s f : fs_get p (fs_append p s f) = Some (known (fs_get p f) ++ s).
Proof. rewrite append_get. destruct (fs_get p f); reflexivity. Qed.
Lemma perform_backed g d e : backed g d -> backed (sem1 g e) (perform d e).
Proof.
  intros H p. specialize (H p). destruct e as [q|q s|q]; cbn [sem1 perform].
  - cbn [d_open d_files]. destruct (path_dec p q) as [->|Hn].
    + rewrite sget_same, !truncate_same. reflexivity.
    + rewrite sget_other, !truncate_other by exact Hn. exact H.
  - cbn [d_open d_files]. destruct (path_dec p q) as [->|Hn].
    + rewrite sget_same, append_known. f_equal. destruct (dict_get seqb q (d_open d)) as [b|].
      * rewrite H. cbn [known]. now rewrite app_assoc.
      * now rewrite H.
    + rewrite sget_other, fs_append_other by exact Hn. exact H.
  - destruct (dict_get seqb q (d_open d)) as [b|] eqn:Eq; [|exact H]. cbn [d_open d_files]. destruct (path_dec p q) as [->|Hn].
    + rewrite Eq in H. rewrite remove_same, append_known. symmetry. exact H.
    + rewrite remove_other, fs_append_other by exact Hn. exact H.
Qed.
Lemma moves_backed d evs d' : moves d evs d' -> forall g, backed g d -> backed (sem g evs) d'.
Proof.
  induction 1 as [d|d p a b ev d' E H IH|d e ev d' H IH]; intros g Hg.
  - exact Hg.
  - apply IH. intros q. specialize (Hg q). cbn [d_open d_files]. destruct (path_dec q p) as [->|Hn].
    + rewrite E in Hg. rewrite sget_same, append_known. cbn [known]. now rewrite <- app_assoc.
    + rewrite sget_other, fs_append_other by exact Hn. exact Hg.
  - cbn [sem fold_left]. apply IH. now apply perform_backed.
Qed.
Lemma start_backed f : backed f (mkDisk f []).
Proof. intros p. reflexivity. Qed.

(** *** which paths have a buffer *)
Fixpoint opened (evs : list event) (ps : list str) : list str :=
  match evs with
  | [] => ps
  | EOpen p :: r | EWrite p _ :: r => opened r (p :: ps)
  | EClose p :: r => opened r (filter (fun q => negb (seqb p q)) ps)
  end.
Lemma moves_opened d evs d' : moves d evs d' -> forall ps, (forall p, dict_get seqb p (d_open d) <> None -> In p ps) ->
  forall p, dict_get seqb p (d_open d') <> None -> In p (opened evs ps).
Proof.
  induction 1 as [d|d p a b ev d' E H IH|d e ev d' H IH]; intros ps Hp.
  - exact Hp.
  - apply IH. intros q. cbn [d_open]. destruct (path_dec q p) as [->|Hn].
    + intros _. apply Hp. rewrite E. discriminate.
    + rewrite sget_other by exact Hn. apply Hp.
  - destruct e as [q|q s|q]; cbn [opened]; apply IH; intros r; cbn [perform d_open].
    + destruct (path_dec r q) as [->|Hn]; [left; reflexivity|]. rewrite sget_other by exact Hn. right. now apply Hp.
    + destruct (path_dec r q) as [->|Hn]; [left; reflexivity|]. rewrite sget_other by exact Hn. right. now apply Hp.
    + destruct (dict_get seqb q (d_open d)) as [b|] eqn:Eq.
      * cbn [d_open]. destruct (path_dec r q) as [->|Hn]; [rewrite remove_same; congruence|]. rewrite remove_other by exact Hn. intros Hr.
        apply filter_In. split; [now apply Hp|]. destruct (seqb q r) eqn:E; [|reflexivity]. apply seqb_eq in E. congruence.
      * intros Hr. apply filter_In. split; [now apply Hp|]. destruct (seqb q r) eqn:E; [|reflexivity]. apply seqb_eq in E. subst. congruence.
Qed.
Lemma opened_app a b ps : opened (a ++ b) ps = opened b (opened a ps).
Proof. revert ps. induction a as [|[p|p s|p] a IH]; intros ps; cbn [app opened]; auto. Qed.

(** a file whose object is closed holds its text; otherwise the beginning of it *)
Lemma begins_refl a : begins a a. Proof. exists []. now rewrite app_nil_r. Qed.
Lemma begins_trans a b c : begins a b -> begins b c -> begins a c.
Proof. intros [x ->] [y ->]. exists (x ++ y). now rewrite app_assoc. Qed.
Lemma moves_file f evs d p : moves (mkDisk f []) evs d ->
  fs_get p (d_files d) = fs_get p (sem f evs) \/
  In p (opened evs []) /\ exists x, fs_get p (sem f evs) = Some x /\ begins (known (fs_get p (d_files d))) x.
Proof.
  intros H. pose proof (moves_backed _ _ _ H f (start_backed f) p) as Hb. pose proof (moves_opened _ _ _ H [] (fun p X => False_ind _ (X eq_refl)) p) as Ho.
  destruct (dict_get seqb p (d_open d)) as [b|]; [|now left]. right. split; [apply Ho; discriminate|]. exists (known (fs_get p (d_files d)) ++ b).
  split; [exact Hb|]. now exists b.
Qed.

(** ** later operations only append, unless the file is opened again *)
Definition touches (p : str) (e : event) : bool := match e with EOpen q | EWrite q _ => seqb p q | EClose _ => false end.
Definition opens (p : str) (e : event) : bool := match e with EOpen q => seqb p q | _ => false end.
Lemma sem_untouched p evs : forall f, (forall e, In e evs -> touches p e = false) -> fs_get p (sem f evs) = fs_get p f.
Proof.
  induction evs as [|e evs IH]; intros f H; [reflexivity|]. cbn [sem fold_left]. fold (sem (sem1 f e) evs).
  rewrite IH by (intros e' He'; apply H; now right). specialize (H e (or_introl eq_refl)). destruct e as [q|q s|q]; cbn [touches] in H; cbn [sem1]; [| |reflexivity].
  - apply truncate_other. now apply seqb_neq.
  - apply fs_append_other. now apply seqb_neq.
Qed.
Lemma sem_appends p evs : forall f, (forall e, In e evs -> opens p e = false) -> begins (known (fs_get p f)) (known (fs_get p (sem f evs))) /\
  (fs_get p f <> None -> fs_get p (sem f evs) <> None).
Proof.
  induction evs as [|e evs IH]; intros f H; [split; [apply begins_refl|auto]|]. cbn [sem fold_left]. fold (sem (sem1 f e) evs).
  destruct (IH (sem1 f e) (fun e' He' => H e' (or_intror He'))) as [H1 H2]. specialize (H e (or_introl eq_refl)).
  assert (X : begins (known (fs_get p f)) (known (fs_get p (sem1 f e))) /\ (fs_get p f <> None -> fs_get p (sem1 f e) <> None)).
  { destruct e as [q|q s|q]; cbn [opens] in H; cbn [sem1]; [| |split; [apply begins_refl|auto]].
    - apply seqb_neq in H. rewrite truncate_other by exact H. split; [apply begins_refl|auto].
    - destruct (path_dec p q) as [->|Hn]; [|rewrite fs_append_other by exact Hn; split; [apply begins_refl|auto]].
      rewrite append_known. cbn [known]. split; [now exists s|discriminate]. }
  destruct X as [X1 X2]. split; [exact (begins_trans _ _ _ X1 H1)|auto].
Qed.

(** ** traces that open each path once, before writing to it *)
Fixpoint tidy (ps : list str) (evs : list event) : Prop :=
  match evs with
  | [] => True
  | EOpen p :: r => ~ In p ps /\ tidy (p :: ps) r
  | EWrite p _ :: r => In p ps /\ tidy ps r
  | EClose p :: r => tidy ps r
  end.
Lemma tidy_open p evs : forall ps, tidy ps evs -> In p ps -> forall e, In e evs -> opens p e = false.
Proof.
  induction evs as [|e evs IH]; intros ps Ht Hp e' []; [subst e'|].
  - destruct e as [q|q s|q]; cbn [opens]; try reflexivity. destruct Ht as [Hn _]. apply seqb_neq. intros ->. contradiction.
  - destruct e as [q|q s|q]; [destruct Ht as [_ Ht]|destruct Ht as [_ Ht]|]; eauto. eapply IH; [exact Ht|now right|exact H].
Qed.
(** the text of a file does not depend on what was there before *)
Lemma sem_indep p evs : forall f f', fs_get p f = fs_get p f' -> fs_get p (sem f evs) = fs_get p (sem f' evs).
Proof.
  induction evs as [|e evs IH]; intros f f' H; [exact H|]. cbn [sem fold_left]. fold (sem (sem1 f e) evs). fold (sem (sem1 f' e) evs). apply IH.
  destruct e as [q|q s|q]; cbn [sem1]; [| |exact H]; destruct (path_dec p q) as [->|Hn].
  - now rewrite !truncate_same.
  - now rewrite !truncate_other.
  - now rewrite !append_get, H.
  - now rewrite !fs_append_other.
Qed.
(** at any point, a path is untouched or only appended to later *)
Lemma tidy_split p part : forall ps rest, tidy ps (part ++ rest) -> ~ In p ps ->
  (forall e, In e part -> touches p e = false) \/
  In (EOpen p) part /\ exists x y, begins x y /\ forall f, fs_get p (sem f part) = Some x /\ fs_get p (sem f (part ++ rest)) = Some y.
Proof.
  induction part as [|e part IH]; intros ps rest Ht Hp; [left; intros e []|]. cbn [app tidy] in Ht.
  assert (Hgo : forall ps', tidy ps' (part ++ rest) -> ~ In p ps' -> (forall f, fs_get p (sem1 f e) = fs_get p f) -> touches p e = false ->
    (forall e', In e' (e :: part) -> touches p e' = false) \/
    In (EOpen p) (e :: part) /\ exists x y, begins x y /\ forall f, fs_get p (sem f (e :: part)) = Some x /\ fs_get p (sem f ((e :: part) ++ rest)) = Some y).
  { intros ps' Ht' Hp' Hs He. destruct (IH ps' rest Ht' Hp') as [H|[Ho [x [y [Hb H]]]]].
    - left. intros e' [<-|X]; auto.
    - right. split; [now right|]. exists x, y. split; [exact Hb|]. intros f. exact (H (sem1 f e)). }
  destruct e as [q|q s|q].
  - destruct (path_dec p q) as [<-|Hn].
    + right. split; [now left|]. destruct Ht as [_ Ht].
      assert (Ho : forall e, In e (part ++ rest) -> opens p e = false) by (intros e' He'; exact (tidy_open p _ _ Ht (or_introl eq_refl) e' He')).
      destruct (sem_appends p part (fs_truncate p []) (fun e' He' => Ho e' (in_or_app _ _ _ (or_introl He')))) as [_ H2]. rewrite truncate_same in H2.
      specialize (H2 ltac:(discriminate)). destruct (fs_get p (sem (fs_truncate p []) part)) as [x|] eqn:Ex; [|congruence].
      destruct (sem_appends p rest (sem (fs_truncate p []) part) (fun e' He' => Ho e' (in_or_app _ _ _ (or_intror He')))) as [H3 H4].
      rewrite Ex in H3, H4. specialize (H4 ltac:(discriminate)). rewrite <- sem_app in H3, H4.
      destruct (fs_get p (sem (fs_truncate p []) (part ++ rest))) as [y|] eqn:Ey; [|congruence]. cbn [known] in H3.
      exists x, y. split; [exact H3|]. intros f. cbn [app sem fold_left sem1]. split.
      * rewrite <- Ex. apply sem_indep. now rewrite !truncate_same.
      * rewrite <- Ey. apply (sem_indep p (part ++ rest)). now rewrite !truncate_same.
    + destruct Ht as [_ Ht]. apply (Hgo (q :: ps) Ht); [intros [X|X]; congruence|intros f; now apply truncate_other|cbn [touches]; now apply seqb_neq].
  - destruct Ht as [Hq Ht]. assert (Hn : p <> q) by (intros ->; contradiction). apply (Hgo ps Ht Hp); [intros f; now apply fs_append_other|cbn [touches]; now apply seqb_neq].
  - exact (Hgo ps Ht Hp (fun f => eq_refl) eq_refl).
Qed.
Lemma opened_touched p evs : forall qs, In p (opened evs qs) -> In p qs \/ exists e, In e evs /\ touches p e = true.
Proof.
  induction evs as [|e evs IH]; intros qs; cbn [opened]; [auto|].
  destruct e as [q|q s|q]; intros H; destruct (IH _ H) as [X|[e' [X1 X2]]]; try (right; exists e'; split; [now right|exact X2]).
  - destruct X as [<-|X]; [right; exists (EOpen q); split; [now left|apply seqb_refl]|now left].
  - destruct X as [<-|X]; [right; exists (EWrite q s); split; [now left|apply seqb_refl]|now left].
  - apply filter_In in X. left. exact (proj1 X).
Qed.
(** files stay; an opened file is there *)
Lemma perform_keeps d e p : fs_get p (d_files d) <> None -> fs_get p (d_files (perform d e)) <> None.
Proof.
  intros H. destruct e as [q|q s|q]; cbn [perform d_files].
  - destruct (path_dec p q) as [->|Hn]; [rewrite truncate_same; discriminate|now rewrite truncate_other].
  - exact H.
  - destruct (dict_get seqb q (d_open d)) as [b|]; [|exact H]. cbn [d_files]. destruct (path_dec p q) as [->|Hn]; [rewrite append_known; discriminate|now rewrite fs_append_other].
Qed.
Lemma moves_keeps d evs d' p : moves d evs d' -> fs_get p (d_files d) <> None -> fs_get p (d_files d') <> None.
Proof.
  induction 1 as [d|d q a b ev d' E H IH|d e ev d' H IH]; intros Hp; [exact Hp| |apply IH; now apply perform_keeps].
  apply IH. cbn [d_files]. destruct (path_dec p q) as [->|Hn]; [rewrite append_known; discriminate|now rewrite fs_append_other].
Qed.
Lemma moves_there d evs d' p : moves d evs d' -> In (EOpen p) evs -> fs_get p (d_files d') <> None.
Proof.
  induction 1 as [d|d q a b ev d' E H IH|d e ev d' H IH]; [intros []|exact IH|]. intros [->|Hin]; [|exact (IH Hin)].
  apply (moves_keeps _ _ _ _ H). cbn [perform d_files]. rewrite truncate_same. discriminate.
Qed.
(** in such a trace a path with a buffer was opened *)
Lemma opened_tidy p evs : forall ps qs, tidy ps evs -> incl qs ps -> In p (opened evs qs) -> In p qs \/ In p ps \/ In (EOpen p) evs.
Proof.
  induction evs as [|e evs IH]; intros ps qs Ht Hi; cbn [opened]; [auto|]. destruct e as [q|q s|q]; [destruct Ht as [Hq Ht]|destruct Ht as [Hq Ht]|].
  - intros H. destruct (IH (q :: ps) (q :: qs) Ht ltac:(intros x [->|X]; [now left|right; auto]) H) as [[->|X]|[[->|X]|X]]; auto; right; right; auto using in_eq, in_cons.
  - intros H. destruct (IH ps (q :: qs) Ht ltac:(intros x [->|X]; auto) H) as [[->|X]|[X|X]]; auto. right; right. now right.
  - intros H. destruct (IH ps _ Ht ltac:(intros x X; apply filter_In in X; apply Hi; exact (proj1 X)) H) as [X|[X|X]]; auto.
    + apply filter_In in X. left. exact (proj1 X).
    + right; right. now right.
Qed.
(** the paths opened so far *)
Fixpoint began (evs : list event) (ps : list str) : list str :=
  match evs with [] => ps | EOpen p :: r => began r (p :: ps) | _ :: r => began r ps end.
Lemma began_app a : forall b ps, began (a ++ b) ps = began b (began a ps).
Proof. induction a as [|[p|p s|p] a IH]; intros b ps; cbn [app began]; auto. Qed.
Lemma tidy_app a : forall b ps, tidy ps (a ++ b) <-> tidy ps a /\ tidy (began a ps) b.
Proof. induction a as [|[p|p s|p] a IH]; intros b ps; cbn [app began tidy]; [tauto| | |]; rewrite IH; tauto. Qed.
Lemma began_in p evs : forall ps, In p (began evs ps) <-> In p ps \/ In (EOpen p) evs.
Proof.
  induction evs as [|e evs IH]; intros ps; cbn [began]; [cbn; tauto|]. destruct e as [q|q s|q]; rewrite IH; cbn [In]; split.
  - intros [[->|X]|X]; auto.
  - intros [X|[X|X]]; auto. injection X as ->. auto.
  - intros [X|X]; auto.
  - intros [X|[X|X]]; auto. discriminate.
  - intros [X|X]; auto.
  - intros [X|[X|X]]; auto. discriminate.
Qed.
Lemma tidy_untouched p evs ps f : tidy ps evs -> fs_get p (sem f evs) = fs_get p f \/ In p (began evs ps).
Proof.
  intros Ht. revert ps f Ht. induction evs as [|e evs IH]; intros ps f Ht; [now left|]. cbn [sem fold_left began]. fold (sem (sem1 f e) evs). destruct e as [q|q s|q].
  - destruct Ht as [_ Ht]. destruct (path_dec p q) as [->|Hn]; [right; apply began_in; left; now left|]. destruct (IH (q :: ps) (sem1 f (EOpen q)) Ht) as [X|X]; [left|now right].
    rewrite X. cbn [sem1]. now apply truncate_other.
  - destruct Ht as [Hq Ht]. destruct (path_dec p q) as [->|Hn]; [right; apply began_in; now left|]. destruct (IH ps (sem1 f (EWrite q s)) Ht) as [X|X]; [left|now right].
    rewrite X. cbn [sem1]. now apply fs_append_other.
  - exact (IH ps _ Ht).
Qed.
