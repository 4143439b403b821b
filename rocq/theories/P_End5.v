(** End to end, part 5: the rows of a run. *)
From Verif Require Import Base PyStr PyFloat PyDate PyPath S_Text S_Time S_Obs2 S_Open2 S_Obs3 S_Label S_Rec S_Tec S_Out M_Common M_Header M_Obs2 M_Obs3 M_Label M_Num M_Tec M_Rec M_Text M_Cfg M_Names M_Nav M_Main S_Main S_End.
From Verif Require Import P_Str P_Rec P_Open2b P_Main7 P_Main8 P_End2 P_End3 P_End4.
Open Scope nat_scope.

Lemma rows_of_in sat ops t q : In (t, q) (rows_of sat ops) -> exists sd nav, In (WRow sat sd nav t q) ops.
Proof.
  induction ops as [|o ops IH]; [contradiction|]. destruct o as [t0 p l|s sd nav t0 q0]; cbn [rows_of].
  - intros H. destruct (IH H) as [sd [nav X]]. exists sd, nav. now right.
  - intros H. apply in_app_or in H. destruct H as [H|H].
    + destruct (seqb sat s) eqn:E; [|contradiction]. apply seqb_eq in E. subst s. destruct H as [H|[]]. injection H as -> ->. exists sd, nav. now left.
    + destruct (IH H) as [sd' [nav' X]]. exists sd', nav'. now right.
Qed.
Lemma forall2_right {A B} (P : A -> B -> Prop) (Q : B -> Prop) l r : Forall2 P l r -> (forall x y, In x l -> P x y -> Q y) -> Forall Q r.
Proof.
  induction 1 as [|x y l r H F IH]; intros G; constructor; [exact (G x y (or_introl eq_refl) H)|]. apply IH. intros a b Ha. apply G. now right.
Qed.
Lemma forall2_in {A B} (P Q : A -> B -> Prop) l r : Forall2 P l r -> (forall x y, In x l -> P x y -> Q x y) -> Forall2 Q l r.
Proof.
  induction 1 as [|x y l r H F IH]; intros G; constructor; [exact (G x y (or_introl eq_refl) H)|]. apply IH. intros a b Ha. apply G. now right.
Qed.
Lemma composed_names n fields rf f : compose_rec_format n fields = Ok rf -> In f (rf_fields rf) -> In f field_names.
Proof.
  intros H. destruct (compose_inv _ _ _ H) as [ds [F _]]. clear H. induction F as [|a d l ds Hd F IH]; [contradiction|]. intros [<-|Hin]; [|now apply IH].
  apply lookup_names. now exists d.
Qed.

Section Rows.
Context (w : world) (c : cfg) (n : nat) (fields : list str).
Hypothesis Hfmt : compose_rec_format n fields = Ok (c_format c).
Hypothesis Hsq : squares w.
Lemma one_row f name ops P sat t q iv row : written w c f name ops -> well_formed w name P -> In (t, q) (rows_of sat ops) ->
  row_text (c_format c) (oc_strftime (out_of w c)) iv t q = Ok row -> row_says w c P sat row.
Proof.
  intros Hw Hwf Hin Hr. destruct (rows_of_in sat ops t q Hin) as [sd [nav Hop]].
  destruct (rows_fresh w c f name ops Hw sat sd nav t q Hop) as [b [s [xyzs [Ho [Hs [_ [_ Hrow]]]]]]].
  destruct Hrow as [t' [sys [k [site [lbh [pos [el0 [az [sd' [nav' [q' [Hid [E [_ [_ [_ [_ [_ [_ [_ Hd]]]]]]]]]]]]]]]]]]]]. injection E as -> -> -> -> ->.
  destruct Hid as [Hep [digits [Hsat Hnum]]]. destruct (stated_steps w name P b Hwf Ho s Hs) as [ep [vals [Hep' [HP [Hnd Hrec]]]]].
  rewrite Hep in Hep'. injection Hep' as <-. destruct (row_cells n fields (c_format c) _ t' iv q' row Hfmt Hr) as [cells [Hc Hf]].
  exists t', vals, cells. split; [exact HP|]. split; [exact Hc|]. rewrite Hsat. eapply forall2_in; [exact Hf|]. intros fl cell Hfl Hcell. cbv beta in Hcell.
  exact (column_ok w c s t' sys digits k q' vals Hsq Hnum Hd Hnd Hrec fl cell Hfl (composed_names n fields (c_format c) fl Hfmt Hfl) Hcell).
Qed.
Lemma end_rows f pre name ops post sat P : stopped_by w c f = None -> snd (fst (main w c f)) = pre ++ (name, ops) :: post -> rows_of sat ops <> [] ->
  (forall name' ops', In (name', ops') post -> rows_of sat ops' <> [] -> marker_of name' <> marker_of name \/ get_rinex_date name' <> get_rinex_date name) ->
  well_formed w name P ->
  exists d h rows, get_rinex_date name = Some d /\ fs_get (result_file (c_outdir c) (marker_of name) sat d) (fst (fst (main w c f))) = Some (h ++ concat rows) /\
    comments h /\ List.length rows = List.length (rows_of sat ops) /\ Forall (row_says w c P sat) rows.
Proof.
  intros H1 H2 H3 H4 Hwf. destruct (run_files w c f pre name ops post sat H1 H2 H3 H4) as [b [iv [d [content [_ [_ [Hd [Hg [h [rs [-> [Hh Hrs]]]]]]]]]]]].
  exists d, h, rs. split; [exact Hd|]. split; [exact Hg|]. split; [exact Hh|]. split; [symmetry; clear -Hrs; induction Hrs; cbn; congruence|].
  assert (Hwr : written w c f name ops) by (unfold written; rewrite H2; apply in_or_app; right; now left).
  eapply forall2_right; [exact Hrs|]. intros [t q] row Hin Hr. cbn [fst snd] in Hr. exact (one_row f name ops P sat t q iv row Hwr Hwf Hin Hr).
Qed.
End Rows.
