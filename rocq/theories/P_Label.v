(** Proofs about observation classes, parse_rec and the validity word. *)
From Coq Require Import Permutation.
From Verif Require Import Base PyStr PyFloat PyDate M_Obs2 M_Label S_Label P_Str.
Open Scope nat_scope.

Lemma in_class_In t c : in_class t c = true <-> In t c.
Proof.
  unfold in_class. rewrite existsb_exists. split.
  - intros [x [Hx E]]. apply seqb_eq in E. now subst.
  - intros H. exists t. split; [exact H|]. now apply seqb_eq.
Qed.
Lemma class_eqb_eq a : forall b, class_eqb a b = true <-> a = b.
Proof.
  induction a as [|x a IH]; intros [|y b]; cbn [class_eqb]; split; intros H; try discriminate; try reflexivity.
  - apply andb_prop in H. destruct H as [H1 H2]. apply seqb_eq in H1. apply IH in H2. congruence.
  - injection H as -> ->. apply andb_true_intro. split; [now apply seqb_eq|now apply IH].
Qed.

(** ** at most one class *)
Definition disjointb (a b : oclass) : bool := forallb (fun t => negb (in_class t b)) a.
Lemma disjointb_ok a b t : disjointb a b = true -> In t a -> In t b -> False.
Proof.
  unfold disjointb. rewrite forallb_forall. intros H Ha Hb. specialize (H t Ha). apply in_class_In in Hb. rewrite Hb in H. discriminate.
Qed.
Fixpoint pairwise (l : list oclass) : bool :=
  match l with [] => true | a :: r => forallb (disjointb a) r && pairwise r end.
Lemma labels_pairwise : pairwise labels = true.
Proof. vm_compute. reflexivity. Qed.
Lemma pairwise_nth l : pairwise l = true -> forall i j a b t, nth_error l i = Some a -> nth_error l j = Some b -> In t a -> In t b -> i = j.
Proof.
  induction l as [|x l IH]; intros H i j a b t Hi Hj Ha Hb; [destruct i; discriminate|].
  cbn [pairwise] in H. apply andb_prop in H. destruct H as [H1 H2]. rewrite forallb_forall in H1.
  destruct i as [|i], j as [|j]; cbn [nth_error] in *; [reflexivity| | |f_equal; eapply IH; eassumption].
  - injection Hi as ->. apply nth_error_In in Hj. destruct (disjointb_ok a b t (H1 b Hj) Ha Hb).
  - injection Hj as ->. apply nth_error_In in Hi. destruct (disjointb_ok b a t (H1 a Hi) Hb Ha).
Qed.
Lemma label_unique i j a b t : nth_error labels i = Some a -> nth_error labels j = Some b -> In t a -> In t b -> i = j.
Proof. apply pairwise_nth. exact labels_pairwise. Qed.
Lemma label_class_unique a b t : In a labels -> In b labels -> In t a -> In t b -> a = b.
Proof.
  intros Ha Hb H1 H2. destruct (In_nth_error _ _ Ha) as [i Hi]. destruct (In_nth_error _ _ Hb) as [j Hj].
  assert (i = j) by (eapply label_unique; eassumption). subst j. congruence.
Qed.
Lemma get_label_spec ls t c : Permutation labels ls -> (get_label_in ls t = Ok c <-> In c ls /\ In t c).
Proof.
  intros P. unfold get_label_in. split.
  - destruct (find (in_class t) ls) as [x|] eqn:E; [|discriminate]. cbn [of_option]. intros H. injection H as ->.
    apply find_some in E. destruct E as [E1 E2]. split; [exact E1|now apply in_class_In].
  - intros [H1 H2]. destruct (find (in_class t) ls) as [x|] eqn:E.
    + apply find_some in E. destruct E as [E1 E2]. apply in_class_In in E2. cbn [of_option]. f_equal.
      apply (label_class_unique x c t); try assumption; eapply Permutation_in; try eassumption; now apply Permutation_sym.
    + exfalso. pose proof (find_none _ _ E c H1) as Hn. apply in_class_In in H2. rewrite H2 in Hn. discriminate.
Qed.
Lemma get_label_err ls t : get_label_in ls t = Err LabelError <-> (forall c, In c ls -> ~ In t c).
Proof.
  unfold get_label_in. split.
  - destruct (find (in_class t) ls) as [x|] eqn:E; [discriminate|]. intros _ c Hc Ht. pose proof (find_none _ _ E c Hc) as Hn.
    apply in_class_In in Ht. rewrite Ht in Hn. discriminate.
  - intros H. destruct (find (in_class t) ls) as [x|] eqn:E; [|reflexivity]. apply find_some in E. destruct E as [E1 E2].
    apply in_class_In in E2. destruct (H x E1 E2).
Qed.
Lemma get_label_only ls t e : get_label_in ls t = Err e -> e = LabelError.
Proof. unfold get_label_in. destruct (find _ _); [discriminate|]. intros H. now injection H. Qed.
Lemma order_irrelevant ls t : Permutation labels ls -> get_label_in ls t = get_label t.
Proof.
  intros P. unfold get_label. destruct (get_label_in labels t) as [c|e] eqn:E.
  - apply (get_label_spec labels t c (Permutation_refl _)) in E. apply get_label_spec; [exact P|]. destruct E as [E1 E2]. split; [|exact E2].
    eapply Permutation_in; eassumption.
  - pose proof (get_label_only _ _ _ E). subst e. apply get_label_err. intros c Hc. rewrite get_label_err in E. apply E.
    eapply Permutation_in; [apply Permutation_sym; exact P|exact Hc].
Qed.
(** phases have Doppler and strength codes *)
Definition Lcodes : list str := filter (fun t => match t with c :: _ => ceqb c "L"%char | [] => false end) (concat obs_type_labels).
Lemma phase_codes band attr c : get_label (code3 "L" band attr) = Ok c ->
  (exists d, get_label (code3 "S" band attr) = Ok d) /\
  ((band, attr) <> ("6", "I")%char /\ (band, attr) <> ("6", "Q")%char -> exists d, get_label (code3 "D" band attr) = Ok d).
Proof.
  intros H. apply (get_label_spec labels _ _ (Permutation_refl _)) in H. destruct H as [H1 H2].
  assert (Hc : In (code3 "L" band attr) (concat labels)) by (apply in_concat; exists c; auto).
  assert (S : forallb (fun t => match t with
     | [k; b; a] => if ceqb k "L" then
         (match get_label (code3 "S" b a) with Ok _ => true | Err _ => false end) &&
         ((ceqb b "6" && (ceqb a "I" || ceqb a "Q")) || match get_label (code3 "D" b a) with Ok _ => true | Err _ => false end) else true
     | _ => true end) (concat labels) = true) by (vm_compute; reflexivity).
  rewrite forallb_forall in S. specialize (S _ Hc). unfold code3 at 1 in S. change (ceqb "L" "L") with true in S. cbv iota in S.
  apply andb_prop in S. destruct S as [S1 S2]. split.
  - destruct (get_label (code3 "S" band attr)); [eauto|discriminate].
  - intros [N1 N2]. destruct (get_label (code3 "D" band attr)); [eauto|]. rewrite orb_false_r in S2. apply andb_prop in S2. destruct S2 as [S2 S3].
    unfold ceqb in *. apply Ascii.eqb_eq in S2. apply orb_prop in S3. destruct S3 as [S3|S3]; apply Ascii.eqb_eq in S3; subst; congruence.
Qed.

(** ** sorting *)
Lemma code_inj a b : code a = code b -> a = b.
Proof. unfold code. intros H. rewrite <- (ascii_N_embedding a), <- (ascii_N_embedding b), H. reflexivity. Qed.
Lemma str_leb_le a : forall b, str_leb a b = true -> str_le a b.
Proof.
  induction a as [|x a IH]; intros [|y b] H; cbn [str_leb] in H; [constructor|constructor|discriminate|].
  destruct (ceqb x y) eqn:E.
  - unfold ceqb in E. apply Ascii.eqb_eq in E. subst. apply sle_eq. auto.
  - apply sle_lt. now apply N.ltb_lt.
Qed.
Lemma str_leb_total a : forall b, str_leb a b = false -> str_leb b a = true.
Proof.
  induction a as [|x a IH]; intros [|y b] H; cbn [str_leb] in *; try discriminate; [reflexivity|].
  unfold ceqb in *. rewrite Ascii.eqb_sym. destruct (Ascii.eqb x y) eqn:E; [auto|].
  apply N.ltb_ge in H. apply N.ltb_lt. assert (code x <> code y) by (intros C; apply code_inj in C; subst; rewrite Ascii.eqb_refl in E; discriminate). lia.
Qed.
Lemma str_le_trans a b c : str_le a b -> str_le b c -> str_le a c.
Proof.
  intros H. revert c. induction H as [s|x y s t L|x s t H IH]; intros c Hc; [constructor| |].
  - inversion Hc; subst; [apply sle_lt; lia|apply sle_lt; assumption].
  - inversion Hc; subst; [apply sle_lt; assumption|apply sle_eq; auto].
Qed.
Lemma str_le_refl a : str_le a a.
Proof. induction a; [constructor|apply sle_eq; assumption]. Qed.
Lemma str_le_antisym a b : str_le a b -> str_le b a -> a = b.
Proof.
  induction 1 as [s|x y s t L|x s t H IH]; intros Hc; inversion Hc; subst; try reflexivity; try lia. f_equal. auto.
Qed.
Inductive sorted : list str -> Prop :=
| so_nil : sorted []
| so_cons x l : Forall (str_le x) l -> sorted l -> sorted (x :: l).
Lemma insert_perm x l : Permutation (x :: l) (insert_str x l).
Proof.
  induction l as [|y l IH]; cbn [insert_str]; [apply Permutation_refl|]. destruct (str_leb x y); [apply Permutation_refl|].
  eapply perm_trans; [apply perm_swap|]. now apply perm_skip.
Qed.
Lemma sort_perm l : Permutation l (sort_str l).
Proof. induction l as [|x l IH]; cbn [sort_str]; [constructor|]. eapply perm_trans; [apply perm_skip; exact IH|apply insert_perm]. Qed.
Lemma insert_sorted x l : sorted l -> sorted (insert_str x l).
Proof.
  induction 1 as [|y l HF Hs IH]; cbn [insert_str]; [constructor; constructor|].
  destruct (str_leb x y) eqn:E.
  - apply str_leb_le in E. constructor; [|constructor; assumption]. constructor; [exact E|].
    revert HF. apply Forall_impl. intros z. now apply str_le_trans.
  - constructor; [|exact IH]. apply str_leb_total, str_leb_le in E.
    apply (Permutation_Forall (insert_perm x l)). constructor; assumption.
Qed.
Lemma sort_sorted l : sorted (sort_str l).
Proof. induction l; cbn [sort_str]; [constructor|now apply insert_sorted]. Qed.
Lemma remove_first_in x y l : In y (remove_first x l) -> In y l.
Proof.
  induction l as [|z l IH]; cbn [remove_first]; [auto|]. destruct (seqb x z); [now right|]. intros [H|H]; [now left|right; auto].
Qed.
Lemma remove_first_other x y l : y <> x -> In y l -> In y (remove_first x l).
Proof.
  intros N. induction l as [|z l IH]; cbn [remove_first]; [auto|]. intros [H|H].
  - subst z. destruct (seqb x y) eqn:E; [apply seqb_eq in E; congruence|now left].
  - destruct (seqb x z); [exact H|right; auto].
Qed.
Lemma remove_first_sorted x l : sorted l -> sorted (remove_first x l).
Proof.
  induction 1 as [|y l HF Hs IH]; cbn [remove_first]; [constructor|]. destruct (seqb x y); [exact Hs|]. constructor; [|exact IH].
  rewrite Forall_forall in *. intros z Hz. apply HF. eapply remove_first_in. exact Hz.
Qed.
Lemma find_first (f : str -> bool) l k : sorted l -> In k l -> f k = true -> (forall k', In k' l -> f k' = true -> str_le k k') -> find f l = Some k.
Proof.
  induction 1 as [|y l HF Hs IH]; intros Hin Hf Hmin; [contradiction|]. cbn [find]. destruct (f y) eqn:E.
  - f_equal. destruct Hin as [->|Hin]; [reflexivity|]. apply str_le_antisym.
    + rewrite Forall_forall in HF. auto.
    + apply Hmin; [now left|exact E].
  - destruct Hin as [->|Hin]; [congruence|]. apply IH; [exact Hin|exact Hf|]. intros k' H1 H2. apply Hmin; [now right|exact H2].
Qed.
Lemma dict_get_in {V} (k : str) (v : V) d : NoDup (map fst d) -> In (k, v) d -> dict_get seqb k d = Some v.
Proof.
  induction d as [|[k' v'] d IH]; intros Hn Hin; [contradiction|]. cbn [dict_get]. cbn [map fst] in Hn. inversion Hn as [|? ? H1 H2]; subst.
  destruct Hin as [E|Hin].
  - injection E as -> ->. assert (seqb k k = true) as -> by now apply seqb_eq. reflexivity.
  - destruct (seqb k k') eqn:E; [|auto]. apply seqb_eq in E. subst k'. exfalso. apply H1. apply in_map_iff. exists (k, v). auto.
Qed.
Lemma obs_pairwise : pairwise obs_type_labels = true.
Proof. vm_compute. reflexivity. Qed.
(** the loop, whatever the order of the classes *)
Lemma parse_loop_spec cs : pairwise cs = true -> forall ots rec c, sorted ots -> In c cs ->
  (forall k v, NoDup (map fst rec) -> In k ots -> In k c -> (forall k', In k' ots -> In k' c -> str_le k k') -> In (k, v) rec ->
     dict_get class_eqb c (parse_rec_loop cs ots rec) = Some (datum_of v)) /\
  ((forall k, In k ots -> ~ In k c) -> dict_get class_eqb c (parse_rec_loop cs ots rec) = Some no_datum).
Proof.
  induction cs as [|c0 cs IH]; intros Hp ots rec c Hs Hc; [contradiction|].
  cbn [pairwise] in Hp. apply andb_prop in Hp. destruct Hp as [Hd Hp]. rewrite forallb_forall in Hd.
  cbn [parse_rec_loop]. destruct (class_eqb c c0) eqn:Ec.
  - apply class_eqb_eq in Ec. subst c0. split.
    + intros k v Hn Hk Hkc Hmin Hin. rewrite (find_first _ ots k Hs Hk).
      * cbn [dict_get]. rewrite (proj2 (class_eqb_eq c c) eq_refl). now rewrite (dict_get_in k v rec Hn Hin).
      * now apply in_class_In.
      * intros k' H1 H2. apply Hmin; [exact H1|now apply in_class_In].
    + intros Hno. destruct (find (fun ot => in_class ot c) ots) as [ot|] eqn:E.
      * apply find_some in E. destruct E as [E1 E2]. apply in_class_In in E2. destruct (Hno ot E1 E2).
      * cbn [dict_get]. now rewrite (proj2 (class_eqb_eq c c) eq_refl).
  - assert (Hc' : In c cs). { destruct Hc as [->|Hc]; [|exact Hc]. rewrite (proj2 (class_eqb_eq c c) eq_refl) in Ec. discriminate. }
    destruct (find (fun ot => in_class ot c0) ots) as [ot|] eqn:E.
    + cbn [dict_get]. rewrite Ec. apply find_some in E. destruct E as [E1 E2]. apply in_class_In in E2.
      assert (Hne : forall k, In k c -> k <> ot). { intros k Hk ->. exact (disjointb_ok c0 c ot (Hd c Hc') E2 Hk). }
      destruct (IH Hp (remove_first ot ots) rec c (remove_first_sorted ot ots Hs) Hc') as [I1 I2]. split.
      * intros k v Hn Hk Hkc Hmin Hin. apply (I1 k v Hn); [apply remove_first_other; [now apply Hne|exact Hk]|exact Hkc| |exact Hin].
        intros k' H1 H2. apply Hmin; [eapply remove_first_in; exact H1|exact H2].
      * intros Hno. apply I2. intros k Hk. apply Hno. eapply remove_first_in. exact Hk.
    + cbn [dict_get]. rewrite Ec. apply IH; assumption.
Qed.
Lemma parse_rec_first rec c k v : NoDup (map fst rec) -> In c obs_type_labels -> first_of_class rec c k -> In (k, v) rec ->
  dict_get class_eqb c (parse_rec rec) = Some (datum_of v).
Proof.
  intros Hn Hc [H1 [H2 H3]] Hin. unfold parse_rec.
  apply (proj1 (parse_loop_spec _ obs_pairwise (sort_str (map fst rec)) rec c (sort_sorted _) Hc) k v Hn); try assumption.
  - eapply Permutation_in; [apply sort_perm|exact H1].
  - intros k' K1 K2. apply H3; [|exact K2]. eapply Permutation_in; [apply Permutation_sym, sort_perm|exact K1].
Qed.
Lemma parse_rec_none rec c : In c obs_type_labels -> (forall k, In k (map fst rec) -> ~ In k c) ->
  dict_get class_eqb c (parse_rec rec) = Some no_datum.
Proof.
  intros Hc Hno. unfold parse_rec. apply (proj2 (parse_loop_spec _ obs_pairwise (sort_str (map fst rec)) rec c (sort_sorted _) Hc)).
  intros k Hk. apply Hno. eapply Permutation_in; [apply Permutation_sym, sort_perm|exact Hk].
Qed.
Lemma first_exists rec c : (exists k, In k (map fst rec) /\ In k c) -> exists k, first_of_class rec c k.
Proof.
  intros [k0 [H1 H2]]. pose proof (sort_sorted (map fst rec)) as Hs.
  destruct (find (fun ot => in_class ot c) (sort_str (map fst rec))) as [k|] eqn:E.
  - exists k. pose proof (find_some _ _ E) as [E1 E2]. apply in_class_In in E2. split; [eapply Permutation_in; [apply Permutation_sym, sort_perm|exact E1]|].
    split; [exact E2|]. intros k' K1 K2. assert (K1' : In k' (sort_str (map fst rec))) by (eapply Permutation_in; [apply sort_perm|exact K1]).
    clear H1 H2 K1 E1. revert E K1'. induction Hs as [|y l HF Hs IH]; [contradiction|]. cbn [find]. destruct (in_class y c) eqn:Ey.
    + intros E. injection E as ->. intros [->|Hin]; [apply str_le_refl|]. rewrite Forall_forall in HF. auto.
    + intros E [->|Hin]; [|auto]. apply in_class_In in K2. congruence.
  - exfalso. assert (K : In k0 (sort_str (map fst rec))) by (eapply Permutation_in; [apply sort_perm|exact H1]).
    pose proof (find_none _ _ E k0 K) as Hf. cbv beta in Hf. apply in_class_In in H2. congruence.
Qed.

(** ** the validity word *)
Definition bit_of (c : oclass) : option Z := dict_get class_eqb c bit_set.
Lemma bit_set_val c b : In (c, b) bit_set -> bit_of c = Some b.
Proof.
  intros H. unfold bit_of. cbn [bit_set In] in H.
  repeat (destruct H as [H|H]; [injection H as <- <-; vm_compute; reflexivity|]). contradiction.
Qed.
Lemma bit_of_in c b : bit_of c = Some b -> In (c, b) bit_set.
Proof.
  unfold bit_of. generalize bit_set. intros l. induction l as [|[c' b'] l IH]; cbn [dict_get]; [discriminate|].
  destruct (class_eqb c c') eqn:E; [|right; auto]. intros H. injection H as ->. apply class_eqb_eq in E. subst. now left.
Qed.
Lemma bit_set_inj c c' b : In (c, b) bit_set -> In (c', b) bit_set -> c = c'.
Proof.
  intros H H'. cbn [bit_set In] in H, H'.
  repeat (destruct H as [H|H]; [injection H as <- <-; repeat (destruct H' as [H'|H']; [try discriminate H'; injection H' as <-; reflexivity|]); contradiction|]).
  contradiction.
Qed.
Lemma bit_nonneg c b : bit_of c = Some b -> (0 <= b)%Z.
Proof.
  intros H. apply bit_of_in in H. cbn [bit_set In] in H. repeat (destruct H as [H|H]; [injection H as <- <-; lia|]). contradiction.
Qed.
Lemma set_bits_loop_spec types : forall v w, set_bits_loop types v = Ok w -> (0 <= v)%Z ->
  (0 <= w)%Z /\ forall k, (0 <= k)%Z -> Z.testbit w k = Z.testbit v k || existsb (fun t => match get_label t with Ok l => match bit_of l with Some b => (b =? k)%Z | None => false end | Err _ => false end) types.
Proof.
  induction types as [|t types IH]; intros v w H Hv; cbn [set_bits_loop] in H.
  - injection H as <-. split; [exact Hv|]. intros k Hk. cbn [existsb]. now rewrite orb_false_r.
  - destruct (get_label t) as [l|e] eqn:E; [|discriminate]. cbn [bind] in H. fold (bit_of l) in H.
    destruct (bit_of l) as [b|] eqn:Eb.
    + pose proof (bit_nonneg _ _ Eb) as Hb. apply IH in H; [|apply Z.lor_nonneg; split; [exact Hv|apply Z.pow_nonneg; lia]].
      destruct H as [H1 H2]. split; [exact H1|]. intros k Hk. rewrite (H2 k Hk). cbn [existsb]. rewrite E, Eb.
      rewrite Z.lor_spec, Z.pow2_bits_eqb by exact Hb. now rewrite orb_assoc.
    + apply IH in H; [|exact Hv]. destruct H as [H1 H2]. split; [exact H1|]. intros k Hk. rewrite (H2 k Hk). cbn [existsb]. now rewrite E, Eb.
Qed.
Lemma set_bits_ok types w : set_bits types = Ok w -> forall k c, In (c, k) bit_set ->
  (Z.testbit w k = true <-> exists t, In t types /\ In t c).
Proof.
  intros H k c Hk. pose proof (bit_set_val _ _ Hk) as Hb. pose proof (bit_nonneg _ _ Hb) as Hk0.
  destruct (set_bits_loop_spec _ _ _ H (Z.le_refl 0)) as [_ S]. rewrite (S k Hk0), Z.testbit_0_l. cbn [orb].
  rewrite existsb_exists. split.
  - intros [t [Ht E]]. exists t. split; [exact Ht|]. destruct (get_label t) as [l|] eqn:El; [|discriminate].
    destruct (bit_of l) as [b|] eqn:Ebl; [|discriminate]. apply Z.eqb_eq in E. subst b.
    assert (l = c) by (eapply bit_set_inj; [apply bit_of_in; exact Ebl|exact Hk]). subst l.
    apply (get_label_spec labels t c (Permutation_refl _)) in El. apply El.
  - intros [t [Ht Hc]]. exists t. split; [exact Ht|].
    assert (Hl : In c labels).
    { clear -Hk. cbn [bit_set In] in Hk. unfold labels. apply in_or_app. cbn [obs_type_labels In].
      repeat (destruct Hk as [Hk|Hk]; [injection Hk as <- <-; tauto|]). contradiction. }
    assert (E : get_label t = Ok c) by (apply (get_label_spec labels t c (Permutation_refl _)); auto).
    rewrite E, Hb. apply Z.eqb_refl.
Qed.
Lemma set_bits_high types w k : set_bits types = Ok w -> (16 < k)%Z -> Z.testbit w k = false.
Proof.
  intros H Hk. destruct (set_bits_loop_spec _ _ _ H (Z.le_refl 0)) as [_ S]. rewrite S by lia. rewrite Z.testbit_0_l. cbn [orb].
  apply not_true_is_false. rewrite existsb_exists. intros [t [_ E]]. destruct (get_label t) as [l|]; [|discriminate].
  destruct (bit_of l) as [b|] eqn:Eb; [|discriminate]. apply Z.eqb_eq in E. subst b. apply bit_of_in in Eb.
  cbn [bit_set In] in Eb. repeat (destruct Eb as [Eb|Eb]; [injection Eb as _ Eb; lia|]). contradiction.
Qed.
Lemma set_bits_total types : (forall t, In t types -> exists c, In c labels /\ In t c) -> exists w, set_bits types = Ok w.
Proof.
  unfold set_bits. generalize 0%Z. induction types as [|t types IH]; intros v H; cbn [set_bits_loop]; [eauto|].
  destruct (H t (or_introl eq_refl)) as [c [H1 H2]].
  assert (get_label t = Ok c) as -> by (apply (get_label_spec labels t c (Permutation_refl _)); auto). cbn [bind]. apply IH.
  intros t' Ht'. apply H. now right.
Qed.
Lemma set_bits_err types t : In t types -> (forall c, In c labels -> ~ In t c) -> set_bits types = Err LabelError.
Proof.
  unfold set_bits. generalize 0%Z. induction types as [|t0 types IH]; intros v Hin Hno; [contradiction|]. cbn [set_bits_loop].
  destruct (get_label t0) as [l|e] eqn:E.
  - cbn [bind]. destruct Hin as [->|Hin]; [|apply IH; assumption]. apply (get_label_spec labels t l (Permutation_refl _)) in E. destruct E as [E1 E2]. destruct (Hno l E1 E2).
  - cbn [bind]. f_equal. eapply get_label_only. exact E.
Qed.

Lemma valued_in rec t : In t (valued_types rec) <-> exists v, In (t, v) rec /\ nonzero v.
Proof.
  unfold valued_types. rewrite in_map_iff. split.
  - intros [[t' v] [E H]]. cbn [fst] in E. subst t'. apply filter_In in H. destruct H as [H1 H2]. cbn [snd] in H2. exists v. split; [exact H1|].
    destruct (fst (fst v)) as [x|] eqn:E; [|discriminate]. exists x. split; [exact E|]. intros s ->. discriminate.
  - intros [v [H1 [x [H2 H3]]]]. exists (t, v). split; [reflexivity|]. apply filter_In. split; [exact H1|]. cbn [snd]. rewrite H2.
    destruct x as [s| | |]; try reflexivity. destruct (H3 s eq_refl).
Qed.
Lemma lli_in rec c name t : NoDup (map fst rec) -> In c obs_type_labels ->
  (In t (lli_type (ds_get (parse_rec rec) c) name) <-> t = name /\ lock_lost rec c).
Proof.
  intros Hn Hc. unfold ds_get.
  assert (Hdec : (exists k, In k (map fst rec) /\ In k c) \/ (forall k, In k (map fst rec) -> ~ In k c)).
  { destruct (existsb (fun k => in_class k c) (map fst rec)) eqn:E.
    - left. apply existsb_exists in E. destruct E as [k [E1 E2]]. exists k. split; [exact E1|now apply in_class_In].
    - right. intros k Hk Hkc. apply in_class_In in Hkc. assert (existsb (fun k => in_class k c) (map fst rec) = true) by (apply existsb_exists; eauto). congruence. }
  destruct Hdec as [Hex|Hno].
  - destruct (first_exists rec c Hex) as [k Hk]. pose proof (proj1 Hk) as Hin. apply in_map_iff in Hin. destruct Hin as [[k' v] [E Hin]]. cbn [fst] in E. subst k'.
    rewrite (parse_rec_first rec c k v Hn Hc Hk Hin). destruct v as [[x l] s]. unfold lli_type, datum_of. cbn [fst snd].
    assert (Hu : forall k' v', first_of_class rec c k' -> In (k', v') rec -> v' = (x, l, s)).
    { intros k' v' Hf Hv. assert (k' = k) by (apply str_le_antisym; [apply Hf; apply Hk|apply Hk; apply Hf]). subst k'.
      pose proof (dict_get_in _ _ _ Hn Hin) as G1. pose proof (dict_get_in _ _ _ Hn Hv) as G2. congruence. }
    destruct (Z.odd l) eqn:Eo.
    + assert ((l =? 0)%Z = false) as -> by (destruct (Z.eqb_spec l 0); [subst; discriminate|reflexivity]). cbn. split.
      * intros [<-|[]]. split; [reflexivity|]. exists k, (x, l, s). split; [exact Hk|]. split; [exact Hin|exact Eo].
      * intros [-> _]. now left.
    + rewrite andb_false_r. split; [contradiction|]. intros [_ [k' [v' [H1 [H2 H3]]]]]. rewrite (Hu k' v' H1 H2) in H3. cbn [fst snd] in H3. congruence.
  - rewrite (parse_rec_none rec c Hc Hno). cbn. split; [contradiction|]. intros [_ [k [v [H1 _]]]]. destruct (Hno k); [apply H1|apply H1].
Qed.

Definition lli_names : list str := [lit "LLI1"; lit "LLI2"; lit "LLI5"].
Definition no_lli (types : list str) : Prop := forall t, In t types -> ~ In t lli_names.

Lemma validity_types_in rec t : NoDup (map fst rec) ->
  In t (valued_types rec ++ lli_type (ds_get (parse_rec rec) cL1) (lit "LLI1") ++ lli_type (ds_get (parse_rec rec) cL2) (lit "LLI2") ++ lli_type (ds_get (parse_rec rec) cL5) (lit "LLI5")) <->
  (exists v, In (t, v) rec /\ nonzero v) \/ (t = lit "LLI1" /\ lock_lost rec cL1) \/ (t = lit "LLI2" /\ lock_lost rec cL2) \/ (t = lit "LLI5" /\ lock_lost rec cL5).
Proof.
  intros Hn. rewrite !in_app_iff, valued_in, !lli_in by (try exact Hn; cbn [obs_type_labels In]; tauto). tauto.
Qed.
Lemma record_validity_total types rec : NoDup (map fst rec) ->
  (forall t, In t types \/ In t (map fst rec) -> exists c, In c labels /\ In t c) -> exists w, record_validity types rec = Ok w.
Proof.
  intros Hn H. unfold record_validity, eval_validity. destruct (set_bits_total types) as [a Ha]; [intros t Ht; apply H; auto|]. rewrite Ha. cbn [bind].
  match goal with |- context [set_bits ?l] => destruct (set_bits_total l) as [b Hb] end.
  - intros t Ht. apply (validity_types_in rec t Hn) in Ht. destruct Ht as [[v [Ht _]]|[[-> _]|[[-> _]|[-> _]]]].
    + apply H. right. apply in_map_iff. exists (t, v). auto.
    + exists cLLI1. split; [unfold labels; apply in_or_app; right; cbn; auto|cbn; auto].
    + exists cLLI2. split; [unfold labels; apply in_or_app; right; cbn; auto|cbn; auto].
    + exists cLLI5. split; [unfold labels; apply in_or_app; right; cbn; auto|cbn; auto].
  - rewrite Hb. cbn [bind]. eauto.
Qed.
Lemma xor_iff a b (P Q : Prop) : (a = true <-> P) -> (b = true <-> Q) -> (xorb a b = true <-> (P /\ ~ Q) \/ (Q /\ ~ P)).
Proof. intros H1 H2. destruct a, b; cbn; intuition congruence. Qed.
Lemma class_bit_in k c : class_bit k = Some c -> In (c, k) bit_set.
Proof.
  intros H. assert (Hk : (0 <= k <= 16)%Z).
  { destruct k as [|p|p]; try discriminate H. do 5 (destruct p as [p|p|]; try discriminate H; try lia). }
  assert (exists n, k = Z.of_nat n /\ (n <= 16)%nat) as [n [-> Hn]] by (exists (Z.to_nat k); lia).
  do 17 (destruct n as [|n]; [try discriminate H; injection H as <-; cbn [bit_set In]; change (Z.of_nat 2) with 2%Z; cbn; tauto|]). lia.
Qed.
Lemma class_not_lli k c t : class_bit k = Some c -> In t c -> ~ In t lli_names.
Proof.
  intros H Ht Hl. pose proof (class_bit_in k c H) as Hc.
  assert (Ho : In c obs_type_labels).
  { clear -H Hc. cbn [bit_set In] in Hc.
    repeat (destruct Hc as [Hc|Hc]; [injection Hc as <- <-; first [discriminate H|cbn [obs_type_labels In]; tauto]|]). contradiction. }
  assert (S : forallb (fun c => forallb (fun t => negb (in_class t lli_names)) c) obs_type_labels = true) by (vm_compute; reflexivity).
  rewrite forallb_forall in S. specialize (S c Ho). rewrite forallb_forall in S. specialize (S t Ht).
  apply in_class_In in Hl. rewrite Hl in S. discriminate.
Qed.
Lemma validity_class_bit types rec w k c : NoDup (map fst rec) -> record_validity types rec = Ok w -> class_bit k = Some c ->
  (Z.testbit w k = true <-> (declared types c /\ ~ has_value rec c) \/ (has_value rec c /\ ~ declared types c)).
Proof.
  intros Hn H Hk. unfold record_validity, eval_validity in H. destruct (set_bits types) as [a|] eqn:Ea; [|discriminate]. cbn [bind] in H.
  match type of H with bind ?x _ = _ => destruct x as [b|] eqn:Eb; [|discriminate] end. cbn [bind] in H. injection H as <-.
  rewrite Z.lxor_spec. pose proof (class_bit_in k c Hk) as Hc. apply xor_iff.
  - apply (set_bits_ok _ _ Ea k c Hc).
  - rewrite (set_bits_ok _ _ Eb k c Hc). unfold has_value. split.
    + intros [t [Ht Htc]]. apply (validity_types_in rec t Hn) in Ht. pose proof (class_not_lli k c t Hk Htc) as Hx.
      destruct Ht as [[v [H1 H2]]|[[-> _]|[[-> _]|[-> _]]]]; [exists t, v; auto| | |]; exfalso; apply Hx; cbn; tauto.
    + intros [t [v [H1 [H2 H3]]]]. exists t. split; [|exact H2]. apply (validity_types_in rec t Hn). left. eauto.
Qed.
Lemma validity_lock_bit types rec w k c : NoDup (map fst rec) -> no_lli types -> no_lli (map fst rec) -> record_validity types rec = Ok w -> lock_bit k = Some c ->
  (Z.testbit w k = true <-> lock_lost rec c).
Proof.
  intros Hn Hl1 Hl2 H Hk. unfold record_validity, eval_validity in H. destruct (set_bits types) as [a|] eqn:Ea; [|discriminate]. cbn [bind] in H.
  match type of H with bind ?x _ = _ => destruct x as [b|] eqn:Eb; [|discriminate] end. cbn [bind] in H. injection H as <-.
  rewrite Z.lxor_spec.
  assert (Hc : exists n cl, In (cl, k) bit_set /\ cl = [n] /\ In n lli_names /\ (n = lit "LLI1" -> c = cL1) /\ (n = lit "LLI2" -> c = cL2) /\ (n = lit "LLI5" -> c = cL5)
     /\ (forall rec, lock_lost rec c -> (n = lit "LLI1" /\ lock_lost rec cL1) \/ (n = lit "LLI2" /\ lock_lost rec cL2) \/ (n = lit "LLI5" /\ lock_lost rec cL5))).
  { assert (k = 0 \/ k = 16 \/ k = 1)%Z as Hkk.
    { clear -Hk. unfold lock_bit in Hk. destruct k as [|p|p]; [tauto| |discriminate]. repeat (destruct p as [p|p|]; try discriminate Hk); tauto. }
    destruct Hkk as [E|[E|E]]; subst k; injection Hk as <-.
    - exists (lit "LLI1"), cLLI1. split; [cbn; tauto|]. split; [reflexivity|]. split; [cbn; tauto|]. split; [reflexivity|]. split; [discriminate|]. split; [discriminate|]. intros; left; auto.
    - exists (lit "LLI5"), cLLI5. split; [cbn; tauto|]. split; [reflexivity|]. split; [cbn; tauto|]. split; [discriminate|]. split; [discriminate|]. split; [reflexivity|]. intros; right; right; auto.
    - exists (lit "LLI2"), cLLI2. split; [cbn; tauto|]. split; [reflexivity|]. split; [cbn; tauto|]. split; [discriminate|]. split; [reflexivity|]. split; [discriminate|]. intros; right; left; auto. }
  destruct Hc as [n [cl [Hc [-> [Hn' [C1 [C2 [C5 Hall]]]]]]]].
  assert (Z.testbit a k = false) as ->.
  { apply not_true_is_false. rewrite (set_bits_ok _ _ Ea k [n] Hc). intros [t [Ht [<-|[]]]]. exact (Hl1 n Ht Hn'). }
  replace (xorb false (Z.testbit b k)) with (Z.testbit b k) by (destruct (Z.testbit b k); reflexivity).
  rewrite (set_bits_ok _ _ Eb k [n] Hc). split.
  - intros [t [Ht [<-|[]]]]. apply (validity_types_in rec n Hn) in Ht. destruct Ht as [[v [Ht _]]|[[E Hx]|[[E Hx]|[E Hx]]]].
    + exfalso. apply (Hl2 n); [apply in_map_iff; exists (n, v); auto|exact Hn'].
    + now rewrite (C1 E).
    + now rewrite (C2 E).
    + now rewrite (C5 E).
  - intros Hx. exists n. split; [|now left]. apply (validity_types_in rec n Hn). right. exact (Hall rec Hx).
Qed.
Lemma validity_high types rec w k : record_validity types rec = Ok w -> (16 < k)%Z -> Z.testbit w k = false.
Proof.
  intros H Hk. unfold record_validity, eval_validity in H. destruct (set_bits types) as [a|] eqn:Ea; [|discriminate]. cbn [bind] in H.
  match type of H with bind ?x _ = _ => destruct x as [b|] eqn:Eb; [|discriminate] end. cbn [bind] in H. injection H as <-.
  now rewrite Z.lxor_spec, (set_bits_high _ _ _ Ea Hk), (set_bits_high _ _ _ Eb Hk).
Qed.
Lemma phase_no_doppler : exists band attr c, get_label (code3 "L" band attr) = Ok c /\ get_label (code3 "D" band attr) = Err LabelError.
Proof. exists "6"%char, "I"%char, cL6. split; vm_compute; reflexivity. Qed.
