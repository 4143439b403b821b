(** The language of a pattern and its agreement with the matcher. *)
From Verif Require Import Base PyStr PyRegex P_Str.
Open Scope nat_scope.

(** pattern r at position pos can consume a, leaving b *)
Fixpoint lang (r : re) (pos : nat) (a b : str) : Prop :=
  match r with
  | RChr p => exists c, a = [c] /\ p c = true
  | REps => a = []
  | RCat r1 r2 => exists a1 a2, a = a1 ++ a2 /\ lang r1 pos a1 (a2 ++ b) /\ lang r2 (pos + List.length a1) a2 b
  | RAlt r1 r2 => lang r1 pos a b \/ lang r2 pos a b
  | RStar p => Forall (fun c => p c = true) a
  | RGroup _ r => lang r pos a b
  | RBol => a = [] /\ pos = 0
  | REol => a = [] /\ (b = [] \/ b = [newline_c])
  end.

Lemma star_ways_lang p s : forall pos g m, In m (star_ways p pos s g) <->
  exists a b, s = a ++ b /\ Forall (fun c => p c = true) a /\ m = (pos + List.length a, b, g).
Proof.
  induction s as [|c s IH]; intros pos g m; cbn [star_ways].
  - split.
    + intros [<-|[]]. exists [], []. repeat split; [constructor|]. cbn. now rewrite Nat.add_0_r.
    + intros [a [b [E [_ ->]]]]. symmetry in E. apply app_eq_nil in E. destruct E as [-> ->]. cbn. rewrite Nat.add_0_r. now left.
  - destruct (p c) eqn:Ep.
    + rewrite in_app_iff, IH. split.
      * intros [[a [b [-> [H ->]]]]|[<-|[]]].
        -- exists (c :: a), b. repeat split; [now constructor|]. cbn. now rewrite Nat.add_succ_r.
        -- exists [], (c :: s). repeat split; [constructor|]. cbn. now rewrite Nat.add_0_r.
      * intros [a [b [E [H ->]]]]. destruct a as [|x a].
        -- right. left. cbn in *. subst. now rewrite Nat.add_0_r.
        -- left. cbn in E. injection E as <- ->. inversion H; subst. exists a, b. repeat split; [assumption|]. cbn. now rewrite Nat.add_succ_r.
    + split.
      * intros [<-|[]]. exists [], (c :: s). repeat split; [constructor|]. cbn. now rewrite Nat.add_0_r.
      * intros [a [b [E [H ->]]]]. destruct a as [|x a].
        -- left. cbn in *. subst. now rewrite Nat.add_0_r.
        -- cbn in E. injection E as <- ->. inversion H; subst. congruence.
Qed.

Lemma run_lang r : forall pos s g m, In m (run r (pos, s, g)) ->
  exists a b g', s = a ++ b /\ lang r pos a b /\ m = (pos + List.length a, b, g').
Proof.
  induction r as [p| |r1 IH1 r2 IH2|r1 IH1 r2 IH2|p|n r IH| |]; intros pos s g m H; cbn [run] in H.
  - destruct s as [|c t]; [destruct H|]. destruct (p c) eqn:E; [|destruct H]. destruct H as [<-|[]].
    exists [c], t, g. repeat split; [exists c; auto|]. cbn. now rewrite Nat.add_1_r.
  - destruct H as [<-|[]]. exists [], s, g. repeat split. cbn. now rewrite Nat.add_0_r.
  - apply in_flat_map in H. destruct H as [m1 [H1 H2]].
    apply IH1 in H1. destruct H1 as [a1 [b1 [g1 [-> [L1 ->]]]]].
    apply IH2 in H2. destruct H2 as [a2 [b2 [g2 [-> [L2 ->]]]]].
    exists (a1 ++ a2), b2, g2. rewrite app_assoc. repeat split.
    + exists a1, a2. auto.
    + rewrite app_length. now rewrite Nat.add_assoc.
  - apply in_app_or in H. destruct H as [H|H]; [apply IH1 in H|apply IH2 in H];
      destruct H as [a [b [g' [-> [L ->]]]]]; exists a, b, g'; cbn; auto.
  - apply star_ways_lang in H. destruct H as [a [b [-> [L ->]]]]. exists a, b, g. auto.
  - apply in_map_iff in H. destruct H as [[[pos' s'] g'] [<- H]]. apply IH in H.
    destruct H as [a [b [g2 [-> [L E]]]]]. injection E as -> -> ->. eexists a, b, _. repeat split. exact L.
  - destruct (Nat.eqb pos 0) eqn:E; [|destruct H]. apply Nat.eqb_eq in E. subst pos. destruct H as [<-|[]].
    exists [], s, g. repeat split.
  - destruct s as [|c [|c2 t]]; [| |destruct H].
    + destruct H as [<-|[]]. exists [], [], g. cbn. rewrite Nat.add_0_r. auto.
    + destruct (ceqb c newline_c) eqn:E; [|destruct H]. apply ceqb_eq in E. subst c. destruct H as [<-|[]].
      exists [], [newline_c], g. cbn. rewrite Nat.add_0_r. auto.
Qed.

Lemma lang_run r : forall pos a b g, lang r pos a b -> exists g', In (pos + List.length a, b, g') (run r (pos, a ++ b, g)).
Proof.
  induction r as [p| |r1 IH1 r2 IH2|r1 IH1 r2 IH2|p|n r IH| |]; intros pos a b g H; cbn [run lang] in *.
  - destruct H as [c [-> Hc]]. exists g. cbn. rewrite Hc. left. now rewrite Nat.add_1_r.
  - subst a. exists g. left. cbn. now rewrite Nat.add_0_r.
  - destruct H as [a1 [a2 [-> [L1 L2]]]].
    destruct (IH1 pos a1 (a2 ++ b) g L1) as [g1 H1]. destruct (IH2 (pos + List.length a1) a2 b g1 L2) as [g2 H2].
    exists g2. apply in_flat_map. eexists. rewrite <- app_assoc. split; [exact H1|].
    rewrite app_length, Nat.add_assoc. exact H2.
  - destruct H as [H|H]; [destruct (IH1 pos a b g H) as [g' H']|destruct (IH2 pos a b g H) as [g' H']];
      exists g'; apply in_or_app; auto.
  - exists g. apply star_ways_lang. exists a, b. auto.
  - destruct (IH pos a b g H) as [g' H']. eexists. apply in_map_iff. eexists. split; [|exact H']. reflexivity.
  - destruct H as [-> ->]. exists g. now left.
  - destruct H as [-> H]. exists g. cbn. rewrite Nat.add_0_r. destruct H as [->| ->]; cbn; now left.
Qed.

Lemma hd_in {A} (l : list A) x : hd_error l = Some x -> In x l.
Proof. destruct l; [discriminate|]. intros [= ->]. now left. Qed.

Lemma in_hd {A} (l : list A) x : In x l -> match hd_error l with Some _ => true | None => false end = true.
Proof. destruct l; [intros []|reflexivity]. Qed.

Lemma re_test_lang r s : re_test r s = true <-> exists a b, s = a ++ b /\ lang r 0 a b.
Proof.
  unfold re_test, re_match. split.
  - destruct (hd_error (run r (0, s, []))) as [m|] eqn:E; [|discriminate]. intros _.
    apply hd_in in E. apply run_lang in E. destruct E as [a [b [g [-> [L _]]]]]. eauto.
  - intros [a [b [-> L]]]. destruct (lang_run r 0 a b [] L) as [g H].
    eapply in_hd. exact H.
Qed.
Lemma re_test_false r s : re_test r s = false <-> ~ exists a b, s = a ++ b /\ lang r 0 a b.
Proof. rewrite <- re_test_lang. destruct (re_test r s); split; congruence. Qed.

(** Patterns whose matcher has one way at most: concatenation *)
Lemma lang_cats r l pos a b : l <> [] -> lang (cats (r :: l)) pos a b <->
  exists a1 a2, a = a1 ++ a2 /\ lang r pos a1 (a2 ++ b) /\ lang (cats l) (pos + List.length a1) a2 b.
Proof. destruct l; [congruence|]. intros _. reflexivity. Qed.

Lemma lang_rep_chr p n : forall pos a b, lang (rep n (RChr p)) pos a b <-> List.length a = n /\ Forall (fun c => p c = true) a.
Proof.
  induction n as [|n IH]; intros pos a b; cbn [rep lang].
  - split; [intros ->; split; [reflexivity|constructor]|]. intros [H _]. now apply length_zero_iff_nil.
  - split.
    + intros [a1 [a2 [-> [[c [-> Hc]] L]]]]. apply IH in L. destruct L as [L1 L2]. cbn. split; [lia|now constructor].
    + intros [H1 H2]. destruct a as [|c a]; [discriminate|]. inversion H2; subst. exists [c], a. split; [reflexivity|].
      split; [exists c; auto|]. apply IH. split; [cbn in H1; lia|assumption].
Qed.

Lemma lower_c_idem c : lower_c (lower_c c) = lower_c c.
Proof. destruct c as [[] [] [] [] [] [] [] []]; reflexivity. Qed.
Lemma ci_eq c x : ci c x = true <-> lower_c x = lower_c c.
Proof. unfold ci. apply ceqb_eq. Qed.

Lemma lang_text s : forall pos a b, lang (text s) pos a b <-> lower a = lower s.
Proof.
  induction s as [|c s IH]; intros pos a b; cbn [text lang].
  - split; [now intros ->|]. intros H. destruct a; [reflexivity|discriminate].
  - split.
    + intros [a1 [a2 [-> [[x [-> Hx]] L]]]]. apply IH in L. apply ci_eq in Hx. cbn. f_equal; assumption.
    + intros H. destruct a as [|x a]; [discriminate|]. cbn in H. injection H as H1 H2. exists [x], a. split; [reflexivity|].
      split; [exists x; split; [reflexivity|now apply ci_eq]|now apply IH].
Qed.

(** with the captured groups *)
Fixpoint glang (r : re) (pos : nat) (a b : str) (g g' : list (nat * str)) : Prop :=
  match r with
  | RChr p => (exists c, a = [c] /\ p c = true) /\ g' = g
  | REps => a = [] /\ g' = g
  | RCat r1 r2 => exists a1 a2 g1, a = a1 ++ a2 /\ glang r1 pos a1 (a2 ++ b) g g1 /\ glang r2 (pos + List.length a1) a2 b g1 g'
  | RAlt r1 r2 => glang r1 pos a b g g' \/ glang r2 pos a b g g'
  | RStar p => Forall (fun c => p c = true) a /\ g' = g
  | RGroup n r => exists g1, glang r pos a b g g1 /\ g' = (n, a) :: g1
  | RBol => (a = [] /\ pos = 0) /\ g' = g
  | REol => (a = [] /\ (b = [] \/ b = [newline_c])) /\ g' = g
  end.
Lemma run_glang r : forall pos s g m, In m (run r (pos, s, g)) ->
  exists a b g', s = a ++ b /\ glang r pos a b g g' /\ m = (pos + List.length a, b, g').
Proof.
  induction r as [p| |r1 IH1 r2 IH2|r1 IH1 r2 IH2|p|n r IH| |]; intros pos s g m H; cbn [run] in H.
  - destruct s as [|c t]; [destruct H|]. destruct (p c) eqn:E; [|destruct H]. destruct H as [<-|[]].
    exists [c], t, g. repeat split; [exists c; auto|]. cbn. now rewrite Nat.add_1_r.
  - destruct H as [<-|[]]. exists [], s, g. repeat split. cbn. now rewrite Nat.add_0_r.
  - apply in_flat_map in H. destruct H as [m1 [H1 H2]].
    apply IH1 in H1. destruct H1 as [a1 [b1 [g1 [-> [L1 ->]]]]].
    apply IH2 in H2. destruct H2 as [a2 [b2 [g2 [-> [L2 ->]]]]].
    exists (a1 ++ a2), b2, g2. rewrite app_assoc. repeat split.
    + exists a1, a2, g1. auto.
    + rewrite app_length. now rewrite Nat.add_assoc.
  - apply in_app_or in H. destruct H as [H|H]; [apply IH1 in H|apply IH2 in H];
      destruct H as [a [b [g' [-> [L ->]]]]]; exists a, b, g'; cbn; auto.
  - apply star_ways_lang in H. destruct H as [a [b [-> [L ->]]]]. exists a, b, g. cbn. auto.
  - apply in_map_iff in H. destruct H as [[[pos' s'] g'] [<- H]]. apply IH in H.
    destruct H as [a [b [g2 [-> [L E]]]]]. injection E as -> -> ->.
    replace (pos + List.length a - pos) with (List.length a) by lia. rewrite firstn_app_exact by reflexivity.
    exists a, b, ((n, a) :: g2). repeat split. exists g2. auto.
  - destruct (Nat.eqb pos 0) eqn:E; [|destruct H]. apply Nat.eqb_eq in E. subst pos. destruct H as [<-|[]].
    exists [], s, g. repeat split.
  - destruct s as [|c [|c2 t]]; [| |destruct H].
    + destruct H as [<-|[]]. exists [], [], g. cbn. rewrite Nat.add_0_r. repeat split; auto.
    + destruct (ceqb c newline_c) eqn:E; [|destruct H]. apply ceqb_eq in E. subst c. destruct H as [<-|[]].
      exists [], [newline_c], g. cbn. rewrite Nat.add_0_r. repeat split; auto.
Qed.
Lemma glang_rep_chr p n : forall pos a b g g', glang (rep n (RChr p)) pos a b g g' -> List.length a = n /\ Forall (fun c => p c = true) a /\ g' = g.
Proof.
  induction n as [|n IH]; intros pos a b g g'; cbn [rep glang].
  - intros [-> ->]. repeat split. constructor.
  - intros [a1 [a2 [g1 [-> [[[c [-> Hc]] ->] L]]]]]. apply IH in L. destruct L as [L1 [L2 ->]]. cbn. repeat split; [lia|now constructor].
Qed.
