(** Proofs about the coordinates file. *)
From Coq Require Import Reals Lra.
From Verif Require Import Base PyStr PyFloat PyDate PyPath PyRegex P_Str P_Float P_Regex P_Date P_Common S_Text S_Time M_Names S_Names S_Out P_Out P_Names P_Names2 P_Names3 P_Names4 P_Names5 S_Cfg P_Cfg M_Xyz S_Xyz.
Open Scope nat_scope.

Lemma two_fmt s n : two s n -> s = fmt_0d 2 n /\ (0 <= n <= 99)%Z.
Proof.
  intros [D [L V]]. pose proof (dec_value_nonneg s D). pose proof (dec_value_bound s D) as B. rewrite L in B. cbn in B.
  assert (Hn : (0 <= n <= 99)%Z) by lia. split; [|exact Hn]. unfold fmt_0d. replace (n <? 0)%Z with false by lia.
  destruct (pad_left_digits 2 n) as [H1 [H2 H3]]; [cbn; lia|lia|]. apply dec_value_inj; try assumption; congruence.
Qed.
Definition takes2 (r : re) (n : Z) : Prop := forall rest pos g, first r (pos, fmt_0d 2 n ++ rest, g) (S (S pos), rest, g).
Lemma range_forall (P : Z -> Prop) lo k n : Forall P (map (fun i => (lo + Z.of_nat i)%Z) (seq 0 k)) -> (lo <= n < lo + Z.of_nat k)%Z -> P n.
Proof.
  intros H Hn. rewrite Forall_forall in H. apply H. apply in_map_iff. exists (Z.to_nat (n - lo)). split; [lia|]. apply in_seq. lia.
Qed.
Ltac enum := apply Forall_forall; let x := fresh in let H := fresh in intros x H; cbn [map seq] in H;
  repeat (destruct H as [<-|H]; [intros rest pos g; reflexivity|]); destruct H.
Lemma take_m n : (1 <= n <= 12)%Z -> takes2 pat_m n.
Proof. intros H. apply (range_forall _ 1 12); [enum|lia]. Qed.
Lemma take_d n : (1 <= n <= 31)%Z -> takes2 pat_d n.
Proof. intros H. apply (range_forall _ 1 31); [enum|lia]. Qed.
Lemma take_H n : (0 <= n <= 23)%Z -> takes2 pat_H n.
Proof. intros H. apply (range_forall _ 0 24); [enum|lia]. Qed.
Lemma take_M n : (0 <= n <= 59)%Z -> takes2 pat_M n.
Proof. intros H. apply (range_forall _ 0 60); [enum|lia]. Qed.
Lemma take_S n : (0 <= n <= 59)%Z -> takes2 pat_S n.
Proof. intros H. apply (range_forall _ 0 60); [enum|lia]. Qed.
Lemma first_two n r v s rest pos g : takes2 r v -> s = fmt_0d 2 v -> List.length s = 2 -> first (RGroup n r) (pos, s ++ rest, g) (pos + List.length s, rest, (n, s) :: g).
Proof. intros H E L. apply first_group. rewrite L, E. replace (pos + 2) with (S (S pos)) by lia. apply H. Qed.
Lemma first_rep4 s rest pos g : digits s -> List.length s = 4 -> first (rep 4 d_) (pos, s ++ rest, g) (pos + List.length s, rest, g).
Proof.
  intros D L. destruct s as [|a [|b [|c [|d [|? ?]]]]]; try discriminate.
  inversion D as [|? ? D1 D']; subst. inversion D' as [|? ? D2 D'']; subst. inversion D'' as [|? ? D3 D3']; subst. inversion D3' as [|? ? D4 D4']; subst.
  apply digit_is_digit in D1, D2, D3, D4. unfold first. cbn. rewrite D1. cbn. rewrite D2. cbn. rewrite D3. cbn. rewrite D4. cbn. repeat f_equal. lia.
Qed.
Lemma first_lit c s pos g : first (chr c) (pos, c :: s, g) (S pos, s, g).
Proof. apply first_chr. now apply ci_eq. Qed.

Lemma mk_datetime_valid t : valid_datetime t -> mk_datetime (dy t) (dmo t) (dd t) (dh t) (dmi t) (ds t) (dus t) = Ok t.
Proof.
  intros Hv. pose proof Hv as Hok. apply valid_datetime_iff in Hok. destruct Hv as [[Hy [Hm Hd]] [Hh [Hmi [Hs Hus]]]].
  assert (month_len (dy t) (dmo t) <= 31)%Z.
  { unfold month_len. repeat match goal with |- context [match ?x with _ => _ end] => destruct x end; lia. }
  unfold mk_datetime. assert (Hc : forallb c_int [dy t; dmo t; dd t; dh t; dmi t; ds t; dus t] = true) by (unfold forallb, c_int; lia).
  rewrite Hc. cbn [negb]. destruct t. cbn in *. now rewrite Hok.
Qed.
Lemma strptime_ok yyyy mo d h mi se t : digits yyyy -> List.length yyyy = 4 -> dec_value yyyy = dy t ->
  two mo (dmo t) -> two d (dd t) -> two h (dh t) -> two mi (dmi t) -> two se (ds t) -> dus t = 0%Z -> valid_datetime t ->
  strptime_epoch ((yyyy ++ lit "-" ++ mo ++ lit "-" ++ d) ++ h ++ lit ":" ++ mi ++ lit ":" ++ se) = Ok t.
Proof.
  intros Dy Ly Vy Hmo Hd Hh Hmi Hse Hus Hv.
  destruct (two_fmt _ _ Hmo) as [Emo _]. destruct (two_fmt _ _ Hd) as [Ed _]. destruct (two_fmt _ _ Hh) as [Eh _].
  destruct (two_fmt _ _ Hmi) as [Emi _]. destruct (two_fmt _ _ Hse) as [Ese _].
  pose proof Hv as [Hdate [Rh [Rmi [Rs _]]]]. pose proof Hdate as [Ry [Rmo Rd]].
  assert (Rd' : (1 <= dd t <= 31)%Z). { rewrite month_len_eq in Rd by exact Rmo. unfold days_in_month in Rd. repeat match type of Rd with context [if ?b then _ else _] => destruct b end; lia. }
  assert (M : exists p, re_match pat_epoch ((yyyy ++ lit "-" ++ mo ++ lit "-" ++ d) ++ h ++ lit ":" ++ mi ++ lit ":" ++ se) =
    Some (p, [], [(6, se); (5, mi); (4, h); (3, d); (2, mo); (1, yyyy)])).
  { eexists. unfold re_match. match goal with |- hd_error (run ?r ?m) = Some ?x => change (first r m x) end.
    unfold pat_epoch. cbn [cats]. rewrite <- !app_assoc.
    eapply first_cat; [apply first_group, first_rep4; assumption|].
    eapply first_cat; [apply first_lit|].
    eapply first_cat; [eapply first_two; [apply (take_m (dmo t)); assumption|exact Emo|apply Hmo]|].
    eapply first_cat; [apply first_lit|].
    eapply first_cat; [eapply first_two; [apply (take_d (dd t)); assumption|exact Ed|apply Hd]|].
    eapply first_cat; [eapply first_two; [apply (take_H (dh t)); assumption|exact Eh|apply Hh]|].
    eapply first_cat; [apply first_lit|].
    eapply first_cat; [eapply first_two; [apply (take_M (dmi t)); assumption|exact Emi|apply Hmi]|].
    eapply first_cat; [apply first_lit|].
    rewrite <- (app_nil_r se) at 1. eapply first_two; [apply (take_S (ds t)); assumption|exact Ese|apply Hse]. }
  destruct M as [p M]. unfold strptime_epoch. rewrite M. unfold group. cbn [dict_get Nat.eqb].
  assert (I : forall s n, digits s -> s <> [] -> dec_value s = n -> py_int s = Ok n).
  { intros s n Ds Ns <-. pose proof (py_int_digits [] s []) as P. cbn [app] in P. rewrite app_nil_r in P. unfold py_int. rewrite P; try assumption; constructor. }
  assert (I2 : forall s n, two s n -> py_int s = Ok n).
  { intros s n [D [L V]]. apply I; [assumption|intros ->; discriminate|assumption]. }
  rewrite (I yyyy (dy t)); [|assumption|intros ->; discriminate|assumption]. cbn [bind].
  rewrite (I2 _ _ Hmo), (I2 _ _ Hd), (I2 _ _ Hh), (I2 _ _ Hmi), (I2 _ _ Hse). cbn [bind]. rewrite <- Hus.
  apply mk_datetime_valid. exact Hv.
Qed.

(** re.split *)
Lemma split_run_word a : forall cur rest, Forall (fun c => is_space c = false) a -> (forall c r, rest = c :: r -> is_space c = true) ->
  forall g, a <> [] -> split_run g cur (a ++ rest) = split_run false (rev a ++ cur) rest.
Proof.
  induction a as [|c a IH]; intros cur rest H Hr g Hn; [congruence|]. inversion H as [|? ? Hc Ha]; subst. cbn [app split_run]. rewrite Hc.
  destruct a as [|c2 a].
  - reflexivity.
  - rewrite IH by (try assumption; discriminate). cbn [rev]. rewrite <- !app_assoc. reflexivity.
Qed.
Lemma split_run_gap g cur rest : gap g -> (forall c r, rest = c :: r -> is_space c = false) ->
  split_run false cur (g ++ rest) = rev cur :: split_run true [] rest.
Proof.
  intros [W N] Hr. destruct g as [|c g]; [congruence|]. inversion W as [|? ? Hc Hg]; subst. cbn [app split_run]. rewrite Hc. f_equal.
  clear - Hg. induction Hg as [|c g Hc Hg IH]; [reflexivity|]. cbn [app split_run]. now rewrite Hc.
Qed.
Definition black (s : str) : Prop := Forall (fun c => is_space c = false) s /\ s <> [].
Lemma black_hd s : black s -> exists c r, s = c :: r /\ is_space c = false.
Proof. intros [H N]. destruct s as [|c r]; [congruence|]. inversion H; subst. eauto. Qed.
Lemma gap_hd g rest : gap g -> forall c r, g ++ rest = c :: r -> is_space c = true.
Proof. intros [W N] c r E. destruct g as [|c' g]; [congruence|]. injection E as <- _. now inversion W. Qed.
Lemma split_five a b x y z g1 g2 g3 g4 : black a -> black b -> black x -> black y -> black z -> gap g1 -> gap g2 -> gap g3 -> gap g4 ->
  re_split (a ++ g1 ++ b ++ g2 ++ x ++ g3 ++ y ++ g4 ++ z) = [a; b; x; y; z].
Proof.
  intros A B X Y Z G1 G2 G3 G4. unfold re_split.
  assert (S : forall g w gp nx rest, black w -> gap gp -> black nx -> split_run g [] (w ++ gp ++ nx ++ rest) = w :: split_run true [] (nx ++ rest)).
  { intros g w gp nx rest W G Nx. rewrite split_run_word; [|apply W|intros c r E; eapply gap_hd; eassumption|apply W].
    rewrite split_run_gap; [now rewrite app_nil_r, rev_involutive|exact G|].
    intros c r E. destruct (black_hd nx Nx) as [c' [r' [-> Hc]]]. injection E as <- _. exact Hc. }
  rewrite S by assumption. rewrite S by assumption. rewrite S by assumption.
  rewrite <- (app_nil_r z) at 1. rewrite S by assumption. rewrite split_run_word; [|apply Z|discriminate|apply Z].
  cbn [split_run]. now rewrite app_nil_r, rev_involutive.
Qed.

Lemma metres_black s f : metres s f -> black s.
Proof.
  intros [ip [fp [-> [D1 [D2 [N _]]]]]]. split.
  - repeat (apply Forall_app; split).
    + destruct (d_neg f); repeat constructor.
    + now apply digits_nonspace.
    + constructor; [reflexivity|now apply digits_nonspace].
  - destruct (d_neg f), ip; discriminate.
Qed.
Lemma metres_float s d : metres s d -> exists f, py_float s = Ok f /\ near_dec f d.
Proof.
  intros [ip [fp [-> [D1 [D2 [N [L [Em Ek]]]]]]]].
  pose proof (float_lit_dec [] (d_neg d) ip fp [] [] 0) as F. cbn [app] in F. rewrite !app_nil_r in F.
  unfold py_float, py_float_opt. replace ((if d_neg d then ["-"%char] else []) ++ ip ++ "."%char :: fp) with (sign_str (d_neg d) ++ ip ++ "."%char :: fp) by reflexivity.
  rewrite F; try assumption; try constructor; try congruence. cbn [option_map of_option float_of_lit]. eexists. split; [reflexivity|].
  unfold near_dec. rewrite Em, Ek. apply b64_of_dec_nearest.
  assert (D : digits (ip ++ fp)) by (apply digits_app; auto). split; [now apply dec_value_nonneg|].
  apply dec_value_bound in D. assert (10 ^ Z.of_nat (List.length (ip ++ fp)) <= 10 ^ 300)%Z by (apply Z.pow_le_mono_r; lia).
  apply Z.le_trans with (10 ^ 300)%Z; [lia|]. vm_compute. congruence.
Qed.
Lemma two_black s n : two s n -> black s.
Proof. intros [D [L _]]. split; [now apply digits_nonspace|]. intros ->. discriminate. Qed.
Lemma black_app a b : black a -> black b -> black (a ++ b).
Proof. intros [A N] [B _]. split; [apply Forall_app; auto|]. destruct a; [congruence|discriminate]. Qed.
Lemma black_last s : black s -> exists l c, s = l ++ [c] /\ is_space c = false.
Proof. intros [H N]. destruct (nonempty_last s N) as [l [c ->]]. exists l, c. split; [reflexivity|]. apply Forall_app in H. destruct H as [_ H]. now inversion H. Qed.

Lemma position_line_ok line t p d : position_line line t p -> exists f, near_point f p /\ load_xyz_line line d = Ok (dict_set dt_eqb t f d).
Proof.
  intros [yyyy [mo [dd_ [h [mi [se [g1 [g2 [g3 [g4 [x [y [z [w [-> [Dy [Ly [Vy [Hmo [Hd [Hh [Hmi [Hse [Hus [Hv [G1 [G2 [G3 [G4 [W [X [Y Z]]]]]]]]]]]]]]]]]]]]]]]]]]]]]]]].
  set (cdate := yyyy ++ lit "-" ++ mo ++ lit "-" ++ dd_). set (ctime := h ++ lit ":" ++ mi ++ lit ":" ++ se).
  assert (Bl : forall c, is_space c = false -> black [c]) by (intros c Hc; split; [repeat constructor; assumption|discriminate]).
  assert (By : black yyyy) by (split; [now apply digits_nonspace|intros ->; discriminate]).
  assert (B1 : black cdate). { unfold cdate. apply black_app; [exact By|]. apply black_app; [now apply Bl|]. apply black_app; [eapply two_black; eassumption|].
    apply black_app; [now apply Bl|]. eapply two_black; eassumption. }
  assert (B2 : black ctime). { unfold ctime. apply black_app; [eapply two_black; eassumption|]. apply black_app; [now apply Bl|]. apply black_app; [eapply two_black; eassumption|].
    apply black_app; [now apply Bl|]. eapply two_black; eassumption. }
  pose proof (metres_black _ _ X) as BX. pose proof (metres_black _ _ Y) as BY. pose proof (metres_black _ _ Z) as BZ.
  assert (Er : rstrip (yyyy ++ lit "-" ++ mo ++ lit "-" ++ dd_ ++ g1 ++ h ++ lit ":" ++ mi ++ lit ":" ++ se ++ g2 ++ x ++ g3 ++ y ++ g4 ++ z ++ w)
    = cdate ++ g1 ++ ctime ++ g2 ++ x ++ g3 ++ y ++ g4 ++ z).
  { unfold cdate, ctime. destruct (black_last z BZ) as [l [c [-> Hc]]].
    match goal with |- rstrip ?a = ?b => replace a with (b ++ w) by (rewrite <- !app_assoc; reflexivity) end.
    rewrite rstrip_app_white by exact W. match goal with |- rstrip ?a = ?a => replace a with ((cdate ++ g1 ++ ctime ++ g2 ++ x ++ g3 ++ y ++ g4 ++ l) ++ [c]) by (unfold cdate, ctime; rewrite <- !app_assoc; reflexivity) end.
    now apply rstrip_nonspace_end. }
  unfold load_xyz_line. rewrite Er.
  assert (Ec : exists c r, cdate ++ g1 ++ ctime ++ g2 ++ x ++ g3 ++ y ++ g4 ++ z = c :: r /\ digit c).
  { unfold cdate. destruct yyyy as [|c r]; [discriminate|]. cbn [app]. exists c. eexists. split; [reflexivity|]. now inversion Dy. }
  destruct Ec as [c [r [Ec Dc]]].
  assert (Nc : is_comment (cdate ++ g1 ++ ctime ++ g2 ++ x ++ g3 ++ y ++ g4 ++ z) = false).
  { rewrite Ec. unfold is_comment. rewrite lstrip_nonspace by now apply digit_not_space. destruct (ceqb c "#"%char) eqn:E; [|reflexivity].
    apply ceqb_eq in E. subst. unfold digit in Dc. cbn in Dc. lia. }
  rewrite Nc. destruct (metres_float _ _ X) as [fx [Fx Nx]]. destruct (metres_float _ _ Y) as [fy [Fy Ny]]. destruct (metres_float _ _ Z) as [fz [Fz Nz]].
  exists (fx, fy, fz). split; [split; [exact Nx|split; [exact Ny|exact Nz]]|].
  rewrite Ec. rewrite <- Ec. rewrite split_five by assumption.
  unfold cdate, ctime. rewrite strptime_ok with (t := t) by assumption. cbn [bind]. rewrite Fx, Fy, Fz. reflexivity.
Qed.
Lemma ignored_line_ok line d : ignored_line line -> load_xyz_line line d = Ok d.
Proof.
  intros [H|[w [r [-> H]]]]; unfold load_xyz_line.
  - rewrite (rstrip_white_nil _ H). reflexivity.
  - assert (C : is_comment (rstrip (w ++ "#"%char :: r)) = true); [|now rewrite C].
    rewrite rstrip_snoc_nonspace by reflexivity. unfold is_comment. rewrite lstrip_white_app by exact H. reflexivity.
Qed.
Lemma load_xyz_ok ls ps : xyz_lines ls ps -> forall d, exists d', load_xyz ls d = Ok d' /\
  (forall t p, last_position t ps p -> exists f, dict_get dt_eqb t d' = Some f /\ near_point f p) /\
  (forall t, (forall p, ~ In (t, p) ps) -> dict_get dt_eqb t d' = dict_get dt_eqb t d).
Proof.
  induction 1 as [|l ls ps Hi H IH|l ls ps t p Hp H IH]; intros d; cbn [load_xyz].
  - exists d. split; [reflexivity|]. split; [|auto]. intros t p [b [a [E _]]]. destruct b; discriminate.
  - rewrite ignored_line_ok by exact Hi. cbn [bind]. apply IH.
  - destruct (position_line_ok _ _ _ d Hp) as [f [Nf ->]]. cbn [bind]. destruct (IH (dict_set dt_eqb t f d)) as [d' [E [I1 I2]]].
    exists d'. split; [exact E|]. split.
    + intros t' p' [b [a [Eb Ha]]]. destruct b as [|q b]; cbn in Eb.
      * injection Eb as <- <- ->. exists f. split; [|exact Nf]. rewrite I2 by exact Ha. apply (dict_get_set_same _ dt_eqb_eq).
      * injection Eb as <- ->. apply I1. exists b, a. auto.
    + intros t' Ht. rewrite I2; [|intros q Hq; apply (Ht q); now right]. apply (dict_get_set_other _ dt_eqb_eq).
      intros ->. apply (Ht p). now left.
Qed.

(** find_xyz_file *)
Lemma glang_lang r : forall pos a b g g', glang r pos a b g g' -> lang r pos a b.
Proof.
  induction r as [p| |r1 IH1 r2 IH2|r1 IH1 r2 IH2|p|n r IH| |]; intros pos a b g g'; cbn [glang lang]; try tauto.
  - intros [a1 [a2 [g1 [-> [H1 H2]]]]]. exists a1, a2. eauto.
  - intros [H|H]; eauto.
  - intros [g1 [H _]]. eauto.
Qed.
Lemma obs_base_prefix a b base ext hat hat' packed : obs_base a hat -> obs_base base hat' -> arch ext packed -> a ++ b = base ++ ext -> a = base.
Proof.
  intros Ha Hb _ E. destruct (obs_base_parts a hat Ha) as [s1 [x1 [-> [W1 E1]]]]. destruct (obs_base_parts base hat' Hb) as [s2 [x2 [-> [W2 E2]]]].
  apply ext3_word in E1, E2. destruct E1 as [_ L1]. destruct E2 as [_ L2]. rewrite <- !app_assoc in E. cbn [app] in E.
  apply cut_dot in E; [|assumption|assumption]. destruct E as [-> E]. apply cut_len in E; [|congruence]. destruct E as [-> _]. reflexivity.
Qed.
Lemma search_hd r s m : hd_error (run r (0, s, [])) = Some m -> re_search r s = Some m.
Proof. intros H. unfold re_search. destruct s; cbn [re_search_from]; now rewrite H. Qed.
Lemma wo_ext base ext hat packed : obs_base base hat -> arch ext packed ->
  exists m, re_search RE_OBS_WO_EXT (base ++ ext) = Some m /\ group 1 m = base.
Proof.
  intros Hb Ha. assert (L : lang RE_OBS_WO_EXT 0 base ext).
  { unfold RE_OBS_WO_EXT. cbn [lang]. apply base_lang. eauto. }
  apply (lang_run _ _ _ _ []) in L. destruct L as [g L].
  destruct (run RE_OBS_WO_EXT (0, base ++ ext, [])) as [|m l] eqn:E; [destruct L|]. exists m. split.
  - apply search_hd. exact (f_equal (@hd_error _) E).
  - assert (I : In m (run RE_OBS_WO_EXT (0, base ++ ext, []))) by (rewrite E; now left).
    apply run_glang in I. destruct I as [a [b [g' [Eab [G ->]]]]]. unfold RE_OBS_WO_EXT in G. cbn [glang] in G. destruct G as [g1 [G ->]].
    cbn [group dict_get Nat.eqb].
    assert (O : exists h, obs_base a h).
    { apply (base_lang_any a b). destruct G as [G|[G|G]]; apply glang_lang in G; [left|right; left|right; right]; exact G. }
    destruct O as [h O]. exact (obs_base_prefix a b base ext h hat packed O Hb Ha (eq_sym Eab)).
Qed.
Lemma head_acc_none p : no_slash p -> forall cur head, head_acc cur head p = head.
Proof.
  induction p as [|c p IH]; intros H cur head; [reflexivity|]. cbn [head_acc].
  destruct (ceqb c slash) eqn:E; [apply ceqb_eq in E; subst; exfalso; apply H; now left|]. apply IH. intros Hi. apply H. now right.
Qed.
Lemma head_acc_path d name : no_slash name -> forall cur head, head_acc cur head (d ++ "/"%char :: name) = cur ++ d ++ ["/"%char].
Proof.
  intros Hn. induction d as [|c d IH]; intros cur head; cbn [app head_acc].
  - change (ceqb "/" slash) with true. cbn [head_acc]. now rewrite head_acc_none.
  - destruct (ceqb c slash); rewrite IH; now rewrite <- app_assoc.
Qed.
Lemma drop_slashes_ok d c : c <> "/"%char -> drop_slashes ((d ++ [c]) ++ ["/"%char]) = d ++ [c].
Proof.
  intros Hc. induction d as [|x d IH].
  - cbn. unfold slash. destruct (ceqb c "/") eqn:E; [apply ceqb_eq in E; congruence|reflexivity].
  - cbn [app drop_slashes]. cbn [app] in IH. rewrite IH. destruct (d ++ [c]) eqn:E; [destruct d; discriminate|reflexivity].
Qed.
Lemma find_xyz_here there base ext hat packed : obs_base base hat -> arch ext packed ->
  find_xyz_file there (base ++ ext) = if there (base ++ lit ".xyz") then Some (base ++ lit ".xyz") else None.
Proof.
  intros Hb Ha. pose proof (obs_name_no_slash _ _ _ _ Hb Ha) as Hn. unfold find_xyz_file.
  rewrite (basename_path [] (base ++ ext) (base ++ ext)) by (try exact Hn; now left).
  destruct (wo_ext _ _ _ _ Hb Ha) as [m [-> ->]].
  unfold dirname. rewrite head_acc_none by exact Hn. cbn [drop_slashes].
  assert (E : path_join [] base = base); [|rewrite E; reflexivity]. unfold path_join. destruct base as [|c r]; [reflexivity|].
  destruct (ceqb c slash); reflexivity.
Qed.
Lemma find_xyz_dir there d c base ext hat packed : obs_base base hat -> arch ext packed -> c <> "/"%char ->
  let dir := d ++ [c] in
  let xyz := dir ++ lit "/" ++ base ++ lit ".xyz" in
  find_xyz_file there (dir ++ lit "/" ++ base ++ ext) = if there xyz then Some xyz else None.
Proof.
  intros Hb Ha Hc dir xyz. pose proof (obs_name_no_slash _ _ _ _ Hb Ha) as Hn. unfold find_xyz_file.
  rewrite (basename_path dir (base ++ ext)) by (try exact Hn; now right).
  destruct (wo_ext _ _ _ _ Hb Ha) as [m [-> ->]].
  unfold dirname. change (lit "/" ++ base ++ ext) with ("/"%char :: base ++ ext). rewrite head_acc_path by exact Hn. cbn [app].
  unfold dir. rewrite drop_slashes_ok by exact Hc. fold dir.
  assert (E : path_join dir base ++ CRD_EXT = xyz).
  { unfold path_join. destruct base as [|b0 r] eqn:Eb.
    - exfalso. destruct (obs_base_parts _ _ Hb) as [st [x [E _]]]. destruct st; discriminate.
    - rewrite <- Eb in *. assert (E0 : ceqb b0 slash = false).
      { destruct (ceqb b0 slash) eqn:E; [|reflexivity]. apply ceqb_eq in E. exfalso. apply Hn. rewrite Eb, E. now left. }
      rewrite E0. unfold dir at 1 2. assert (Ed : ends_slash (d ++ [c]) = false).
      { unfold ends_slash. rewrite rev_app_distr. cbn. destruct (ceqb c slash) eqn:E; [apply ceqb_eq in E; destruct (Hc E)|reflexivity]. }
      rewrite Ed. destruct (d ++ [c]) eqn:E; [destruct d; discriminate|]. unfold xyz. rewrite Eb. rewrite <- app_assoc. reflexivity. }
  clearbody xyz. subst dir. destruct (d ++ [c]) eqn:Ed; [destruct d; discriminate|]. rewrite E. reflexivity.
Qed.
