(** Navigation files: where the kept numbers come from (any content). *)
From Verif Require Import Base PyStr PyFloat PyDate PyPath M_Common M_Header M_Names M_Nav S_Nav P_Str.
Open Scope nat_scope.

Lemma tod_eqb_eq a b : tod_eqb a b = true <-> a = b.
Proof.
  destruct a as [[[a1 a2] a3] a4], b as [[[b1 b2] b3] b4]. unfold tod_eqb. rewrite !andb_true_iff, !Z.eqb_eq.
  split; [intros [[[-> ->] ->] ->]; reflexivity|intros H; injection H; auto].
Qed.
Lemma date_eqb_eq a b : date_eqb a b = true <-> a = b.
Proof.
  destruct a as [[a1 a2] a3], b as [[b1 b2] b3]. unfold date_eqb. rewrite !andb_true_iff, !Z.eqb_eq.
  split; [intros [[-> ->] ->]; reflexivity|intros H; injection H; auto].
Qed.

Section Get.
  Context {K V : Type} (eqb : K -> K -> bool) (eqb_eq : forall a b, eqb a b = true <-> a = b).
  Lemma get_set_same (k : K) (v : V) d : dict_get eqb k (dict_set eqb k v d) = Some v.
  Proof.
    induction d as [|[k' v'] d IH]; cbn.
    - now rewrite (proj2 (eqb_eq k k) eq_refl).
    - destruct (eqb k k') eqn:E; cbn; rewrite E; [reflexivity|exact IH].
  Qed.
  Lemma get_set_other (k k' : K) (v : V) d : k <> k' -> dict_get eqb k (dict_set eqb k' v d) = dict_get eqb k d.
  Proof.
    intros Hne. assert (Hf : eqb k k' = false). { destruct (eqb k k') eqn:E; [apply eqb_eq in E; contradiction|reflexivity]. }
    induction d as [|[k2 v2] d IH]; cbn; [now rewrite Hf|].
    destruct (eqb k' k2) eqn:E; cbn.
    - apply eqb_eq in E. subst k2. now rewrite Hf.
    - destruct (eqb k k2); [reflexivity|exact IH].
  Qed.
End Get.

Lemma stored_set_same s n t vals m : stored (message_set s n t vals m) s n t = Some vals.
Proof.
  unfold stored, message_set. change ceqb with Ascii.eqb. rewrite (get_set_same Ascii.eqb Ascii.eqb_eq).
  rewrite (get_set_same Z.eqb Z.eqb_eq). apply (get_set_same tod_eqb tod_eqb_eq).
Qed.
Lemma stored_set_other s n t vals m s' n' t' : (s, n, t) <> (s', n', t') ->
  stored (message_set s n t vals m) s' n' t' = stored m s' n' t'.
Proof.
  intros Hne. unfold stored, message_set, get0, message, sys_message, sat_message in *. change ceqb with Ascii.eqb.
  destruct (Ascii.eqb_spec s' s) as [->|Hs].
  - rewrite (get_set_same Ascii.eqb Ascii.eqb_eq).
    destruct (Z.eq_dec n' n) as [->|Hn].
    + rewrite (get_set_same Z.eqb Z.eqb_eq). rewrite (get_set_other tod_eqb tod_eqb_eq) by congruence.
      destruct (dict_get Ascii.eqb s m) as [d|]; [|reflexivity]. destruct (dict_get Z.eqb n d); reflexivity.
    + rewrite (get_set_other Z.eqb Z.eqb_eq) by congruence. destruct (dict_get Ascii.eqb s m); reflexivity.
  - now rewrite (get_set_other Ascii.eqb Ascii.eqb_eq).
Qed.
Lemma system_set s n t vals m s' : (exists d, dict_get Ascii.eqb s' (message_set s n t vals m) = Some d) <->
  s' = s \/ exists d, dict_get Ascii.eqb s' m = Some d.
Proof.
  unfold message_set. change ceqb with Ascii.eqb. destruct (Ascii.eqb_spec s' s) as [->|Hs].
  - rewrite (get_set_same Ascii.eqb Ascii.eqb_eq). split; eauto.
  - rewrite (get_set_other Ascii.eqb Ascii.eqb_eq) by exact Hs.
    split; [tauto|]. intros [?|H]; [contradiction|exact H].
Qed.

(** a line that starts with blanks *)
Definition blank_start (v : ver) (line : str) : Prop := isspace (slice 0 (nav_spaces v) line) = true.
Definition black_start (v : ver) (line : str) : Prop := isspace (slice 0 (nav_spaces v) line) = false.

(** an epoch line followed by all its orbit lines *)
Definition complete (v : ver) (ft : option ascii) (lines : list str) (sys : ascii) (num : Z) (ep : datetime) (vals : list float) : Prop :=
  exists pre line orbits post vpo, lines = pre ++ line :: orbits ++ post /\ black_start v line /\
    parse_epoch_n v ft line = Ok (sys, num, ep) /\ msg_reader v sys = Some vpo /\ List.length orbits = List.length vpo /\
    Forall (blank_start v) orbits /\ read_orbits v orbits vpo = Ok vals.
Lemma complete_app v ft lines more sys num ep vals : complete v ft lines sys num ep vals -> complete v ft (lines ++ more) sys num ep vals.
Proof.
  intros [pre [line [orbits [post [vpo [-> H]]]]]]. exists pre, line, orbits, (post ++ more), vpo.
  split; [|exact H]. rewrite <- !app_assoc. cbn. now rewrite <- app_assoc.
Qed.

Definition nav_inv (v : ver) (ft : option ascii) (day : option date) (lines : list str) (st : nav_state) : Prop :=
  (forall sys num t vals, stored (n_msg st) sys num t = Some vals ->
     exists ep, complete v ft lines sys num ep vals /\ day = Some (dt_date ep) /\ t = dt_time ep) /\
  match n_reader st with
  | None => n_left st = 0 /\ n_orbits st = []
  | Some (sys, num, ep, vpo) =>
    exists pre line junk os, lines = pre ++ line :: os /\ black_start v line /\ parse_epoch_n v ft line = Ok (sys, num, ep) /\
      msg_reader v sys = Some vpo /\ Forall (blank_start v) os /\ n_orbits st = junk ++ os /\
      List.length os + n_left st = List.length vpo /\ 0 < n_left st
  end.

Lemma msg_reader_nonempty v sys vpo : msg_reader v sys = Some vpo -> 0 < List.length vpo.
Proof.
  unfold msg_reader. intros H.
  assert (Hd : vpo = gps_orbits \/ vpo = glo_orbits).
  { destruct sys as [[] [] [] [] [] [] [] []]; try discriminate H; destruct (ver_lt3 v), (ver_is20 v); try discriminate H; injection H as <-; auto. }
  destruct Hd as [-> | ->]; cbn; lia.
Qed.

Lemma read_orbits_len v orbits : forall vpo vals, read_orbits v orbits vpo = Ok vals -> List.length orbits <= List.length vpo.
Proof.
  induction orbits as [|l r IH]; intros vpo vals H; cbn in H |- *; [lia|].
  destruct vpo as [|n ns]; [discriminate|]. destruct (catch _ _ _) as [a|]; [|discriminate]. cbn [bind] in H.
  destruct (read_orbits v r ns) as [b|] eqn:E; [|discriminate]. apply IH in E. cbn. lia.
Qed.

Lemma nav_line_inv v ft day lines line st st' : nav_inv v ft day lines st -> nav_line v ft day line st = Ok st' ->
  nav_inv v ft day (lines ++ [line]) st'.
Proof.
  intros [HA HB] H. unfold nav_line in H.
  assert (HA' : forall sys num t vals, stored (n_msg st) sys num t = Some vals ->
     exists ep, complete v ft (lines ++ [line]) sys num ep vals /\ day = Some (dt_date ep) /\ t = dt_time ep).
  { intros sys num t vals E. destruct (HA _ _ _ _ E) as [ep [Hc He]]. exists ep. split; [now apply complete_app|exact He]. }
  destruct (isspace _) eqn:Esp; cbn [negb] in H.
  - (* orbit line *)
    destruct (n_reader st) as [[[[sys num] ep] vpo]|] eqn:Er.
    + destruct HB as [pre [l0 [junk [os [-> [Hl0 [Hp [Hr [Hos [Ho [Hlen Hpos]]]]]]]]]]].
      destruct (n_left st) as [|k] eqn:El; [lia|]. destruct k as [|k].
      * (* last *)
        assert (Hcomp : forall vals, read_orbits v (n_orbits st ++ [line]) vpo = Ok vals ->
                  complete v ft ((pre ++ l0 :: os) ++ [line]) sys num ep vals).
        { intros vals Hv. pose proof (read_orbits_len _ _ _ _ Hv) as Hle. rewrite Ho, !app_length in Hle. cbn in Hle.
          assert (junk = []) by (destruct junk; [reflexivity|cbn in Hle; lia]). subst junk.
          exists pre, l0, (os ++ [line]), [], vpo. rewrite app_nil_r, <- app_assoc. cbn.
          repeat split; try assumption.
          - rewrite app_length. cbn. lia.
          - apply Forall_app. split; [exact Hos|]. repeat constructor. exact Esp.
          - rewrite Ho in Hv. exact Hv. }
        destruct day as [d|].
        -- destruct (date_eqb d (dt_date ep)) eqn:Ed.
           ++ destruct (read_orbits _ _ _) as [vals|] eqn:Ev; [|discriminate]. cbn [bind] in H. injection H as <-.
              apply date_eqb_eq in Ed. subst d. split; [|cbn; auto]. cbn [n_msg].
              intros s' n' t' vals' E.
              destruct (Ascii.eqb_spec s' sys) as [->|Hne]; [destruct (Z.eq_dec n' num) as [->|Hne]; [destruct (tod_eqb t' (dt_time ep)) eqn:Et|]|].
              { apply tod_eqb_eq in Et. subst t'. rewrite stored_set_same in E. injection E as <-. exists ep. auto. }
              { rewrite stored_set_other in E; [now apply HA'|]. intros X. assert (Xt : t' = dt_time ep) by congruence. apply tod_eqb_eq in Xt. congruence. }
              { rewrite stored_set_other in E by congruence. now apply HA'. }
              { rewrite stored_set_other in E by congruence. now apply HA'. }
           ++ injection H as <-. split; [exact HA'|cbn; auto].
        -- injection H as <-. split; [exact HA'|cbn; auto].
      * injection H as <-. split; [exact HA'|]. cbn. exists pre, l0, junk, (os ++ [line]).
        rewrite <- app_assoc. cbn. repeat split; try assumption.
        -- apply Forall_app. split; [exact Hos|]. repeat constructor. exact Esp.
        -- rewrite Ho, <- app_assoc. reflexivity.
        -- rewrite app_length. cbn. lia.
        -- lia.
    + destruct HB as [Hl Ho]. rewrite Hl in H. discriminate.
  - destruct (parse_epoch_n v ft line) as [[[sys num] ep]|] eqn:Ep; [|discriminate]. cbn [bind] in H.
    destruct (msg_reader v sys) as [vpo|] eqn:Er; [|discriminate]. cbn [of_option bind] in H. injection H as <-.
    split; [exact HA'|]. cbn. exists lines, line, (n_orbits st), []. rewrite app_nil_r. repeat split; auto.
    now apply msg_reader_nonempty in Er.
Qed.

Lemma nav_loop_inv v ft day lines : forall done st st', nav_inv v ft day done st -> nav_loop v ft day lines st = Ok st' ->
  nav_inv v ft day (done ++ lines) st'.
Proof.
  induction lines as [|l r IH]; intros done st st' HI H; cbn in H.
  - injection H as <-. now rewrite app_nil_r.
  - destruct (nav_line v ft day l st) as [st1|] eqn:E; [|discriminate]. cbn [bind] in H.
    change (l :: r) with ([l] ++ r). rewrite app_assoc. eapply IH; [|exact H]. eapply nav_line_inv; eassumption.
Qed.
Lemma nav_inv0 v ft day : nav_inv v ft day [] (mkNav [] 0 None []).
Proof. split; cbn; [discriminate|auto]. Qed.

(** lengths *)
Lemma mapM_length {A B} (f : A -> res B) l : forall r, mapM f l = Ok r -> List.length r = List.length l.
Proof.
  induction l as [|a l IH]; intros r H; cbn in H; [injection H as <-; reflexivity|].
  destruct (f a) as [b|]; [|discriminate]. cbn [bind] in H. destruct (mapM f l) as [bs|]; [|discriminate]. cbn [bind] in H.
  injection H as <-. cbn. now rewrite (IH bs).
Qed.
Lemma read_orbits_count v orbits : forall vpo vals, read_orbits v orbits vpo = Ok vals -> Forall (fun n => n <= 4) vpo ->
  List.length vals = list_sum (firstn (List.length orbits) vpo).
Proof.
  induction orbits as [|l r IH]; intros vpo vals H Hn; cbn in H |- *; [injection H as <-; reflexivity|].
  destruct vpo as [|n ns]; [discriminate|]. inversion Hn as [|? ? H4 Hns]; subst.
  unfold catch in H. destruct (orbit_values v n l) as [a|e] eqn:Ea.
  - cbn [bind] in H. destruct (read_orbits v r ns) as [b|] eqn:Eb; [|discriminate]. cbn [bind] in H. injection H as <-.
    rewrite app_length, (IH _ _ Eb Hns). cbn. f_equal. unfold orbit_values in Ea. apply mapM_length in Ea.
    rewrite Ea, firstn_length, map_length. unfold orbit_cols. destruct (ver_lt3 v); cbn [List.length]; lia.
  - destruct (existsb _ _); discriminate.
Qed.
Definition value_count (sys : ascii) : nat := list_sum (orbit_counts sys).
Lemma msg_reader_counts v sys vpo : msg_reader v sys = Some vpo -> vpo = orbit_counts sys.
Proof.
  unfold msg_reader, orbit_counts. intros H.
  destruct sys as [[] [] [] [] [] [] [] []]; try discriminate H; destruct (ver_lt3 v), (ver_is20 v); try discriminate H; injection H as <-; reflexivity.
Qed.
Lemma orbit_counts_4 sys : Forall (fun n => n <= 4) (orbit_counts sys).
Proof. unfold orbit_counts. destruct (_ || _); repeat constructor. Qed.
Lemma complete_count v ft lines sys num ep vals : complete v ft lines sys num ep vals -> List.length vals = value_count sys.
Proof.
  intros [pre [line [orbits [post [vpo [_ [_ [_ [Hr [Hl [_ Hv]]]]]]]]]]].
  apply msg_reader_counts in Hr. subst vpo. apply read_orbits_count in Hv; [|apply orbit_counts_4].
  rewrite Hv, Hl. unfold value_count. now rewrite firstn_all.
Qed.

Lemma split_header_lines is_end lines : forall h b, split_header is_end lines = (h, b) -> exists pre, lines = pre ++ b.
Proof.
  induction lines as [|l r IH]; intros h b H; cbn in H; [injection H as <- <-; exists []; reflexivity|].
  destruct (is_end l); [injection H as <- <-; now exists [l]|].
  destruct (split_header is_end r) as [h' b'] eqn:E. injection H as <- <-. destruct (IH _ _ eq_refl) as [pre ->]. now exists (l :: pre).
Qed.

(** every kept message *)
Lemma nav_read_kept v filename lines m sys num t vals : nav_read v filename lines = Ok m -> stored m sys num t = Some vals ->
  exists ft ep, nav_header v (fst (split_header is_end_label lines)) = Ok ft /\
    complete v ft (snd (split_header is_end_label lines)) sys num ep vals /\ get_rinex_date filename = Some (dt_date ep) /\ t = dt_time ep.
Proof.
  unfold nav_read. destruct (split_header is_end_label lines) as [h b]. cbn [fst snd].
  destruct (nav_header v h) as [ft|] eqn:Eh; [|discriminate]. cbn [bind].
  destruct (nav_loop _ _ _ _ _) as [st|] eqn:El; [|discriminate]. cbn [bind]. intros H Hs. injection H as <-.
  destruct (nav_loop_inv v ft (get_rinex_date filename) b [] _ _ (nav_inv0 _ _ _) El) as [HA _]. cbn [app] in HA.
  destruct (HA _ _ _ _ Hs) as [ep [Hc [Hd Ht]]]. exists ft, ep. auto.
Qed.
