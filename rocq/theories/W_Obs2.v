(** A writer of RINEX 2 observation bodies, used to show that the specification S_Obs2 is not
    vacuous: every valid list of blocks has a text. *)
From Coq Require Import ZifyBool ZifyNat.
From Verif Require Import Base PyStr PyFloat PyDate M_Common M_Header M_Obs2.
From Verif Require Import S_Text S_Time S_Obs2 S_Open2 P_Str P_Float P_Date P_Obs2 P_Obs2b.
Open Scope nat_scope.

Definition nl : ascii := ascii_of_nat 10.
Definition put_int (w : nat) (n : Z) : str := pad_left " "%char w (nat_str n).
Definition put_fix (w k : nat) (neg : bool) (m : Z) : str := pad_left " "%char w (fixed_str neg m k).
Definition put_flag (n : Z) : ascii := if (n =? 0)%Z then " "%char else ascii_of_N (Z.to_N (48 + n)).
Definition put_field (f : field) : str :=
  match f with FBlank => spaces 16 | FVal neg m l k => put_fix 14 3 neg m ++ [put_flag l; put_flag k] end.

Lemma repeat_blanks k : blanks (repeat " "%char k).
Proof. induction k; constructor; auto. Qed.
Lemma put_int_ok w n : 0 < w -> (0 <= n < 10 ^ Z.of_nat w)%Z -> int_field w (put_int w n) n.
Proof.
  intros Hw [Hn Hb]. destruct (nat_str_spec n Hn) as [H1 [H2 [H3 H4]]]. specialize (H4 w Hw Hb).
  unfold put_int, pad_left, repeat_c. split; [rewrite app_length, repeat_length; lia|].
  exists (repeat " "%char (w - length (nat_str n))), (nat_str n). split; [reflexivity|]. split; [apply repeat_blanks|]. auto.
Qed.
Lemma put_fix_ok w k neg m : 0 < k -> k + 2 < w -> (0 <= m < 10 ^ Z.of_nat (w - 2))%Z -> fix_field w k (put_fix w k neg m) neg m.
Proof.
  intros Hk Hw [Hm Hb]. assert (Hp : (0 < 10 ^ Z.of_nat k)%Z) by (apply Z.pow_pos_nonneg; lia).
  destruct (nat_str_spec (m / 10 ^ Z.of_nat k)) as [H1 [H2 [H3 H4]]]; [apply Z.div_pos; lia|].
  destruct (pad_left_digits k (m mod 10 ^ Z.of_nat k)) as [P1 [P2 P3]]; [apply Z.mod_pos_bound; lia|exact Hk|].
  specialize (H4 (w - 2 - k) ltac:(lia)).
  assert (Hl : length (nat_str (m / 10 ^ Z.of_nat k)) <= w - 2 - k).
  { apply H4. apply Z.div_lt_upper_bound; [lia|]. rewrite <- Z.pow_add_r by lia. replace (Z.of_nat k + Z.of_nat (w - 2 - k))%Z with (Z.of_nat (w - 2)) by lia. exact Hb. }
  set (ip := nat_str (m / 10 ^ Z.of_nat k)) in *. set (fp := pad_left "0"%char k (nat_str (m mod 10 ^ Z.of_nat k))) in *.
  assert (E : fixed_str neg m k = (if neg then ["-"%char] else []) ++ ip ++ ["."%char] ++ fp).
  { unfold fixed_str. destruct k; [lia|]. reflexivity. }
  unfold put_fix, pad_left. rewrite E. split.
  - rewrite app_length. unfold repeat_c. rewrite repeat_length.
    assert (length ((if neg then ["-"%char] else []) ++ ip ++ ["."%char] ++ fp) <= w).
    { rewrite !app_length. cbn [length]. destruct neg; cbn [length]; lia. }
    lia.
  - eexists _, ip, fp. split; [reflexivity|]. split; [apply repeat_blanks|]. split; [exact H1|]. split; [exact P1|]. split; [exact P2|].
    split; [destruct ip; [congruence|discriminate]|]. rewrite dec_value_app, H3, P3, P2. pose proof (Z.div_mod m (10 ^ Z.of_nat k) ltac:(lia)). lia.
Qed.
Definition valid_field (f : field) : Prop :=
  match f with FBlank => True | FVal _ m l k => (0 <= m < 10 ^ 12 /\ 0 <= l <= 9 /\ 0 <= k <= 9)%Z end.
Lemma put_flag_ok n : (0 <= n <= 9)%Z -> flag_field (put_flag n) n.
Proof.
  intros H. unfold put_flag. destruct (n =? 0)%Z eqn:E; [left; split; [reflexivity|lia]|]. right.
  destruct (digit_char n H) as [H1 H2]. auto.
Qed.
Lemma put_field_ok f : valid_field f -> field_text (put_field f) f.
Proof.
  destruct f as [|neg m l k]; cbn [valid_field put_field]; intros H.
  - apply ft_blank; [apply repeat_length|apply spaces_blanks].
  - destruct H as [Hm [Hl Hk]]. apply ft_val; [apply put_fix_ok; cbn; lia|now apply put_flag_ok|now apply put_flag_ok].
Qed.

(** lines of five fields *)
Definition put_obs_line (fs : list field) : str := rstrip (concat (map put_field fs)) ++ [nl].
Lemma put_obs_line_ok fs : Forall valid_field fs -> obs_line fs (put_obs_line fs).
Proof.
  intros H. exists (map put_field fs). split.
  - induction H as [|f fs Hf Hfs IH]; constructor; [now apply put_field_ok|exact IH].
  - destruct (rstrip_decomp (concat (map put_field fs))) as [w [E Hw]]. exists (rstrip (concat (map put_field fs))), w, [nl].
    split; [exact E|]. split; [reflexivity|]. split; [exact Hw|]. constructor; [reflexivity|constructor].
Qed.
Fixpoint chunks (fuel : nat) {A} (n : nat) (l : list A) : list (list A) :=
  match fuel, l with
  | S f, _ :: _ => firstn n l :: chunks f n (skipn n l)
  | _, _ => []
  end.
Definition put_obs (fs : list field) : list str := map put_obs_line (chunks (length fs) 5 fs).
Lemma put_obs_ok : forall fuel fs, Forall valid_field fs -> length fs <= fuel -> obs_lines fs (map put_obs_line (chunks fuel 5 fs)).
Proof.
  induction fuel as [|fuel IH]; intros fs H Hl.
  - destruct fs; [constructor|cbn in Hl; lia].
  - destruct fs as [|f fs]; [constructor|]. cbn [chunks map].
    set (l := f :: fs) in *. rewrite <- (firstn_skipn 5 l) in H. apply Forall_app in H. destruct H as [H1 H2].
    pose proof (skipn_length 5 l) as HE. destruct (skipn 5 l) as [|x rest] eqn:E; cbn [length] in HE.
    + assert (Hlen : length l <= 5) by lia.
      rewrite firstn_all2 in * by lia. replace (chunks fuel 5 (@nil field)) with (@nil (list field)) by (destruct fuel; reflexivity).
      apply ol_last; [unfold l in *; cbn [length] in *; lia|]. now apply put_obs_line_ok.
    + rewrite <- (firstn_skipn 5 l) at 1. rewrite E. apply ol_more.
      * rewrite firstn_length. lia.
      * discriminate.
      * now apply put_obs_line_ok.
      * apply IH; [exact H2|]. cbn [length]. lia.
Qed.

(** satellites *)
Definition valid_name (nm : str) : Prop :=
  exists c d1 d2, nm = [c; d1; d2] /\ is_upper c = true /\ digit d1 /\ digit d2.
Lemma valid_name_text nm : valid_name nm -> sat_text nm nm.
Proof.
  intros [c [d1 [d2 [-> [Hc [H1 H2]]]]]]. apply (st c [d1; d2] (dig d1 * 10 + dig d2)%Z c); [| |exact H1|exact H2|reflexivity].
  - split; [reflexivity|]. exists [], [d1; d2]. split; [reflexivity|]. split; [constructor|]. split; [constructor; [exact H1|constructor; [exact H2|constructor]]|].
    split; [discriminate|]. cbn [dec_value length]. change (10 ^ Z.of_nat 1)%Z with 10%Z. change (10 ^ Z.of_nat 0)%Z with 1%Z. lia.
  - right. split; [intros ->; discriminate|]. unfold upper_c. replace (is_lower c) with false; [reflexivity|].
    unfold is_upper, is_lower, code in *. lia.
Qed.
Lemma valid_names_text l : Forall valid_name l -> Forall2 sat_text l l.
Proof. induction 1; constructor; [now apply valid_name_text|assumption]. Qed.

Definition put_cont (names : list str) : str := spaces 32 ++ concat names ++ [nl].
Lemma put_cont_ok : forall fuel names, Forall valid_name names -> length names <= fuel -> cont_lines names (map put_cont (chunks fuel 12 names)).
Proof.
  induction fuel as [|fuel IH]; intros fs H Hl.
  - destruct fs; [constructor|cbn in Hl; lia].
  - destruct fs as [|f fs]; [constructor|]. cbn [chunks map].
    set (l := f :: fs) in *. rewrite <- (firstn_skipn 12 l) in H. apply Forall_app in H. destruct H as [H1 H2].
    pose proof (skipn_length 12 l) as HE. destruct (skipn 12 l) as [|x rest] eqn:E; cbn [length] in HE.
    + assert (Hlen : length l <= 12) by lia.
      rewrite firstn_all2 in * by lia. replace (chunks fuel 12 (@nil str)) with (@nil (list str)) by (destruct fuel; reflexivity).
      apply cl_last; [unfold l in *; cbn [length] in *; lia|apply repeat_length|]. now apply valid_names_text.
    + rewrite <- (firstn_skipn 12 l) at 1. rewrite E. apply cl_more.
      * rewrite firstn_length. lia.
      * discriminate.
      * apply repeat_length.
      * now apply valid_names_text.
      * apply IH; [exact H2|]. cbn [length]. lia.
Qed.

Definition put_epoch (ep : datetime) (flag : Z) (names : list str) : list str :=
  (put_int 3 (dy ep mod 100) ++ put_int 3 (dmo ep) ++ put_int 3 (dd ep) ++ put_int 3 (dh ep) ++ put_int 3 (dmi ep)
   ++ put_fix 11 7 false (ds ep * 10000000 + dus ep * 10) ++ put_int 3 flag ++ put_int 3 (Z.of_nat (length names))
   ++ concat (firstn 12 names) ++ [nl])
  :: map put_cont (chunks (length names) 12 (skipn 12 names)).
Definition valid_epoch (ep : datetime) : Prop := valid_datetime ep /\ (1989 <= dy ep <= 2088)%Z.
Lemma put_epoch_ok ep fl names : valid_epoch ep -> (fl = 0 \/ fl = 1)%Z -> Forall valid_name names -> length names < 1000 ->
  epoch_lines ep fl names (put_epoch ep fl names).
Proof.
  intros [Hv Hy] Hf Hn Hl. pose proof Hv as [[Hy1 [Hm Hd]] [Hh [Hmi [Hs Hus]]]].
  assert (Hd31 : (dd ep <= 31)%Z).
  { rewrite month_len_eq in Hd by lia. unfold days_in_month in Hd. destruct (_ =? 2)%Z; [destruct (is_leap _); lia|]. destruct (_ || _)%bool; lia. }
  rewrite <- (firstn_skipn 12 names) at 1. unfold put_epoch.
  rewrite <- (firstn_skipn 12 names) in Hn. apply Forall_app in Hn. destruct Hn as [Hn1 Hn2].
  assert (H1000 : forall n, (0 <= n < 1000)%Z -> int_field 3 (put_int 3 n) n) by (intros n Hb; apply put_int_ok; [lia|change (10 ^ Z.of_nat 3)%Z with 1000%Z; lia]).
  set (k7 := (ds ep * 10000000 + dus ep * 10)%Z).
  assert (Hk1 : (k7 / 10000000 = ds ep)%Z) by (unfold k7; symmetry; apply Z.div_unique with (r := (dus ep * 10)%Z); lia).
  assert (Hk2 : (k7 mod 10000000 = dus ep * 10)%Z) by (unfold k7; symmetry; apply Z.mod_unique with (q := ds ep); lia).
  assert (Hk3 : (k7 mod 10000000 / 10 = dus ep)%Z) by (rewrite Hk2; apply Z.div_mul; lia).
  assert (Hcy : century (dy ep mod 100) = dy ep).
  { unfold century. destruct (Z.ltb_spec (dy ep mod 100) 89); [|destruct (Z.ltb_spec (dy ep mod 100) 100)].
    - assert (dy ep mod 100 = dy ep - 2000)%Z; [|lia]. destruct (Z_lt_ge_dec (dy ep) 2000).
      + exfalso. assert (dy ep mod 100 = dy ep - 1900)%Z by (symmetry; apply Z.mod_unique with (q := 19%Z); lia). lia.
      + symmetry. apply Z.mod_unique with (q := 20%Z); lia.
    - assert (dy ep mod 100 = dy ep - 1900)%Z; [|lia]. destruct (Z_lt_ge_dec (dy ep) 2000).
      + symmetry. apply Z.mod_unique with (q := 19%Z); lia.
      + exfalso. assert (dy ep mod 100 = dy ep - 2000)%Z by (symmetry; apply Z.mod_unique with (q := 20%Z); lia). lia.
    - pose proof (Z.mod_pos_bound (dy ep) 100 ltac:(lia)). lia. }
  pose proof (Z.mod_pos_bound (dy ep) 100 ltac:(lia)) as Hmod.
  eapply el with (y := (dy ep mod 100)%Z) (mo := dmo ep) (d := dd ep) (h := dh ep) (mi := dmi ep) (k7 := k7).
  - apply H1000. lia.
  - apply H1000. lia.
  - apply H1000. lia.
  - apply H1000. lia.
  - apply H1000. lia.
  - apply put_fix_ok; [lia|lia|]. change (10 ^ Z.of_nat (11 - 2))%Z with 1000000000%Z. unfold k7. lia.
  - apply H1000. lia.
  - exact Hf.
  - rewrite firstn_skipn. apply H1000. lia.
  - lia.
  - rewrite Hk1, Hk3. unfold epoch_in_range. rewrite Hcy. split; [exact (proj1 Hv)|]. lia.
  - exact Hv.
  - rewrite Hk1, Hk3. unfold epoch_value, instant. rewrite Hcy. reflexivity.
  - apply valid_names_text. exact Hn1.
  - destruct (le_lt_dec (length names) 12); [left|right].
    + split; [rewrite firstn_length; lia|]. apply length_zero_iff_nil. rewrite skipn_length. lia.
    + rewrite firstn_length. lia.
  - apply put_cont_ok; [exact Hn2|]. rewrite skipn_length. lia.
Qed.

(** header lines of an event *)
Definition put_pos (d : dec_position) : str :=
  let '((nx, mx), (ny, my), (nz, mz)) := d in
  put_fix 14 4 nx mx ++ put_fix 14 4 ny my ++ put_fix 14 4 nz mz ++ spaces 18 ++ lit "APPROX POSITION XYZ" ++ [nl].
Definition valid_dec4 (x : dec4) : Prop := (0 <= snd x < 10 ^ 12)%Z.
Lemma put_pos_ok d : (let '(x, y, z) := d in valid_dec4 x /\ valid_dec4 y /\ valid_dec4 z) -> event_line (put_pos d) (Some d).
Proof.
  destruct d as [[[nx mx] [ny my]] [nz mz]]. unfold valid_dec4. cbn [snd]. intros [Hx [Hy Hz]].
  unfold put_pos. apply ev_pos; try (apply put_fix_ok; cbn; lia); [apply repeat_length|]. constructor; [reflexivity|constructor].
Qed.

Definition put_block (b : block) : list str :=
  match b with
  | BData ep fl sats => put_epoch ep fl (map fst sats) ++ concat (map (fun s => put_obs (snd s)) sats)
  | BEvent fl ls np => (spaces 26 ++ put_int 3 fl ++ put_int 3 (Z.of_nat (length ls)) ++ [nl]) :: ls
  end.
Definition valid_block (n : nat) (b : block) : Prop :=
  match b with
  | BData ep fl sats => valid_epoch ep /\ (fl = 0 \/ fl = 1)%Z /\ Forall (fun s => valid_name (fst s) /\ length (snd s) = n /\ Forall valid_field (snd s)) sats /\ length sats < 1000
  | BEvent fl ls np => (1 < fl < 1000)%Z /\ length ls < 1000 /\ ((fl = 3 \/ fl = 4)%Z /\ event_lines ls np \/ (fl <> 3 /\ fl <> 4)%Z /\ np = None)
  end.
Lemma put_block_ok n b : valid_block n b -> block_lines n b (put_block b).
Proof.
  destruct b as [ep fl sats|fl ls np]; cbn [valid_block put_block].
  - intros [He [Hf [Hs Hl]]]. apply bl_data.
    + apply put_epoch_ok; [exact He|exact Hf| |rewrite map_length; exact Hl]. clear -Hs. induction Hs as [|s sats [H _] Hs IH]; constructor; assumption.
    + exists (map (fun s => put_obs (snd s)) sats). split; [reflexivity|]. clear -Hs.
      induction Hs as [|s sats [_ [H1 H2]] Hs IH]; constructor; [|exact IH]. split; [exact H1|]. apply put_obs_ok; [exact H2|reflexivity].
  - intros [Hf [Hl Hk]]. apply bl_event; [apply repeat_length| |lia| |exact Hk].
    + apply put_int_ok; [lia|]. change (10 ^ Z.of_nat 3)%Z with 1000%Z. lia.
    + apply put_int_ok; [lia|]. change (10 ^ Z.of_nat 3)%Z with 1000%Z. lia.
Qed.
Definition put_body (bs : list block) : list str := concat (map put_block bs).
Lemma put_body_ok n bs : Forall (valid_block n) bs -> body_lines n bs (put_body bs).
Proof. induction 1 as [|b bs Hb Hbs IH]; [constructor|]. unfold put_body. cbn [map concat]. constructor; [now apply put_block_ok|exact IH]. Qed.
