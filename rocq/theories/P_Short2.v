(** Reading the beginning of a text gives the first of the records of the text. *)
From Verif Require Import Base PyStr PyFloat PyDate M_Common M_Header M_Obs2 M_Obs3.
Open Scope nat_scope.

Lemma next_more l x r more : next_rec l = Ok (x, r) -> next_rec (l ++ more) = Ok (x, r ++ more).
Proof. destruct l as [|a l]; [discriminate|]. cbn. intros E. injection E as <- <-. reflexivity. Qed.
Lemma prns_more k : forall l ps r more, get_prn_lines k l = Ok (ps, r) -> get_prn_lines k (l ++ more) = Ok (ps, r ++ more).
Proof.
  induction k as [|k IH]; intros l ps r more; cbn [get_prn_lines]; [intros E; injection E as <- <-; reflexivity|].
  destruct (next_rec l) as [[x r1]|] eqn:E1; cbn [bind]; [|discriminate]. rewrite (next_more _ _ _ more E1). cbn [bind].
  destruct (get_prns x 12); cbn [bind]; [|discriminate]. destruct (get_prn_lines k r1) as [[qs r2]|] eqn:E2; cbn [bind]; [|discriminate].
  rewrite (IH _ _ _ more E2). cbn [bind]. intros E. injection E as <- <-. reflexivity.
Qed.
Lemma read_prns_more ep n l ps r more : read_prns ep n l = Ok (ps, r) -> read_prns ep n (l ++ more) = Ok (ps, r ++ more).
Proof.
  unfold read_prns. destruct (12 <? n)%Z.
  - destruct (get_prns ep 12); cbn [bind]; [|discriminate]. destruct (get_prn_lines (Z.to_nat (n / 12 - 1)) l) as [[qs r1]|] eqn:E1; cbn [bind]; [|discriminate].
    rewrite (prns_more _ _ _ _ more E1). cbn [bind]. cbv zeta. destruct (n - n / 12 * 12 =? 0)%Z; cbn [bind].
    + destruct (n =? _)%Z; [|discriminate]. intros E. injection E as <- <-. reflexivity.
    + destruct (next_rec r1) as [[x r2]|] eqn:E2; cbn [bind]; [|discriminate]. rewrite (next_more _ _ _ more E2). cbn [bind].
      destruct (get_prns x _); cbn [bind]; [|discriminate]. destruct (n =? _)%Z; [|discriminate]. intros E. injection E as <- <-. reflexivity.
  - destruct (get_prns ep (Z.to_nat n)); cbn [bind]; [|discriminate]. destruct (n =? _)%Z; [|discriminate]. intros E. injection E as <- <-. reflexivity.
Qed.
Lemma read_epoch_more ep l x r more : read_epoch ep l = Ok (x, r) -> read_epoch ep (l ++ more) = Ok (x, r ++ more).
Proof.
  unfold read_epoch. destruct (catch _ _ _) as [flag|]; cbn [bind]; [|discriminate]. destruct (1 <? flag)%Z.
  - destruct (catch _ _ _); cbn [bind]; [|discriminate]. intros E. injection E as <- <-. reflexivity.
  - destruct (epoch_date ep); cbn [bind]; [|discriminate]. destruct (catch _ _ _) as [n|]; cbn [bind]; [|discriminate].
    destruct (read_prns ep n l) as [[ps r1]|] eqn:E1; cbn [bind]; [|discriminate]. rewrite (read_prns_more _ _ _ _ _ more E1). cbn [bind]. intros E. injection E as <- <-. reflexivity.
Qed.
Lemma obs_lines_more lpr : forall l vs r more, read_obs_lines lpr l = Ok (vs, r) -> read_obs_lines lpr (l ++ more) = Ok (vs, r ++ more).
Proof.
  induction lpr as [|n lpr IH]; intros l vs r more; cbn [read_obs_lines]; [intros E; injection E as <- <-; reflexivity|].
  destruct (next_rec l) as [[x r1]|] eqn:E1; cbn [bind]; [|discriminate]. rewrite (next_more _ _ _ more E1). cbn [bind].
  destruct (mapM _ _); cbn [bind]; [|discriminate]. destruct (read_obs_lines lpr r1) as [[qs r2]|] eqn:E2; cbn [bind]; [|discriminate].
  rewrite (IH _ _ _ more E2). cbn [bind]. intros E. injection E as <- <-. reflexivity.
Qed.
Lemma take_more k : forall l vs r more, take_recs k l = Ok (vs, r) -> take_recs k (l ++ more) = Ok (vs, r ++ more).
Proof.
  induction k as [|k IH]; intros l vs r more; cbn [take_recs]; [intros E; injection E as <- <-; reflexivity|].
  destruct (next_rec l) as [[x r1]|] eqn:E1; cbn [bind]; [|discriminate]. rewrite (next_more _ _ _ more E1). cbn [bind].
  destruct (take_recs k r1) as [[qs r2]|] eqn:E2; cbn [bind]; [|discriminate].
  rewrite (IH _ _ _ more E2). cbn [bind]. intros E. injection E as <- <-. reflexivity.
Qed.
(** the records of an epoch: all of them, with the rest after them; or the first of them *)
Lemma sats_more types ep prns o more : forall l ys e, read_sats types ep prns o l = (ys, e) ->
  match e with
  | Ok r => read_sats types ep prns o (l ++ more) = (ys, Ok (r ++ more))
  | Err _ => exists zs e', read_sats types ep prns o (l ++ more) = (ys ++ zs, e')
  end.
Proof.
  induction prns as [|p prns IH]; intros l ys e; cbn [read_sats]; [intros E; injection E as <- <-; reflexivity|].
  destruct (read_obs_lines _ l) as [[data r]|] eqn:E1.
  - rewrite (obs_lines_more _ _ _ _ more E1). destruct (make_record types data []) as [rec|x]; [|intros E; injection E as <- <-; exists [], (Err x); reflexivity].
    destruct (read_sats types ep prns o r) as [ys1 e1] eqn:E2. specialize (IH _ _ _ E2).
    destruct (odt_eqb (Some ep) (o_prec o)); intros E; injection E as <- <-; destruct e1 as [r1|x].
    + rewrite IH. reflexivity.
    + destruct IH as [zs [e' ->]]. exists zs, e'. reflexivity.
    + rewrite IH. reflexivity.
    + destruct IH as [zs [e' ->]]. exists zs, e'. reflexivity.
  - intros E. injection E as <- <-. destruct (match read_obs_lines (lines_per_rec (length types)) (l ++ more) with Ok (data, r) => _ | Err e => _ end) as [zs e']. exists zs, e'. reflexivity.
Qed.
Lemma records_more v types more : forall fuel fuel' l o ys e o1 ys' e' o1', fuel <= fuel' ->
  read_records fuel v types l o = (ys, e, o1) -> read_records fuel' v types (l ++ more) o = (ys', e', o1') -> exists zs, ys' = ys ++ zs.
Proof.
  induction fuel as [|fuel IH]; intros fuel' l o ys e o1 ys' e' o1' Hf.
  - cbn [read_records]. intros E _. injection E as <- _ _. exists ys'. reflexivity.
  - destruct fuel' as [|fuel']; [inversion Hf|]. apply le_S_n in Hf. cbn [read_records]. destruct l as [|line rest]; [intros E _; injection E as <- _ _; exists ys'; reflexivity|].
    cbn [app]. destruct (read_epoch (rstrip line) rest) as [[x r]|x] eqn:E1; [|intros E _; injection E as <- _ _; exists ys'; reflexivity].
    rewrite (read_epoch_more _ _ _ _ more E1). destruct x as [flag num|ep flag prns].
    + destruct (take_recs (Z.to_nat num) r) as [[ls r']|x] eqn:E2; [|intros E _; injection E as <- _ _; exists ys'; reflexivity].
      rewrite (take_more _ _ _ _ more E2). destruct (_ || _).
      * destruct (parse_header v ls (o_hdr o)) as [h|x]; [|intros E _; injection E as <- _ _; exists ys'; reflexivity]. exact (IH _ _ _ _ _ _ _ _ _ Hf).
      * exact (IH _ _ _ _ _ _ _ _ _ Hf).
    + destruct (read_sats types ep prns o r) as [ys1 [r'|x]] eqn:E2.
      * pose proof (sats_more types ep prns o more _ _ _ E2) as E3. cbv iota beta in E3. rewrite E3.
        destruct (read_records fuel v types r' _) as [[ys2 e2] o2] eqn:E4. destruct (read_records fuel' v types (r' ++ more) _) as [[ys3 e3] o3] eqn:E5.
        intros E E'. injection E as <- <- <-. injection E' as <- <- <-. destruct (IH _ _ _ _ _ _ _ _ _ Hf E4 E5) as [zs ->]. exists zs. apply app_assoc.
      * pose proof (sats_more types ep prns o more _ _ _ E2) as [zs [e3 E3]]. rewrite E3. intros E. injection E as <- <- <-. destruct e3 as [r'|y].
        -- destruct (read_records fuel' v types r' _) as [[ys3 e3] o3]. intros E. injection E as <- <- <-. exists (zs ++ ys3). symmetry. apply app_assoc.
        -- intros E. injection E as <- <- <-. exists zs. reflexivity.
Qed.
Lemma reading2 v types lines more o ys e o1 ys' e' o1' : run_records v types lines o = (ys, e, o1) -> run_records v types (lines ++ more) o = (ys', e', o1') ->
  exists zs, ys' = ys ++ zs.
Proof. unfold run_records. apply records_more. rewrite app_length. apply le_n_S, Nat.le_add_r. Qed.
Lemma reading3 v chunks more : forall lines s special o ys e o1 ys' e' o1', read_records3 v chunks lines s special o = (ys, e, o1) ->
  read_records3 v chunks (lines ++ more) s special o = (ys', e', o1') -> exists zs, ys' = ys ++ zs.
Proof.
  induction lines as [|line rest IH]; intros s special o ys e o1 ys' e' o1'.
  - cbn [read_records3]. intros E _. injection E as <- _ _. exists ys'. reflexivity.
  - assert (Hn : forall x : exn, ([], GRaise x, o) = (ys, e, o1) -> exists zs, ys' = ys ++ zs) by (intros x E; injection E as <- _ _; exists ys'; reflexivity).
    cbn [app read_records3]. destruct line as [|c0 line]; [intros E _; exact (Hn _ E)|].
    destruct (ceqb c0 ">"%char).
    + destruct (parse_epoch3 (c0 :: line)) as [s'|x]; [exact (IH _ _ _ _ _ _ _ _ _)|intros E _; exact (Hn _ E)].
    + destruct s as [[[ep flag] n]|]; [|intros E _; exact (Hn _ E)]. destruct (1 <? flag)%Z.
      * assert (Hgo : forall special' n',
          (if (n' =? 0)%Z then match handle_event v flag special' o with Err x => ([], GRaise x, o) | Ok o' => read_records3 v chunks rest (Some (ep, flag, n')) special' o' end
           else read_records3 v chunks rest (Some (ep, flag, n')) special' o) = (ys, e, o1) ->
          (if (n' =? 0)%Z then match handle_event v flag special' o with Err x => ([], GRaise x, o) | Ok o' => read_records3 v chunks (rest ++ more) (Some (ep, flag, n')) special' o' end
           else read_records3 v chunks (rest ++ more) (Some (ep, flag, n')) special' o) = (ys', e', o1') -> exists zs, ys' = ys ++ zs).
        { intros special' n'. destruct (n' =? 0)%Z; [|exact (IH _ _ _ _ _ _ _ _ _)]. destruct (handle_event v flag special' o) as [o'|x]; [exact (IH _ _ _ _ _ _ _ _ _)|intros E _; exact (Hn _ E)]. }
        destruct (0 <? n)%Z; exact (Hgo _ _).
      * cbv zeta. destruct (0 <? n)%Z; [|exact (IH _ _ _ _ _ _ _ _ _)]. destruct (parse_obs3 chunks (o3_tab o) (c0 :: line)) as [[[sat types] vals]|x]; [|intros E _; exact (Hn _ E)].
        destruct (make_record types vals []) as [rec|x]; [|intros E _; exact (Hn _ E)].
        destruct (read_records3 v chunks rest _ special o) as [[ys2 e2] o2] eqn:E4. destruct (read_records3 v chunks (rest ++ more) _ special o) as [[ys3 e3] o3] eqn:E5.
        intros E E'. injection E as <- <- <-. injection E' as <- <- <-. destruct (IH _ _ _ _ _ _ _ _ _ E4 E5) as [zs ->]. exists zs. reflexivity.
Qed.
