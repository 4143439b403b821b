(** The run: the comment on the sampling interval. *)
From Coq Require Import Reals Lra ZifyBool ZifyNat.
From Flocq Require Import Core IEEE754.Binary.
From Verif Require Import Base PyStr PyFloat PyDate PyPath S_Text S_Time S_Open2 M_Common M_Header M_Obs2 M_Obs3 M_Rec M_Text M_Cfg M_Label M_Names M_Xyz M_Nav M_NmUtils M_Num M_Tec M_Sat M_Main S_Out S_Main S_Fresh P_Str P_Float P_Date P_Open2 P_Open2b P_Prop2 P_Div P_Nav P_Out P_Out2 P_Main1 P_Main2 P_Main3 P_Main4 P_Main5 P_Main6 P_Main7 P_Main8 P_Main12.
Open Scope nat_scope.

Section Sampling.
Variable (w : world) (c : cfg).

Lemma first_row sat ops : rows_of sat ops <> [] -> exists before sd nav t q after, ops = before ++ WRow sat sd nav t q :: after /\ rows_of sat before = [].
Proof.
  induction ops as [|[t p l|s sd nav t q] ops IH]; cbn; intros H; [contradiction| |].
  - destruct (IH H) as [b [sd [nav [t' [q [a [-> Hb]]]]]]]. exists (WPos t p l :: b), sd, nav, t', q, a. split; [reflexivity|exact Hb].
  - destruct (seqb sat s) eqn:E.
    + apply seqb_eq in E. subst s. exists [], sd, nav, t, q, ops. split; reflexivity.
    + destruct (IH H) as [b [sd' [nav' [t' [q' [a [-> Hb]]]]]]]. exists (WRow s sd nav t q :: b), sd', nav', t', q', a. split; [reflexivity|]. cbn. rewrite E. exact Hb.
Qed.

Lemma any_comment f pre name ops post sat b : stopped_by w c f = None -> snd (fst (main w c f)) = pre ++ (name, ops) :: post -> rows_of sat ops <> [] ->
  (forall name' ops', In (name', ops') post -> rows_of sat ops' <> [] -> marker_of name' <> marker_of name \/ get_rinex_date name' <> get_rinex_date name) ->
  open_obs w name = Ok b ->
  exists iv d sd nav p l rows, h_interval (b_hdr b) = Some iv /\ get_rinex_date name = Some d /\
    fs_get (result_file (c_outdir c) (marker_of name) sat d) (fst (fst (main w c f))) = Some (comment_text (comment_lines (out_of w c) name iv sd nav p l) ++ rows).
Proof.
  intros Hs Hlog Hrow Hpost Hob. destruct (first_row sat ops Hrow) as [before [sd [nav [t [q [after [Eops Hbef]]]]]]].
  destruct (run_target w c f pre name ops post sat Hs Hlog Hrow Hpost) as [b' [iv [d [f1 [f2 [Ho [Hiv [Hd [Hw [[K1 [K2 [K3 K4]]] [E2 Ht]]]]]]]]]]].
  rewrite Hob in Ho. injection Ho as <-. exists iv, d.
  assert (Hne : ops <> []) by (rewrite Eops; destruct before; discriminate).
  destruct (file_announce w c f name ops Hw Hne) as [b2 [t0 [ts [lbh0 [os [xyzs [Ho2 [Htf [Eo2 [Hg0 [_ [Hlater _]]]]]]]]]]]]. rewrite Hob in Ho2. injection Ho2 as <-.
  assert (Hval : forall u p l, In (WPos u p l) ops -> valid_datetime u).
  { intros u p l Hin. rewrite Eo2 in Hin. destruct Hin as [Hin|Hin].
    - injection Hin as <- <- <-. exact (open_obs_tofo w name b Hob t0 ts Htf).
    - destruct (Hlater u p l Hin) as [s [S1 [_ [S2 _]]]]. pose proof (open_obs_dated w name b Hob) as Hda. rewrite Forall_forall in Hda. exact (Hda s S1 u S2). }
  destruct (comment_top (out_of w c) f1 name iv ops f2 d before sat sd nav t q after K1 K2 K3 K4 Hval E2 Eops Hbef) as [u [p [l [rows [Hn Hf]]]]].
  exists sd, nav, p, l, rows. split; [exact Hiv|]. split; [exact Hd|]. rewrite Ht. exact Hf.
Qed.

Lemma seconds_gt d iv x : (Z.abs d < span)%Z -> (Z.abs iv < span)%Z -> seconds d x -> fltb (total_seconds iv) x = (iv <? d)%Z.
Proof.
  intros Hd Hi Hx. pose proof (total_seconds_nearest d (span_big d Hd)) as Hy.
  rewrite <- (seconds_lt iv d (total_seconds iv) Hi Hd (total_seconds_nearest iv (span_big iv Hi))).
  pose proof (nearest_good _ _ Hx) as Gx. pose proof (nearest_good _ _ Hy) as Gy. pose proof (total_seconds_nearest iv (span_big iv Hi)) as Hz. pose proof (nearest_good _ _ Hz) as Gz.
  rewrite !fltb_correct by assumption. destruct Hx as [_ [_ Ex]], Hy as [_ [_ Ey]]. rewrite Ex, Ey. reflexivity.
Qed.
Lemma zero_seconds : fzero = total_seconds 0.
Proof. reflexivity. Qed.

Lemma note_is b d iv : interval_is b d -> h_interval (b_hdr b) = Some iv -> (Z.abs (asked c) < 2 ^ 52)%Z ->
  sampling_note (out_of w c) iv = show_val (VFloat (total_seconds (asked c))) ++ (if ((asked c) <? d)%Z then lit " (not used)." else []).
Proof.
  intros [Hd Hi] Hiv Ha. unfold sampling_note. cbn [oc_sampling out_of].
  replace (match c_sampling c with None | Some 0%Z => fzero | Some u => total_seconds u end) with (total_seconds (asked c)).
  2: { unfold asked. destruct (c_sampling c) as [[| |]|]; reflexivity. }
  assert (Hx : seconds d (match iv with PInt z => float_of_Z z | PFloat f => f end)).
  { destruct Hi as [[n [E ->]]|[x [E Hx]]]; rewrite Hiv in E; injection E as ->; [exact (int_seconds n Hd)|exact Hx]. }
  rewrite (seconds_gt d (asked c) _ Hd Ha Hx). reflexivity.
Qed.

Lemma marked f pre name ops post sat b d : stopped_by w c f = None -> snd (fst (main w c f)) = pre ++ (name, ops) :: post -> rows_of sat ops <> [] ->
  (forall name' ops', In (name', ops') post -> rows_of sat ops' <> [] -> marker_of name' <> marker_of name \/ get_rinex_date name' <> get_rinex_date name) ->
  open_obs w name = Ok b -> interval_is b d -> (0 < d)%Z -> (Z.abs (asked c) < 2 ^ 52)%Z -> asked c <> d ->
  exists iv day sd nav p l rows, get_rinex_date name = Some day /\
    fs_get (result_file (c_outdir c) (marker_of name) sat day) (fst (fst (main w c f))) = Some (comment_text (comment_lines (out_of w c) name iv sd nav p l) ++ rows) /\
    let shown := lit "Sampling interval: " ++ show_val (VFloat (total_seconds (asked c))) in
    (keeps_all c b /\ nth_error (comment_lines (out_of w c) name iv sd nav p l) 4 = Some (shown ++ lit " (not used).") \/
     thins c b (asked c) /\ nth_error (comment_lines (out_of w c) name iv sd nav p l) 4 = Some shown).
Proof.
  intros Hs Hlog Hrow Hpost Hob Hi Hd Ha Hne. destruct (any_comment f pre name ops post sat b Hs Hlog Hrow Hpost Hob) as [iv [day [sd [nav [p [l [rows [H1 [H2 H3]]]]]]]]].
  exists iv, day, sd, nav, p, l, rows. split; [exact H2|]. split; [exact H3|]. cbv zeta. unfold comment_lines. cbn [nth_error]. rewrite (note_is b d iv Hi H1 Ha).
  destruct (Z.ltb_spec (asked c) d) as [Hlt|Hge].
  - left. split; [|rewrite <- app_assoc; reflexivity]. unfold keeps_all, asked in *. destruct (c_sampling c) as [u|] eqn:E; [|now left].
    right. right. exists u, d. split; [reflexivity|]. split; [exact Ha|]. split; [exact Hi|]. lia.
  - right. rewrite app_nil_r. split; [|reflexivity]. unfold thins, asked in *. destruct (c_sampling c) as [u|] eqn:E; [|lia].
    split; [reflexivity|]. split; [lia|]. split; [exact Ha|]. exists d. split; [exact Hi|]. lia.
Qed.
Lemma equal_unmarked f pre name ops post sat b d : stopped_by w c f = None -> snd (fst (main w c f)) = pre ++ (name, ops) :: post -> rows_of sat ops <> [] ->
  (forall name' ops', In (name', ops') post -> rows_of sat ops' <> [] -> marker_of name' <> marker_of name \/ get_rinex_date name' <> get_rinex_date name) ->
  open_obs w name = Ok b -> interval_is b d -> c_sampling c = Some d ->
  keeps_all c b /\ exists iv day sd nav p l rows, get_rinex_date name = Some day /\
    fs_get (result_file (c_outdir c) (marker_of name) sat day) (fst (fst (main w c f))) = Some (comment_text (comment_lines (out_of w c) name iv sd nav p l) ++ rows) /\
    nth_error (comment_lines (out_of w c) name iv sd nav p l) 4 = Some (lit "Sampling interval: " ++ show_val (VFloat (total_seconds d))).
Proof.
  intros Hs Hlog Hrow Hpost Hob Hi Hc. assert (Ha : asked c = d) by (unfold asked; now rewrite Hc).
  split; [right; right; exists d, d; destruct Hi as [Hd Hi']; repeat split; [exact Hc|exact Hd|exact Hd|exact Hi'|lia]|].
  destruct (any_comment f pre name ops post sat b Hs Hlog Hrow Hpost Hob) as [iv [day [sd [nav [p [l [rows [H1 [H2 H3]]]]]]]]].
  exists iv, day, sd, nav, p, l, rows. split; [exact H2|]. split; [exact H3|]. unfold comment_lines. cbn [nth_error].
  rewrite (note_is b d iv Hi H1) by (rewrite Ha; exact (proj1 Hi)). rewrite Ha, Z.ltb_irrefl, app_nil_r. reflexivity.
Qed.
End Sampling.
