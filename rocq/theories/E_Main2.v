(** More runs over concrete files: the coordinates file. *)
From Verif Require Import Base PyStr PyFloat PyDate PyPath PyRegex M_Common M_Header M_Obs2 M_Obs3 M_Label M_Rec M_Text M_Cfg M_Names M_Xyz M_Nav M_NmUtils M_Num M_Tec M_Sat M_Main.
From Verif Require Import S_Text S_Time S_Names S_Xyz S_Obs3 S_Out E_Obs3 S_Main P_Str P_Names P_Names2 P_Names3 P_Names4 P_Names5 P_Names6 P_Main12 P_Main13 E_Main.
Open Scope nat_scope.

Lemma site_file : obs_base (lit "aaaa0010.15o") false /\ arch [] false /\ site_name = (lit "/ob" ++ ["s"%char]) ++ lit "/" ++ lit "aaaa0010.15o" ++ [] /\
  w_there w_site (lit "/obs/aaaa0010.15o.xyz") = true /\ In (lit "aaaa0010.15o.xyz") (w_ls w_site (lit "/obs")) /\
  exists ls, w_crd w_site (lit "/obs/aaaa0010.15o.xyz") = Ok ls /\ xyz_lines ls [(t3 0 1 0 0, (Dec false 15 1, Dec false 25 1, Dec false 35 1))].
Proof.
  split; [apply (ob_classic (lit "aaaa") (lit "001") (lit "0") (lit "15") "o"%char false); lits; left; lits|].
  split; [reflexivity|]. split; [reflexivity|]. split; [vm_compute; reflexivity|]. split; [vm_compute; right; now left|].
  exists [lit "2015-01-01 00:01:00 1.5 2.5 3.5"]. split; [vm_compute; reflexivity|].
  apply xl_pos; [|constructor].
  exists (lit "2015"), (lit "01"), (lit "01"), (lit "00"), (lit "01"), (lit "00"), (lit " "), (lit " "), (lit " "), (lit " "), (lit "1.5"), (lit "2.5"), (lit "3.5"), [].
  assert (T : forall s n, forallb is_digit s = true -> List.length s = 2 -> dec_value s = n -> two s n) by (intros s n D L V; split; [now apply digits_lit|auto]).
  assert (G : forall s, forallb is_space s = true -> s <> [] -> gap s) by (intros s H N; split; [now apply white_lit|exact N]).
  split; [reflexivity|]. split; [now apply digits_lit|]. split; [reflexivity|]. split; [reflexivity|].
  repeat (split; [now apply T|]). split; [reflexivity|]. split; [repeat split; vm_compute; discriminate|].
  split; [now apply G|]. split; [now apply G|]. split; [now apply G|]. split; [now apply G|]. split; [constructor|].
  split; [|split].
  - exists (lit "1"), (lit "5"). split; [reflexivity|]. split; [now apply digits_lit|]. split; [now apply digits_lit|]. split; [discriminate|]. split; [cbn; lia|]. split; reflexivity.
  - exists (lit "2"), (lit "5"). split; [reflexivity|]. split; [now apply digits_lit|]. split; [now apply digits_lit|]. split; [discriminate|]. split; [cbn; lia|]. split; reflexivity.
  - exists (lit "3"), (lit "5"). split; [reflexivity|]. split; [now apply digits_lit|]. split; [now apply digits_lit|]. split; [discriminate|]. split; [cbn; lia|]. split; reflexivity.
Qed.
Lemma positions_announced w c f name ops : written w c f name ops -> ops <> [] ->
  exists b t0 ts lbh os xyzs, open_obs w name = Ok b /\ h_tofo (b_hdr b) = Some (t0, ts) /\ ops = WPos t0 (h_xyz (b_hdr b)) lbh :: os /\
    geodetic w (h_xyz (b_hdr b)) lbh /\ coordinates w c name xyzs /\
    (forall t p q, In (WPos t p q) os -> exists s, In s (b_steps b) /\ usable (b_date b) s /\ s_epoch s = Some t /\ site_of xyzs s t p /\ geodetic w p q).
Proof.
  intros Hw Hne. destruct (file_announce w c f name ops Hw Hne) as [b [t0 [ts [lbh [os [xyzs [H1 [H2 [H3 [H4 [H5 [H6 _]]]]]]]]]]]].
  exists b, t0, ts, lbh, os, xyzs. auto 10.
Qed.

(** ** the comment on the sampling interval *)
Lemma ok_thinned iv n : map (fun x => (fst x, length (rows_of (lit "G01") (snd x)))) (snd (fst (main w_ok (e_cfg true iv) []))) = [(ok_name, n)] ->
  exists ops, snd (fst (main w_ok (e_cfg true iv) [])) = [] ++ (ok_name, ops) :: [] /\ length (rows_of (lit "G01") ops) = n.
Proof.
  intros H. destruct (snd (fst (main w_ok (e_cfg true iv) []))) as [|[nm ops] [|x r]]; [clear -H; discriminate| |clear -H; discriminate].
  cbn [map fst snd] in H. injection H as -> H. exists ops. split; [reflexivity|exact H].
Qed.
Lemma mark_example : let c := e_cfg true (Some 60000000%Z) in let d := 30000000%Z in
  exists ops, stopped_by w_ok c [] = None /\ snd (fst (main w_ok c [])) = [] ++ (ok_name, ops) :: [] /\ length (rows_of (lit "G01") ops) = 2 /\
    open_obs w_ok ok_name = Ok (the_obs w_ok ok_name) /\ interval_is (the_obs w_ok ok_name) d /\ asked c <> d.
Proof.
  cbv zeta. destruct (ok_thinned (Some 60000000%Z) 2 ltac:(vm_compute; reflexivity)) as [ops [H1 H2]].
  exists ops. split; [rewrite run_stopped, ok_run_sampled; reflexivity|]. split; [exact H1|]. split; [exact H2|]. split; [exact ok_open|].
  split; [exact ok_interval|discriminate].
Qed.
Lemma equal_intervals : exists w c name ops b d sat content iv day sd nav p l rows,
  stopped_by w c [] = None /\ snd (fst (main w c [])) = [(name, ops)] /\ open_obs w name = Ok b /\ interval_is b d /\ c_sampling c = Some d /\ (0 < d)%Z /\
  keeps_all c b /\ rows_of sat ops <> [] /\ get_rinex_date name = Some day /\
  fs_get (result_file (c_outdir c) (marker_of name) sat day) (fst (fst (main w c []))) = Some content /\
  content = comment_text (comment_lines (out_of w c) name iv sd nav p l) ++ rows /\
  nth_error (comment_lines (out_of w c) name iv sd nav p l) 4 = Some (lit "Sampling interval: " ++ show_val (VFloat (total_seconds d))).
Proof.
  destruct (ok_thinned (Some 30000000%Z) 4 ltac:(vm_compute; reflexivity)) as [ops [H1 H2]].
  assert (Hs : stopped_by w_ok (e_cfg true (Some 30000000%Z)) [] = None).
  { rewrite run_stopped. assert (H : snd (run w_ok (e_cfg true (Some 30000000%Z))) = None) by (vm_compute; reflexivity). exact H. }
  assert (Hr : rows_of (lit "G01") ops <> []) by (intros E; rewrite E in H2; clear - H2; discriminate).
  destruct (equal_unmarked w_ok (e_cfg true (Some 30000000%Z)) [] [] ok_name ops [] (lit "G01") (the_obs w_ok ok_name) 30000000 Hs H1 Hr ltac:(intros ? ? []) ok_open ok_interval eq_refl)
    as [K [iv [day [sd [nav [p [l [rows [E1 [E2 E3]]]]]]]]]].
  exists w_ok, (e_cfg true (Some 30000000%Z)), ok_name, ops, (the_obs w_ok ok_name), 30000000%Z, (lit "G01"), (comment_text (comment_lines (out_of w_ok (e_cfg true (Some 30000000%Z))) ok_name iv sd nav p l) ++ rows), iv, day, sd, nav, p, l, rows.
  split; [exact Hs|]. split; [exact H1|]. split; [exact ok_open|]. split; [exact ok_interval|]. split; [reflexivity|]. split; [lia|]. split; [exact K|]. split; [exact Hr|].
  split; [exact E1|]. split; [exact E2|]. split; [reflexivity|exact E3].
Qed.
