(** Examples for the text of numbers and dates. *)
From Verif Require Import Base PyStr PyFloat PyDate PyStrftime PyPath S_Text S_Time S_Open2 S_Out S_Cfg S_Show S_When M_Common M_Header M_Obs2 M_Rec M_Text M_Cfg M_Label M_Names M_Nav M_Num M_Tec M_Sat M_Main M_Run S_Main S_Obs2 W_Obs2 E_Obs2 E_Main P_Date P_Errors2 P_Show1 P_Show2 P_When E_Run.
Open Scope nat_scope.

Lemma e_lib_b64 : libm_b64 e_lib.
Proof.
  unfold e_lib, libm_b64. cbn [l_sin l_cos l_atan l_atan2 l_pow]. split; [intros; apply b64_valid|]. split; [intros; apply b64_valid|]. split; [exact (fun x H => H)|]. split.
  - intros y x Hy Hx. destruct (fdiv y x) as [v|] eqn:E; [exact (div_b64 y x v Hy Hx E)|exact Hy].
  - intros x n Hx. exact (mul_b64 x x Hx Hx).
Qed.
Lemma clean_written : exists ops, stopped_by w_clean (e_cfg true None) [] = None /\ snd (fst (main w_clean (e_cfg true None) [])) = [] ++ (a_name, ops) :: [] /\ rows_of (lit "G01") ops <> [].
Proof.
  destruct (main w_clean (e_cfg true None) []) as [[f l] e] eqn:E.
  assert (H : map (fun x => (fst x, Nat.ltb 0 (List.length (rows_of (lit "G01") (snd x))))) l = [(a_name, true)] /\ e = None).
  { assert (H : (let '((f, l), e) := main w_clean (e_cfg true None) [] in map (fun x => (fst x, Nat.ltb 0 (List.length (rows_of (lit "G01") (snd x))))) l = [(a_name, true)] /\ e = None)) by (vm_compute; auto).
    rewrite E in H. exact H. }
  clear E. destruct H as [H ->]. destruct l as [|[n ops] [|]]; [discriminate| |discriminate]. pose proof (f_equal (fun z => match z with [(_, b)] => b | _ => false end) H) as H1. pose proof (f_equal (fun z => match z with [(a, _)] => a | _ => [] end) H) as H2. clear H.
  change (Nat.ltb 0 (List.length (rows_of (lit "G01") ops)) = true) in H1. change (n = a_name) in H2. subst n. exists ops. split; [reflexivity|]. split; [reflexivity|].
  intros X. rewrite X in H1. discriminate H1.
Qed.
Lemma clean_text :
  option_map (fun s => firstn 37 (nth 7 (split_on (ascii_of_nat 10) s) [])) (fs_get g1_out (fst (fst (main w_clean (e_cfg true None) [])))) = Some (lit "# Position (X, Y, Z): 3928475.0, -0.1") /\
  option_map (fun s => nth 3 (split_on (ascii_of_nat 10) s) []) (fs_get g1_out (fst (fst (main w_clean (e_cfg true None) [])))) = Some (lit "# Interval: 30.0") /\
  show_val (VFloat (b64_of_dec false 1 (-1))) = lit "0.1" /\ show_val (VFloat (b64_of_dec true 123456789012345678 5)) = lit "-1.2345678901234568e+22".
Proof. repeat split; vm_compute; reflexivity. Qed.

(** ** dates *)
Ltac fix_fmt := repeat first [apply fx_end | apply fx_code with (k := 1); [reflexivity|] | apply fx_code with (k := 2); [reflexivity|] | apply fx_code with (k := 3); [reflexivity|] | apply fx_code with (k := 4); [reflexivity|]
  | apply fx_code with (k := 6); [reflexivity|] | apply fx_text; [discriminate|]].
Ltac use_fmt := repeat first [apply us_here | apply us_code | apply us_text; [discriminate|]].
Definition def_format : str := lit "%Y-%j %H:%M:%S".
Lemma def_fixed : fixed def_format 17.
Proof. apply (fx_code "Y" 4 _ 13); [reflexivity|]. apply fx_text; [discriminate|]. apply (fx_code "j" 3 _ 9); [reflexivity|]. apply fx_text; [discriminate|].
  apply (fx_code "H" 2 _ 6); [reflexivity|]. apply fx_text; [discriminate|]. apply (fx_code "M" 2 _ 3); [reflexivity|]. apply fx_text; [discriminate|]. apply (fx_code "S" 2 _ 0); [reflexivity|]. apply fx_end. Qed.
Definition iso_format : str := lit "%Y-%m-%dT%H:%M:%S".
Lemma iso_fixed : fixed iso_format 19.
Proof. apply (fx_code "Y" 4 _ 15); [reflexivity|]. apply fx_text; [discriminate|]. apply (fx_code "m" 2 _ 12); [reflexivity|]. apply fx_text; [discriminate|]. apply (fx_code "d" 2 _ 9); [reflexivity|]. apply fx_text; [discriminate|].
  apply (fx_code "H" 2 _ 6); [reflexivity|]. apply fx_text; [discriminate|]. apply (fx_code "M" 2 _ 3); [reflexivity|]. apply fx_text; [discriminate|]. apply (fx_code "S" 2 _ 0); [reflexivity|]. apply fx_end. Qed.
Lemma era y m d h mi s us : (1000 <=? y)%Z && dt_ok (mkDT y m d h mi s us) = true -> (y <= 9999)%Z -> common_era (mkDT y m d h mi s us).
Proof. intros H Hy. apply andb_prop in H. destruct H as [H1 H2]. apply Z.leb_le in H1. split; [apply valid_datetime_iff; exact H2|split; [exact H1|exact Hy]]. Qed.
Lemma when_example : let def := lit "%Y-%j %H:%M:%S" in let long := lit "%A, %d %B %Y, %H:%M:%S.%f" in
  documented def /\ to_second def /\ documented long /\ to_second long /\ uses "f" long /\ common_era (mkDT 2012 12 31 23 59 59 999999) /\
  strftime (fun _ => []) def (mkDT 2012 12 31 23 59 59 999999) = lit "2012-366 23:59:59" /\
  strftime (fun _ => []) long (mkDT 2012 12 31 23 59 59 999999) = lit "Monday, 31 December 2012, 23:59:59.999999".
Proof.
  cbv zeta. split; [exact (fixed_documented _ _ def_fixed)|]. split; [|split; [|split; [|split; [use_fmt|split; [apply era; [reflexivity|discriminate]|split; vm_compute; reflexivity]]]]].
  - split; [use_fmt|]. split; [left; use_fmt|]. split; [use_fmt|]. split; use_fmt.
  - repeat first [apply dc_end | apply dc_code; [first [left; discriminate | right; left; reflexivity | right; right; reflexivity]|] | apply dc_text; [discriminate|]].
  - split; [use_fmt|]. split; [right; split; [right; right; use_fmt|use_fmt]|]. split; [use_fmt|]. split; use_fmt.
Qed.

(** two records in one second *)
Definition obs_half : list str := ex_file (put_body [BData (t_at 0 0 0 0) 0 (ex_sats 1); BData (t_at 0 0 0 500000) 0 (ex_sats 1)]).
Definition w_half : world := e_world [("aaaa0010.12o", obs_half)]%string [("brdc0010.12n", g1_nav)]%string.
Definition def_cfg : cfg := mkCfg (lit "INFO") e_format [lit "/obs"] [lit "/nav"] (lit "/out") def_format [] [] [] true [] None.
Definition times (ops : list wop) : list datetime := map fst (rows_of (lit "G01") ops).
Lemma half_run : map (fun x => (fst x, times (snd x))) (snd (fst (main w_half def_cfg []))) = [(a_name, [t_at 0 0 0 0; t_at 0 0 0 500000])] /\ stopped_by w_half def_cfg [] = None.
Proof. vm_compute. auto. Qed.
Lemma subsecond : exists w c name ops a b, written w c [] name ops /\ stopped_by w c [] = None /\ c_dtformat c = lit "%Y-%j %H:%M:%S" /\
  map fst (rows_of (lit "G01") ops) = [a; b] /\ a <> b /\ oc_strftime (out_of w c) a = oc_strftime (out_of w c) b.
Proof.
  destruct half_run as [H Hs]. exists w_half, def_cfg, a_name. unfold written. revert H. generalize (snd (fst (main w_half def_cfg []))). intros l H. destruct l as [|[n ops] [|]]; [discriminate H| |discriminate H].
  pose proof (f_equal (fun z => match z with [(_, b)] => b | _ => [] end) H) as H1. pose proof (f_equal (fun z => match z with [(a, _)] => a | _ => [] end) H) as H2. clear H.
  change (times ops = [t_at 0 0 0 0; t_at 0 0 0 500000]) in H1. change (n = a_name) in H2. subst n.
  exists ops, (t_at 0 0 0 0), (t_at 0 0 0 500000). split; [now left|]. split; [exact Hs|]. split; [reflexivity|]. split; [exact H1|]. split; [discriminate|]. vm_compute. reflexivity.
Qed.
(** ** the width in the header *)
Definition env_at (t : datetime) : cfg_env := mkEnv (fun _ => Err ValueError) t (fun _ _ => []).
Lemma day_names_wide : exists e c t, read_cfg e (lit "datetimeFormat = '%A'" ++ [ascii_of_nat 10] ++ lit "recFields = 'datetime, el'" ++ [ascii_of_nat 10] ++ lit "navIgnoreAbsence = True") = Ok c /\ common_era (e_now e) /\ common_era t /\
  rf_fortran (c_format c) = lit "(A6,1X,F10.5)" /\ forall w, oc_strftime (out_of w c) t = lit "Wednesday".
Proof.
  exists (env_at (mkDT 2026 11 16 12 0 0 0)). eexists. exists (mkDT 2012 1 4 0 0 0 0). split; [vm_compute; reflexivity|]. split; [apply era; [reflexivity|discriminate]|]. split; [apply era; [reflexivity|discriminate]|].
  split; [reflexivity|]. intros w. vm_compute. reflexivity.
Qed.
Lemma width_example : exists e c, read_cfg e (lit "recFields = 'datetime, el'" ++ [ascii_of_nat 10] ++ lit "navIgnoreAbsence = True") = Ok c /\ common_era (e_now e) /\ fixed (c_dtformat c) 17 /\ rf_fortran (c_format c) = lit "(A17,1X,F10.5)".
Proof.
  exists (env_at (mkDT 2026 11 16 12 0 0 0)). eexists. split; [vm_compute; reflexivity|]. split; [apply era; [reflexivity|discriminate]|]. split; [exact def_fixed|reflexivity].
Qed.
