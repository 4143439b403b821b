(** Runs that differ in settings: examples, and the witness of the claim the code violates. *)
From Verif Require Import Base PyStr PyFloat PyDate PyPath PyRegex M_Common M_Header M_Obs2 M_Obs3 M_Label M_Rec M_Text M_Cfg M_Names M_Xyz M_Nav M_NmUtils M_Num M_Tec M_Sat M_Main M_Run.
From Verif Require Import S_Text S_Time S_Names S_Obs2 S_Open2 S_Obs3 S_Out W_Obs2 E_Obs2 E_Obs3 S_Label S_Main S_Fresh S_Settings E_Main E_Run.
Open Scope nat_scope.

(** the settings of the examples, but for the format, the directory for the results and navIgnoreAbsence *)
Definition format_of (fields : list string) : rec_format := match compose_rec_format 8 (map lit fields) with Ok f => f | Err _ => mkFormat [] [] [] end.
Definition s_cfg (fields : list string) (out : string) (ignore : bool) : cfg :=
  mkCfg (lit "INFO") (format_of fields) [lit "/obs"] [lit "/nav"] (lit out) (lit "%H") [] [] [] ignore [] None.
Definition f1 : list string := ["hour"; "el"; "tec.p1p2"]%string.
Definition f2 : list string := ["tec.l1l2"; "tec.p1p2"; "sat.x"; "datetime"]%string.
Lemma s_inputs a b o p i j : same_inputs (s_cfg a o i) (s_cfg b p j).
Proof. repeat split. Qed.
Definition values (x : quantity) (ops : list wop) : list (option pyval) := flat_map (fun op => match op with WRow _ _ _ _ q => [q x] | WPos _ _ _ => [] end) ops.
Definition column_of (x : quantity) (w : world) (c : cfg) : list (option pyval) := flat_map (fun y => values x (snd y)) (snd (fst (main w c []))).

Lemma set_runs : stopped_by w_ok (s_cfg f1 "/out" true) [] = None /\ stopped_by w_ok (s_cfg f2 "/out" true) [] = None /\ stopped_by w_ok (s_cfg f1 "/out" false) [] = None /\
  length (column_of QEl w_ok (s_cfg f1 "/out" true)) = 10 /\ length (column_of QEl w_ok (s_cfg f1 "/out" false)) = 8.
Proof. vm_compute. auto. Qed.
Lemma set_example : same_inputs (s_cfg f1 "/out" true) (s_cfg f2 "/out" true) /\ c_ignore (s_cfg f1 "/out" true) = c_ignore (s_cfg f2 "/out" true) /\
  stopped_by w_ok (s_cfg f1 "/out" true) [] = None /\ stopped_by w_ok (s_cfg f2 "/out" true) [] = None /\
  wanted (s_cfg f1 "/out" true) "p1p2" /\ wanted (s_cfg f2 "/out" true) "p1p2" /\ length (column_of (QTec "p1p2") w_ok (s_cfg f2 "/out" true)) = 10.
Proof.
  destruct set_runs as (H1 & H2 & _). split; [apply s_inputs|]. split; [reflexivity|]. split; [exact H1|]. split; [exact H2|].
  split; [split; [vm_compute; auto 10|discriminate]|]. split; [split; [vm_compute; auto 10|discriminate]|]. vm_compute. reflexivity.
Qed.
Lemma ignore_example : same_inputs (s_cfg f1 "/out" false) (s_cfg f1 "/out" true) /\ c_ignore (s_cfg f1 "/out" false) = false /\ c_ignore (s_cfg f1 "/out" true) = true /\
  stopped_by w_ok (s_cfg f1 "/out" false) [] = None /\ stopped_by w_ok (s_cfg f1 "/out" true) [] = None /\
  length (column_of QEl w_ok (s_cfg f1 "/out" true)) = 10 /\ length (column_of QEl w_ok (s_cfg f1 "/out" false)) = 8.
Proof. destruct set_runs as (H1 & H2 & H3 & H4 & H5). split; [apply s_inputs|]. auto 10. Qed.

(** tec.l8c8 of a Galileo satellite, with tec.l1c1 and without *)
Definition header8 : list str :=
  [pad60 "     3.02           OBSERVATION DATA    M: MIXED" "RINEX VERSION / TYPE"; put_pos ex_pos0; pad60 "E    2 C8Q L8Q" "SYS / # / OBS TYPES";
   pad60 "  2015     1     1     0     0    0.0000000     GPS" "TIME OF FIRST OBS"].
Definition e_sat : str * list field := (lit "E01", [FVal false 20000000000 0 7; FVal false 105123456 1 5]).
Definition file8 : list str := header8 ++ ex_eoh :: put_body3 [B3Data (t3 0 0 0 0) 0 [e_sat]; B3Data (t3 0 0 30 0) 0 [e_sat]].
Definition w_gal : world := e_world [("site0010.15o", file8)]%string [].
Definition f8 : list string := ["tec.l8c8"]%string.
Definition f81 : list string := ["tec.l8c8"; "tec.l1c1"]%string.
Lemma gal_none : column_of (QTec "l8c8") w_gal (s_cfg f8 "/out" true) = [None] /\ stopped_by w_gal (s_cfg f8 "/out" true) [] = None.
Proof. vm_compute. auto. Qed.
Lemma gal_some : exists x, column_of (QTec "l8c8") w_gal (s_cfg f81 "/out" true) = [Some (VFloat x)] /\ stopped_by w_gal (s_cfg f81 "/out" true) [] = None.
Proof. eexists. vm_compute. auto. Qed.
Definition shows8 (c : cfg) : list (str * list (datetime * option pyval)) :=
  map (fun x => (fst x, map (fun r => (fst r, snd r (QTec "l8c8"))) (rows_of (lit "E01") (snd x)))) (snd (fst (main w_gal c []))).
Definition gal_name : str := lit "/obs/site0010.15o".
Lemma gal_rows : shows8 (s_cfg f8 "/out" true) = [(gal_name, [(t3 0 0 30 0, None)])].
Proof. vm_compute. reflexivity. Qed.
Lemma gal_rows1 : exists x, shows8 (s_cfg f81 "/out" true) = [(gal_name, [(t3 0 0 30 0, Some x)])].
Proof. eexists. vm_compute. reflexivity. Qed.
Lemma shows8_row c t v : shows8 c = [(gal_name, [(t, v)])] -> exists ops q, written w_gal c [] gal_name ops /\ rows_of (lit "E01") ops = [(t, q)] /\ q (QTec "l8c8") = v.
Proof.
  unfold shows8, written. destruct (snd (fst (main w_gal c []))) as [|[nm ops] [|y l]]; [intros X; clear -X; discriminate| |intros X; clear -X; discriminate].
  cbn [map fst snd]. intros E. apply (f_equal (fun l => match l with [x] => x | _ => (nm, []) end)) in E. cbv beta iota in E.
  pose proof (f_equal fst E) as E1. pose proof (f_equal snd E) as E2. cbn [fst snd] in E1, E2. subst nm. exists ops.
  destruct (rows_of (lit "E01") ops) as [|[t' q] [|z r]]; [clear -E2; discriminate| |clear -E2; discriminate]. cbn [map fst snd] in E2.
  apply (f_equal (fun l => match l with [x] => x | _ => (t, v) end)) in E2. cbv beta iota in E2.
  pose proof (f_equal fst E2) as E3. pose proof (f_equal snd E2) as E4. cbn [fst snd] in E3, E4. exists q. split; [now left|]. split; [now rewrite E3|exact E4].
Qed.
Lemma format_matters : exists w c c' name ops ops' sat t q q', same_inputs c c' /\ c_ignore c = c_ignore c' /\ stopped_by w c [] = None /\ stopped_by w c' [] = None /\
  In (lit "tec.l8c8") (rf_fields (c_format c)) /\ In (lit "tec.l8c8") (rf_fields (c_format c')) /\
  written w c [] name ops /\ written w c' [] name ops' /\ rows_of sat ops = [(t, q)] /\ rows_of sat ops' = [(t, q')] /\
  q (QTec "l8c8") = None /\ q' (QTec "l8c8") <> None.
Proof.
  destruct gal_rows1 as [x G]. destruct (shows8_row _ _ _ gal_rows) as (ops & q & W & R & V), (shows8_row _ _ _ G) as (ops' & q' & W' & R' & V').
  exists w_gal, (s_cfg f8 "/out" true), (s_cfg f81 "/out" true), gal_name, ops, ops', (lit "E01"), (t3 0 0 30 0), q, q'.
  split; [apply s_inputs|]. split; [reflexivity|]. split; [exact (proj2 gal_none)|]. split; [destruct gal_some as [y [_ H]]; exact H|].
  split; [left; reflexivity|]. split; [left; reflexivity|]. split; [exact W|]. split; [exact W'|]. split; [exact R|]. split; [exact R'|]. split; [exact V|].
  rewrite V'. intros X; clear -X; discriminate.
Qed.

(** another directory for the results *)
Definition exists_in (p : string) (c : cfg) : bool := match fs_get (lit p) (fst (fst (main w_ok c []))) with Some _ => true | None => false end.
Lemma moved_example : same_inputs (s_cfg f1 "/out" true) (s_cfg f1 "/elsewhere/" true) /\ stopped_by w_ok (s_cfg f1 "/out" true) [] = None /\
  (exists ops, written w_ok (s_cfg f1 "/out" true) [] ok_name ops /\ length (rows_of (lit "G01") ops) = 4) /\ get_rinex_date ok_name = Some (2012, 1, 1)%Z /\
  result_file (lit "/elsewhere/") (marker_of ok_name) (lit "G01") (2012, 1, 1)%Z = lit "/elsewhere/2012/001/site/site_G01_001_12.dat" /\
  fs_get (lit "/elsewhere/2012/001/site/site_G01_001_12.dat") (fst (fst (main w_ok (s_cfg f1 "/elsewhere/" true) []))) <> None.
Proof.
  assert (H : map (fun x => (fst x, length (rows_of (lit "G01") (snd x)))) (snd (fst (main w_ok (s_cfg f1 "/out" true) []))) = [(ok_name, 4)]) by (vm_compute; reflexivity).
  split; [apply s_inputs|]. split; [exact (proj1 set_runs)|]. split.
  { unfold written. destruct (snd (fst (main w_ok (s_cfg f1 "/out" true) []))) as [|[nm ops] [|x r]]; [clear -H; discriminate| |clear -H; discriminate].
    cbn [map fst snd] in H. apply (f_equal (fun l => match l with [x] => x | _ => (nm, 0) end)) in H. cbv beta iota in H.
    pose proof (f_equal fst H) as E1. pose proof (f_equal snd H) as E2. cbn [fst snd] in E1, E2. subst nm. exists ops. split; [now left|exact E2]. }
  split; [vm_compute; reflexivity|]. split; [vm_compute; reflexivity|].
  assert (G : exists_in "/elsewhere/2012/001/site/site_G01_001_12.dat" (s_cfg f1 "/elsewhere/" true) = true) by (vm_compute; reflexivity).
  unfold exists_in in G. intros X. rewrite X in G. clear -G. discriminate.
Qed.
(** runs that count errors *)
Definition s_errors (c : cfg) : nat * option exn := let o := full_main false every w_bad c [] in (o_errors o, o_exn o).
Lemma set_errors : s_errors (s_cfg f1 "/out" true) = (2, None) /\ s_errors (s_cfg f2 "/elsewhere" true) = (2, None) /\ s_errors (s_cfg f1 "/out" false) = (2, None).
Proof. vm_compute. auto. Qed.
