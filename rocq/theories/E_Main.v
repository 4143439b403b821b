(** Runs over concrete files: examples, and witnesses of the claims the code violates. *)
From Coq Require Import Reals ZifyBool ZifyNat.
From Verif Require Import Base PyStr PyFloat PyDate PyPath PyRegex M_Common M_Header M_Obs2 M_Obs3 M_Label M_Rec M_Text M_Cfg M_Names M_Xyz M_Nav M_NmUtils M_Num M_Tec M_Sat M_Main.
From Verif Require Import S_Text S_Time S_Obs2 S_Open2 S_Obs3 S_Out W_Obs2 E_Obs2 E_Obs3 S_Main S_Fresh P_Open2 P_Prop2 P_Str P_Nav P_Main1 P_Main3 P_Main5 P_Main6 P_Main7 P_Main10.
Open Scope nat_scope.

(** a C library, directories and files *)
Definition e_lib : libm := mkLibm (fun _ => b64_of_dec false 5 (-1)) (fun _ => b64_of_dec false 75 (-2)) (fun x => x)
  (fun y x => match fdiv y x with Ok v => v | _ => y end) (fun x _ => fmul x x).
Definition of_files {A} (d : A) (l : list (string * A)) (p : str) : A :=
  match dict_get seqb p (map (fun x => (lit (fst x), snd x)) l) with Some x => x | None => d end.
Definition e_format : rec_format := match compose_rec_format 8 (map lit ["hour"; "el"; "az"; "tec.p1p2"; "site.x"]%string) with Ok f => f | Err _ => mkFormat [] [] [] end.
Definition e_cfg (ignore : bool) (iv : option Z) : cfg :=
  mkCfg (lit "INFO") e_format [lit "/obs"] [lit "/nav"] (lit "/out") (lit "%H") [] [] [] ignore [] iv.
Definition e_content (obs nav : list (string * list str)) : str -> res (list str) :=
  of_files (Err OSError) (map (fun x => (String.append "/obs/" (fst x), Ok (snd x))) obs ++ map (fun x => (String.append "/nav/" (fst x), Ok (snd x))) nav).
Definition e_world (obs nav : list (string * list str)) : world :=
  mkWorld e_lib 20 (of_files [] [("/obs", map (fun x => lit (fst x)) obs); ("/nav", map (fun x => lit (fst x)) nav)]%string)
    (e_content obs nav) (e_content obs nav) (e_content obs nav)
    (fun p => existsb (fun x => seqb p (lit "/obs/" ++ lit (fst x))) obs)
    (fun _ => lit "00") (lit "now").
Definition e_end : str := lit "                                                            END OF HEADER".
Definition blank4 : str := lit "   ".
(** an ephemeris of GPS with the square root of the semi-major axis, one of GLONASS with position (km) and channel *)
Definition gps_msg (prn axis : string) : list str :=
  [lit prn ++ lit " 12  1  1  0  0  0.0                0.0                0.0                0.0"; blank4; spaces 60 ++ lit axis; blank4; blank4; blank4; blank4; blank4].
Definition gps_nav (ms : list str) : list str := lit "     2.10           NAVIGATION DATA                         RINEX VERSION / TYPE" :: e_end :: ms.
Definition glo_msg (prn x y z ch : string) : list str :=
  [lit prn ++ lit " 12  1  1  0  0  0.0                0.0                0.0                0.0";
   blank4 ++ lit x ++ spaces 38; blank4 ++ lit y ++ spaces 38 ++ lit ch; blank4 ++ lit z ++ spaces 38].
Definition glo_nav (ms : list str) : list str := lit "     2.10           GLONASS NAV DATA                        RINEX VERSION / TYPE" :: e_end :: ms.
Definition nav2 : list (string * list str) :=
  [("brdc0010.12n", gps_nav (gps_msg " 1" " 5.153000000000D+03" ++ gps_msg " 2" " 5.150000000000D+03"));
   ("brdc0010.12g", glo_nav (glo_msg " 1" " 1.000000000000D+04" " 2.000000000000D+04" " 1.100000000000D+04" " 5.000000000000D+00"))]%string.

(** an observation file: GPS, GLONASS and a satellite of another system; the last epoch is of another day *)
Definition r_sat (n : nat) : str * list field := ("R"%char :: fmt_0d 2 (Z.of_nat n), ex_fields 5).
Definition j_sat : str * list field := (lit "J01", ex_fields 5).
Definition e_blocks : list block :=
  [BData (t_at 0 0 0 0) 0 (ex_sats 3 ++ [r_sat 1; j_sat]);
   BData (t_at 0 0 30 0) 0 (ex_sats 1);
   BData (t_at 0 1 0 0) 0 (ex_sats 2 ++ [r_sat 1]);
   BData (t_at 0 1 30 0) 0 (ex_sats 3);
   BData (mkDT 2012 1 2 0 0 0 0) 0 (ex_sats 3)].
Definition obs2 : list str := ex_file (put_body e_blocks).
Definition w_ok : world := e_world [("site0010.12o", obs2)]%string nav2.
(** satellite, minute, second, elevation of the rows; the positions are left out *)
Definition rows (ops : list wop) : list (str * Z * Z * option pyval) :=
  flat_map (fun op => match op with WRow s _ _ t q => [(s, dmi t, ds t, q QEl)] | WPos _ _ _ => [] end) ops.
Definition zero_rows (ops : list wop) : list (str * Z * Z) :=
  flat_map (fun r => match r with (s, m, x, Some (VFloat (S754_zero false))) => [(s, m, x)] | _ => [] end) (rows ops).
Definition names (ops : list wop) : list (str * Z * Z) := map fst (rows ops).
Definition run (w : world) (c : cfg) : list (str * list (str * Z * Z) * list (str * Z * Z)) * option exn :=
  let '(_, l, e) := main w c [] in (map (fun x => (fst x, names (snd x), zero_rows (snd x))) l, e).
Lemma run_written w c name ns zs : In (name, ns, zs) (fst (run w c)) -> exists ops, written w c [] name ops /\ names ops = ns /\ zero_rows ops = zs.
Proof.
  unfold run, written. destruct (main w c []) as [[f l] e]. cbn [fst snd]. intros H. apply in_map_iff in H. destruct H as [[nm ops] [E Hin]].
  cbn [fst snd] in E. injection E as <- <- <-. eauto.
Qed.
Lemma run_all w c name ops : written w c [] name ops -> In (name, names ops, zero_rows ops) (fst (run w c)).
Proof.
  unfold run, written. destruct (main w c []) as [[f l] e]. cbn [fst snd]. intros H. apply in_map_iff. exists (name, ops). auto.
Qed.
Lemma run_stopped w c : stopped_by w c [] = snd (run w c).
Proof. unfold run, stopped_by. destruct (main w c []) as [[f l] e]. reflexivity. Qed.
Lemma names_in sat sd nav t q ops : In (WRow sat sd nav t q) ops -> In (sat, dmi t, ds t) (names ops).
Proof.
  unfold names, rows. induction ops as [|o r IH]; [intros []|]. intros [->|H]; cbn [flat_map map app]; [now left|].
  rewrite map_app. apply in_or_app. right. auto.
Qed.
Lemma names_row sat m x ops : In (sat, m, x) (names ops) -> exists sd nav t q, In (WRow sat sd nav t q) ops /\ dmi t = m /\ ds t = x.
Proof.
  unfold names, rows. induction ops as [|o r IH]; [intros []|]. cbn [flat_map]. rewrite map_app. intros H. apply in_app_or in H. destruct H as [H|H].
  - destruct o as [t p l|s sd nav t q]; [destruct H|]. destruct H as [E|[]]. injection E as <- <- <-. exists sd, nav, t, q. split; [now left|auto].
  - destruct (IH H) as [sd [nav [t [q [Hin E]]]]]. exists sd, nav, t, q. split; [now right|exact E].
Qed.
Lemma names_ne ops : names ops <> [] -> ops <> [].
Proof. intros H ->. now apply H. Qed.
(** an opened file *)
Definition the_obs (w : world) (name : str) : obs := match open_obs w name with Ok b => b | Err _ => mkObs [] None hdr0 [] GStop end.
Lemma the_obs_ok w name : match open_obs w name with Ok _ => true | Err _ => false end = true -> open_obs w name = Ok (the_obs w name).
Proof. unfold the_obs. destruct (open_obs w name); [reflexivity|discriminate]. Qed.
Lemma interval_ok b d : h_interval (b_hdr b) = Some (PFloat (total_seconds d)) -> (Z.abs d < 2 ^ 52)%Z -> interval_is b d.
Proof. intros H Hd. split; [exact Hd|]. right. exists (total_seconds d). split; [exact H|]. apply total_seconds_nearest. apply span_big. exact Hd. Qed.

(** ** the first world *)
Definition ok_name : str := lit "/obs/site0010.12o".
Definition n3 (s : string) (m x : Z) : str * Z * Z := (lit s, m, x).
Lemma ok_run : run w_ok (e_cfg false None) =
  ([(ok_name, [n3 "G01" 0 0; n3 "G02" 0 0; n3 "R01" 0 0; n3 "G01" 0 30; n3 "G01" 1 0; n3 "G02" 1 0; n3 "G01" 1 30; n3 "G02" 1 30], [])], None).
Proof. vm_compute. reflexivity. Qed.
Lemma ok_run_ignore : run w_ok (e_cfg true None) =
  ([(ok_name, [n3 "G01" 0 0; n3 "G02" 0 0; n3 "G03" 0 0; n3 "R01" 0 0; n3 "G01" 0 30; n3 "G01" 1 0; n3 "G02" 1 0; n3 "G01" 1 30; n3 "G02" 1 30; n3 "G03" 1 30],
     [n3 "G03" 0 0; n3 "G03" 1 30])], None).
Proof. vm_compute. reflexivity. Qed.
Lemma ok_run_sampled : run w_ok (e_cfg true (Some 60000000%Z)) =
  ([(ok_name, [n3 "G01" 0 0; n3 "G02" 0 0; n3 "G03" 0 0; n3 "R01" 0 0; n3 "G01" 1 0; n3 "G02" 1 0], [n3 "G03" 0 0])], None).
Proof. vm_compute. reflexivity. Qed.
Lemma ok_open : open_obs w_ok ok_name = Ok (the_obs w_ok ok_name).
Proof. apply the_obs_ok. vm_compute. reflexivity. Qed.
Lemma ok_interval : interval_is (the_obs w_ok ok_name) 30000000.
Proof. apply interval_ok; [vm_compute; reflexivity|lia]. Qed.
Lemma ok_thins : thins (e_cfg true (Some 60000000%Z)) (the_obs w_ok ok_name) 60000000.
Proof. split; [reflexivity|]. split; [discriminate|]. split; [lia|]. exists 30000000%Z. split; [exact ok_interval|lia]. Qed.
Lemma ok_used c : match c_sampling c with Some iv => (Z.abs iv < 2 ^ 52)%Z | None => True end -> exists kept, used c (the_obs w_ok ok_name) kept.
Proof. intros H. exact (used_exists w_ok c _ _ (open_obs_dated w_ok ok_name _ ok_open) ok_interval H). Qed.

(** positions can always be computed there *)
Lemma incomputable_fresh w c t sys n : incomputable w c t sys n -> exists f m, fresh_nav w c t sys = Ok (f, m) /\ fresh_sat w t sys n m = Ok None.
Proof.
  intros [dt [eph [e [He [Hm Ha]]]]]. inversion He as [|f sats x Hn Hs]; subst. inversion Hn as [f' m sats' Hl Hd|]; subst.
  exists (Some f), (Some sats). unfold fresh_nav, fresh_sat. rewrite Hl, Hd. split; [reflexivity|]. rewrite Hs. cbn [bind]. rewrite Hm.
  destruct Ha as [-> | ->]; reflexivity.
Qed.
Definition computable_b (w : world) (c : cfg) (s : step) : bool :=
  match record_ident s with
  | Ok (t, sys, n) => match fresh_nav w c t sys with Ok (f, m) => match fresh_sat w t sys n m with Ok None => false | _ => true end | Err _ => true end
  | Err _ => true
  end.
Lemma computable_b_ok w c s t sys n : computable_b w c s = true -> identifies s t sys n -> ~ incomputable w c t sys n.
Proof.
  intros H Hi Hc. apply ident_iff in Hi. destruct (incomputable_fresh w c t sys n Hc) as [f [m [Hf Hs]]].
  unfold computable_b in H. rewrite Hi, Hf, Hs in H. discriminate.
Qed.
Lemma empty_no_obs w name : w_content w name = Err OSError -> exists e, open_obs w name = Err e.
Proof.
  intros H. unfold open_obs. destruct (expand_plan name) as [p|e]; cbn [bind]; [|eauto]. rewrite H. cbn [bind]. eauto.
Qed.
Lemma ok_inv {A} (r : res A) (x y : A) : r = Ok x -> r = Ok y -> y = x.
Proof. intros -> E. now injection E. Qed.
Lemma err_inv {A} (r : res A) e (y : A) : r = Err e -> r = Ok y -> False.
Proof. intros -> E. discriminate. Qed.
Lemma ok_computable ignore : always_computable w_ok (e_cfg ignore None).
Proof.
  intros name b s t sys n Ho Hin Hi _.
  assert (Hn : name = ok_name).
  { destruct (seqb name ok_name) eqn:E; [now apply seqb_eq|]. exfalso.
    destruct (seqb name (lit "/nav/brdc0010.12n")) eqn:E1.
    { apply seqb_eq in E1. subst name. apply (err_inv _ UncompressError b) in Ho; [exact Ho|vm_compute; reflexivity]. }
    destruct (seqb name (lit "/nav/brdc0010.12g")) eqn:E2.
    { apply seqb_eq in E2. subst name. apply (err_inv _ UncompressError b) in Ho; [exact Ho|vm_compute; reflexivity]. }
    assert (Hc : w_content w_ok name = Err OSError).
    { unfold w_ok, e_world, e_content. cbn [w_content]. unfold of_files. cbn [map app nav2 fst snd String.append dict_get].
      change (lit "/obs/site0010.12o") with ok_name. rewrite E, E1, E2. reflexivity. }
    destruct (empty_no_obs w_ok name Hc) as [e H]; exact (err_inv _ _ b H Ho). }
  subst name. rewrite (ok_inv _ _ _ ok_open Ho) in Hin. clear Ho b.
  assert (Hall : forallb (computable_b w_ok (e_cfg ignore None)) (b_steps (the_obs w_ok ok_name)) = true) by (destruct ignore; vm_compute; reflexivity).
  rewrite forallb_forall in Hall. exact (computable_b_ok _ _ _ _ _ _ (Hall s Hin) Hi).
Qed.

(** ** no navigation files: the first record of a system is lost *)
Definition w_nonav : world := e_world [("site0010.12o", obs2)]%string [].
Lemma nonav_run : run w_nonav (e_cfg true None) =
  ([(ok_name, [n3 "G02" 0 0; n3 "G03" 0 0; n3 "G01" 0 30; n3 "G01" 1 0; n3 "G02" 1 0; n3 "G01" 1 30; n3 "G02" 1 30; n3 "G03" 1 30],
     [n3 "G02" 0 0; n3 "G03" 0 0; n3 "G01" 0 30; n3 "G01" 1 0; n3 "G02" 1 0; n3 "G01" 1 30; n3 "G02" 1 30; n3 "G03" 1 30])], None).
Proof. vm_compute. reflexivity. Qed.
Lemma nonav_open : open_obs w_nonav ok_name = Ok (the_obs w_nonav ok_name).
Proof. apply the_obs_ok. vm_compute. reflexivity. Qed.
Lemma hd_step (l : list step) sat ep : hd_error (map (fun s => (s_sat s, s_epoch s)) l) = Some (sat, ep) -> exists s after, l = s :: after /\ s_sat s = sat /\ s_epoch s = ep.
Proof. destruct l as [|s after]; [discriminate|]. cbn [map hd_error]. intros E. injection E as E1 E2. exists s, after. auto. Qed.
Lemma first_lost : exists w c name ops b s after t sys n, written w c [] name ops /\ ops <> [] /\ stopped_by w c [] = None /\
  open_obs w name = Ok b /\ used c b (s :: after) /\ identifies s t sys n /\ usable (b_date b) s /\
  unlocated w c t sys n /\ c_ignore c = true /\ sys <> "R"%char /\ forall sd nav q, ~ In (WRow (s_sat s) sd nav t q) ops.
Proof.
  destruct (run_written w_nonav (e_cfg true None) ok_name _ _ ltac:(rewrite nonav_run; left; reflexivity)) as [ops [Hw [Hn _]]].
  assert (Hh : hd_error (map (fun s => (s_sat s, s_epoch s)) (b_steps (the_obs w_nonav ok_name))) = Some (lit "G01", Some (t_at 0 0 0 0))) by (vm_compute; reflexivity).
  apply hd_step in Hh. pose proof nonav_open as Hop. assert (Hdt : b_date (the_obs w_nonav ok_name) = Some (dt_date (t_at 0 0 0 0))) by (vm_compute; reflexivity).
  generalize dependent (the_obs w_nonav ok_name). intros b Hh Hop Hdt.
  destruct Hh as [s [after [Es [Hsat Hep]]]].
  assert (Hi : identifies s (t_at 0 0 0 0) "G" 1). { split; [exact Hep|]. exists (lit "01"). split; [exact Hsat|reflexivity]. }
  exists w_nonav, (e_cfg true None), ok_name, ops, b, s, after, (t_at 0 0 0 0), "G"%char, 1%Z.
  split; [exact Hw|]. split; [apply names_ne; rewrite Hn; discriminate|]. split; [rewrite run_stopped, nonav_run; reflexivity|].
  split; [exact Hop|]. split; [left; split; [left; reflexivity|symmetry; exact Es]|]. split; [exact Hi|].
  split. { exists (t_at 0 0 0 0), "G"%char, 1%Z. split; [exact Hi|]. split; [left; reflexivity|exact Hdt]. }
  split. { apply eph_no_file. apply (nav_missing _ _ _ _ NMError); [vm_compute; reflexivity|right; reflexivity]. }
  split; [reflexivity|]. split; [intros X; clear -X; discriminate|]. intros sd nav q Hin. apply names_in in Hin. rewrite Hsat, Hn in Hin. cbn in Hin.
  repeat (destruct Hin as [E|Hin]; [clear -E; discriminate|]). exact Hin.
Qed.

(** ** an ephemeris whose position cannot be computed, and two sites with the same observations *)
Definition obs_g1 : list str := ex_file (put_body [BData (t_at 0 0 0 0) 0 (ex_sats 1); BData (t_at 0 0 30 0) 0 (ex_sats 1)]).
Definition w_zero : world := e_world [("aaaa0010.12o", obs_g1); ("bbbb0010.12o", obs_g1)]%string [("brdc0010.12n", gps_nav (gps_msg " 1" ""))]%string.
Lemma zero_run : run w_zero (e_cfg true None) =
  ([(lit "/obs/aaaa0010.12o", [], []); (lit "/obs/bbbb0010.12o", [n3 "G01" 0 0; n3 "G01" 0 30], [n3 "G01" 0 0; n3 "G01" 0 30])], None).
Proof. vm_compute. reflexivity. Qed.
Definition shown (x : str * list wop) : str * list (str * Z * Z) := (fst x, names (snd x)).
Lemma zero_shown : map shown (snd (fst (main w_zero (e_cfg true None) []))) =
  [(lit "/obs/aaaa0010.12o", []); (lit "/obs/bbbb0010.12o", [n3 "G01" 0 0; n3 "G01" 0 30])].
Proof. vm_compute. reflexivity. Qed.
Lemma zero_fresh : map shown (snd (fst (fresh_main w_zero (e_cfg true None) []))) = [(lit "/obs/aaaa0010.12o", []); (lit "/obs/bbbb0010.12o", [])].
Proof. vm_compute. reflexivity. Qed.
Lemma shown_differ (r r' : fs * list (str * list wop) * option exn) l l' : map shown (snd (fst r)) = l -> map shown (snd (fst r')) = l' -> l <> l' -> r <> r'.
Proof. intros H H' Hn ->. apply Hn. rewrite <- H, <- H'. reflexivity. Qed.
Lemma zero_content : w_content w_zero (lit "/obs/aaaa0010.12o") = w_content w_zero (lit "/obs/bbbb0010.12o").
Proof. vm_compute. reflexivity. Qed.
Lemma cache_seen : exists w c a b opsa opsb, a <> b /\ w_content w a = w_content w b /\ written w c [] a opsa /\ written w c [] b opsb /\
  stopped_by w c [] = None /\ main w c [] <> fresh_main w c [] /\
  (forall sat sd nav t q, ~ In (WRow sat sd nav t q) opsa) /\ exists sat sd nav t q, In (WRow sat sd nav t q) opsb.
Proof.
  destruct (run_written w_zero (e_cfg true None) (lit "/obs/aaaa0010.12o") _ _ ltac:(rewrite zero_run; left; reflexivity)) as [opsa [Ha [Hna _]]].
  destruct (run_written w_zero (e_cfg true None) (lit "/obs/bbbb0010.12o") _ _ ltac:(rewrite zero_run; right; left; reflexivity)) as [opsb [Hb [Hnb _]]].
  exists w_zero, (e_cfg true None), (lit "/obs/aaaa0010.12o"), (lit "/obs/bbbb0010.12o"), opsa, opsb.
  split; [intros X; clear -X; discriminate|]. split; [exact zero_content|]. split; [exact Ha|]. split; [exact Hb|]. split; [rewrite run_stopped, zero_run; reflexivity|].
  split; [apply (shown_differ _ _ _ _ zero_shown zero_fresh); intros X; clear -X; discriminate|].
  split.
  - intros sat sd nav t q Hin. apply names_in in Hin. rewrite Hna in Hin. exact Hin.
  - destruct (names_row (lit "G01") 0 0 opsb) as [sd [nav [t [q [Hin _]]]]]; [rewrite Hnb; left; reflexivity|]. exists (lit "G01"), sd, nav, t, q. exact Hin.
Qed.

(** ** a RINEX 3 file with an epoch line that cannot be read stops the run *)
Definition file_junk : list str := file3 (put_body3 good3 ++ [junk_date; put_sat3 (g_sat 1 0)]).
Definition w_junk : world := e_world [("aaaa0010.15o", file_junk); ("bbbb0010.12o", obs2)]%string nav2.
Definition w_rest : world := e_world [("bbbb0010.12o", obs2)]%string nav2.
Lemma junk_run : run w_junk (e_cfg true None) = ([(lit "/obs/aaaa0010.15o", [n3 "G01" 0 30], [n3 "G01" 0 30])], Some AttributeError).
Proof. vm_compute. reflexivity. Qed.
Lemma rest_run : exists ns zs, run w_rest (e_cfg true None) = ([(lit "/obs/bbbb0010.12o", ns, zs)], None) /\ length ns = 10.
Proof. eexists _, _. split; [vm_compute; reflexivity|reflexivity]. Qed.
Lemma junk_stops : exists w w' c bad name ops, 
  find_files (w_ls w) (c_obsdir c) RE_OBS = [bad; name] /\ find_files (w_ls w') (c_obsdir c) RE_OBS = [name] /\ w_content w name = w_content w' name /\
  stopped_by w c [] = Some AttributeError /\ (forall ops', ~ written w c [] name ops') /\
  stopped_by w' c [] = None /\ written w' c [] name ops /\ length (names ops) = 10.
Proof.
  destruct rest_run as [ns [zs [R L]]].
  destruct (run_written w_rest (e_cfg true None) (lit "/obs/bbbb0010.12o") ns zs ltac:(rewrite R; left; reflexivity)) as [ops [Hw [Hn _]]].
  exists w_junk, w_rest, (e_cfg true None), (lit "/obs/aaaa0010.15o"), (lit "/obs/bbbb0010.12o"), ops.
  split; [vm_compute; reflexivity|]. split; [vm_compute; reflexivity|]. split; [reflexivity|]. split; [rewrite run_stopped, junk_run; reflexivity|].
  split. { intros ops' H. apply run_all in H. rewrite junk_run in H. destruct H as [E|[]]. apply (f_equal (fun x => fst (fst x))) in E. clear -E. discriminate. }
  split; [rewrite run_stopped, R; reflexivity|]. split; [exact Hw|]. rewrite Hn. exact L.
Qed.

(** a file that cannot be opened among good ones *)
Definition w_bad : world := e_world [("aaaa0010.12o", [lit "no RINEX file"]); ("site0010.12o", obs2)]%string nav2.
Lemma bad_open : open_obs w_bad (lit "/obs/aaaa0010.12o") = Err RinexError.
Proof. vm_compute. reflexivity. Qed.
Lemma bad_names : sort_str (find_files (w_ls w_bad) (c_obsdir (e_cfg true None)) RE_OBS) = [lit "/obs/aaaa0010.12o"; ok_name].
Proof. vm_compute. reflexivity. Qed.

(** ** a site that moves: header, event, coordinates file *)
Definition w_site : world := e_world [("aaaa0010.15o", file3 (put_body3 twice3)); ("aaaa0010.15o.xyz", [lit "2015-01-01 00:01:00 1.5 2.5 3.5"])]%string
  [("brdc0010.15n", gps_nav ((lit " 1 15  1  1  0  0  0.0                0.0                0.0                0.0") :: tl (gps_msg " 1" " 5.153000000000D+03")))]%string.
Definition site_rows (w : world) (c : cfg) : list (option pyval) :=
  flat_map (fun x => flat_map (fun op => match op with WRow _ _ _ _ q => [q (QSite "x")] | _ => [] end) (snd x)) (snd (fst (main w c []))).
Lemma site_moves : site_rows w_site (e_cfg true None) = map (fun x => Some (VFloat x)) [b64_of_dec false 39284750000 (-4); b64_of_dec false 11110000 (-4); b64_of_dec false 15 (-1)].
Proof. vm_compute. reflexivity. Qed.


(** ** more of the first world *)
Lemma rows_names ops : length (rows_only ops) = length (names ops).
Proof.
  unfold names, rows, rows_only. induction ops as [|o r IH]; [reflexivity|]. cbn [filter flat_map]. rewrite map_app, app_length, <- IH. destruct o; reflexivity.
Qed.
Lemma ok_others : exists ops b, written w_ok (e_cfg true None) [] ok_name ops /\ open_obs w_ok ok_name = Ok b /\ rows_only ops <> [] /\
  (exists s t, In s (b_steps b) /\ s_epoch s = Some t /\ get_rinex_date ok_name <> Some (dt_date t)) /\ exists s, In s (b_steps b) /\ s_sat s = lit "J01".
Proof.
  destruct (run_written w_ok (e_cfg true None) ok_name _ _ ltac:(rewrite ok_run_ignore; left; reflexivity)) as [ops [Hw [Hn _]]].
  exists ops, (the_obs w_ok ok_name). split; [exact Hw|]. split; [exact ok_open|]. split.
  { intros E. pose proof (rows_names ops) as H. rewrite E, Hn in H. clear -H. discriminate. }
  assert (H1 : nth_error (map (fun s => (s_sat s, s_epoch s)) (b_steps (the_obs w_ok ok_name))) 4 = Some (lit "J01", Some (t_at 0 0 0 0))) by (vm_compute; reflexivity).
  assert (H2 : nth_error (map (fun s => (s_sat s, s_epoch s)) (b_steps (the_obs w_ok ok_name))) 12 = Some (lit "G01", Some (mkDT 2012 1 2 0 0 0 0))) by (vm_compute; reflexivity).
  generalize dependent (b_steps (the_obs w_ok ok_name)). intros l H1 H2.
  apply nth_error_In, in_map_iff in H1. apply nth_error_In, in_map_iff in H2. destruct H1 as [s1 [E1 I1]], H2 as [s2 [E2 I2]].
  injection E1 as E1 _. injection E2 as _ E2. split; [|exists s1; split; [exact I1|exact E1]]. exists s2, (mkDT 2012 1 2 0 0 0 0). split; [exact I2|]. split; [exact E2|].
  clear. intros E. vm_compute in E. discriminate.
Qed.
Lemma ok_account : exists ops b kept, written w_ok (e_cfg false None) [] ok_name ops /\ ops <> [] /\ open_obs w_ok ok_name = Ok b /\
  used (e_cfg false None) b kept /\ length kept = 15 /\ length (rows_only ops) = 8.
Proof.
  assert (Hl : length (b_steps (the_obs w_ok ok_name)) = 15) by (vm_compute; reflexivity). pose proof ok_open as Ho.
  destruct (run_written w_ok (e_cfg false None) ok_name _ _ ltac:(rewrite ok_run; left; reflexivity)) as [ops [Hw [Hn _]]].
  generalize dependent (the_obs w_ok ok_name). intros b Hl Ho. exists ops, b, (b_steps b). split; [exact Hw|].
  split; [apply names_ne; rewrite Hn; intros X; clear -X; discriminate|]. split; [exact Ho|].
  split; [left; split; [left; reflexivity|reflexivity]|]. split; [exact Hl|]. rewrite rows_names, Hn. reflexivity.
Qed.
Lemma ok_files : exists ops, stopped_by w_ok (e_cfg true None) [] = None /\ snd (fst (main w_ok (e_cfg true None) [])) = [] ++ (ok_name, ops) :: [] /\
  length (rows_of (lit "G01") ops) = 4 /\ result_file (lit "/out") (marker_of ok_name) (lit "G01") (2012, 1, 1)%Z = lit "/out/2012/001/site/site_G01_001_12.dat".
Proof.
  assert (H : map (fun x => (fst x, length (rows_of (lit "G01") (snd x)))) (snd (fst (main w_ok (e_cfg true None) []))) = [(ok_name, 4)]) by (vm_compute; reflexivity).
  assert (Hs : stopped_by w_ok (e_cfg true None) [] = None) by (rewrite run_stopped, ok_run_ignore; reflexivity).
  destruct (snd (fst (main w_ok (e_cfg true None) []))) as [|[nm ops] [|x r]]; [clear -H; discriminate| |clear -H; discriminate].
  cbn [map fst snd] in H. injection H as -> H. exists ops. split; [exact Hs|]. split; [reflexivity|]. split; [exact H|]. vm_compute. reflexivity.
Qed.

(** ** the positions announced *)
Fixpoint ascends (x : Z) (l : list (option datetime)) : bool :=
  match l with [] => true | None :: r => ascends x r | Some t :: r => (x <=? instant t)%Z && ascends (instant t) r end.
Lemma ascends_ge l : forall x, ascends x l = true -> forall t, In (Some t) l -> (x <= instant t)%Z.
Proof.
  induction l as [|[u|] l IH]; intros x; cbn [ascends]; [intros _ ? []| |intros H t [E|Hin]; [discriminate|exact (IH x H t Hin)]].
  intros H. apply andb_prop in H. destruct H as [H1 H2]. apply Z.leb_le in H1. intros t [E|Hin]; [now injection E as ->|]. specialize (IH _ H2 t Hin). lia.
Qed.
Lemma ascends_order l : forall x, ascends x l = true -> forall pre t post t', l = pre ++ Some t :: post -> In (Some t') post -> (instant t <= instant t')%Z.
Proof.
  induction l as [|o l IH]; intros x H pre t post t' E Hin; [destruct pre; discriminate|]. destruct pre as [|p pre]; cbn [app] in E; injection E as -> ->.
  - cbn [ascends] in H. apply andb_prop in H. exact (ascends_ge _ _ (proj2 H) t' Hin).
  - destruct p as [u|]; cbn [ascends] in H; [apply andb_prop in H; exact (IH _ (proj2 H) pre t post t' eq_refl Hin)|exact (IH _ H pre t post t' eq_refl Hin)].
Qed.
Lemma order_check b t0 ts : h_tofo (b_hdr b) = Some (t0, ts) -> ascends (instant t0) (map s_epoch (b_steps b)) = true -> in_order b.
Proof.
  intros Ht H. split.
  - intros t1 ts1 s t Ht1 Hs _ He. rewrite Ht in Ht1. injection Ht1 as <- <-. apply (ascends_ge _ _ H). rewrite <- He. now apply in_map.
  - intros pre s post s' t t' E Hin _ _ He He'. apply (ascends_order _ _ H (map s_epoch pre) t (map s_epoch post) t').
    + rewrite E, map_app. cbn [map]. now rewrite He.
    + rewrite <- He'. now apply in_map.
Qed.
(** what is written, without the quantities: positions (time, x) and rows (satellite, x of the site) *)
Definition calls (ops : list wop) : list (datetime * float + str * option pyval) :=
  map (fun op => match op with WPos t (x, _, _) _ => inl (t, x) | WRow sat _ _ _ q => inr (sat, q (QSite "x")) end) ops.
Definition site_name : str := lit "/obs/aaaa0010.15o".
Definition x0 : float := b64_of_dec false 39284750000 (-4).
Definition x1 : float := b64_of_dec false 11110000 (-4).
Lemma site_calls : map (fun x => (fst x, calls (snd x))) (snd (fst (main w_site (e_cfg true None) []))) =
  [(site_name, [inl (t3 0 0 0 0, x0); inr (lit "G01", Some (VFloat x0)); inl (t3 0 0 30 0, x1); inr (lit "G01", Some (VFloat x1));
                inl (t3 0 1 0 0, b64_of_dec false 15 (-1)); inr (lit "G01", Some (VFloat (b64_of_dec false 15 (-1))))])] /\
  stopped_by w_site (e_cfg true None) [] = None.
Proof. vm_compute. split; reflexivity. Qed.
Lemma site_order : exists b, open_obs w_site site_name = Ok b /\ in_order b.
Proof.
  assert (H : open_obs w_site site_name = Ok (the_obs w_site site_name)) by (apply the_obs_ok; vm_compute; reflexivity).
  exists (the_obs w_site site_name). split; [exact H|]. apply (order_check _ (t3 0 0 0 0) (lit "GPS")); vm_compute; reflexivity.
Qed.
Lemma calls_split ops : forall before o after, calls ops = before ++ o :: after -> exists b x a, ops = b ++ x :: a /\ calls b = before /\ calls [x] = [o].
Proof.
  induction ops as [|x ops IH]; intros before o after E; [destruct before; discriminate|]. destruct before as [|y before]; cbn [calls map app] in E; injection E as E1 E2.
  - exists [], x, ops. split; [reflexivity|]. split; [reflexivity|]. cbn. now rewrite E1.
  - destruct (IH before o after E2) as [b [z [a [-> [H1 H2]]]]]. exists (x :: b), z, a. split; [reflexivity|]. split; [cbn [calls map]; unfold calls in H1; now rewrite H1, E1|exact H2].
Qed.

(** the header gives a time after that of the records *)
Definition late3 : list block3 :=
  [B3Data (t3 0 0 0 0) 0 [g_sat 1 0]; B3Event 4 [put_pos ex_pos1] (Some ex_pos1); B3Data (t3 0 0 30 0) 0 [g_sat 2 7]].
Definition header_late : list str :=
  firstn 5 header3 ++ [pad60 "  2015     1     1    12     0    0.0000000     GPS" "TIME OF FIRST OBS"].
Definition file_late : list str := header_late ++ ex_eoh :: put_body3 late3.
Definition w_late : world := e_world [("aaaa0010.15o", file_late)]%string
  [("brdc0010.15n", gps_nav ((lit " 1 15  1  1  0  0  0.0                0.0                0.0                0.0") :: tl (gps_msg " 1" " 5.153000000000D+03")))]%string.
Lemma late_calls : map (fun x => (fst x, calls (snd x))) (snd (fst (main w_late (e_cfg true None) []))) =
  [(site_name, [inl (t3 12 0 0 0, x0); inr (lit "G01", Some (VFloat x0)); inl (t3 0 0 30 0, x1); inr (lit "G02", Some (VFloat x1))])] /\
  stopped_by w_late (e_cfg true None) [] = None.
Proof. vm_compute. split; reflexivity. Qed.
Lemma late_wrong : exists w c name ops before sat sd nav t q after t1 p l site lbh, written w c [] name ops /\ stopped_by w c [] = None /\
  ops = before ++ WRow sat sd nav t q :: after /\ rows_of sat before = [] /\ newest (t1, p, l) (announced before) /\ shows_site q site lbh /\ ~ same_place site p.
Proof.
  destruct late_calls as [H Hs]. assert (Hw : forall nm os, In (nm, os) (snd (fst (main w_late (e_cfg true None) []))) -> written w_late (e_cfg true None) [] nm os) by (intros; assumption).
  destruct (snd (fst (main w_late (e_cfg true None) []))) as [|[nm ops] [|y r]]; [clear -H; discriminate| |clear -H; discriminate].
  cbn [map fst snd] in H. injection H as -> H. specialize (Hw site_name ops (or_introl eq_refl)).
  change (calls ops = [inl (t3 12 0 0 0, x0); inr (lit "G01", Some (VFloat x0)); inl (t3 0 0 30 0, x1)] ++ inr (lit "G02", Some (VFloat x1)) :: []) in H.
  destruct (calls_split _ _ _ _ H) as [before [x [after [E [Hb Hx]]]]].
  destruct x as [t [[a1 a2] a3] l|sat sd nav t q]; [clear -Hx; discriminate|]. cbn [calls map] in Hx. injection Hx as -> Hq.
  destruct before as [|[ta [[a1 a2] a3] la|? ? ? ? ?] [|[? [[? ?] ?] ?|sb db nb tb qb] [|[tc [[c1 c2] c3] lc|? ? ? ? ?] [|z before]]]]; cbn [calls map] in Hb; try (clear -Hb; discriminate).
  injection Hb as -> -> -> Hqb -> ->.
  destruct (row_site w_late (e_cfg true None) [] site_name ops Hw (lit "G02") sd nav t q ltac:(rewrite E; apply in_or_app; right; left; reflexivity))
    as [b [s [xyzs [site [lbh [_ [_ [_ [_ [_ [_ [_ [Hsh _]]]]]]]]]]]]].
  exists w_late, (e_cfg true None), site_name, ops. eexists. exists (lit "G02"), sd, nav, t, q, after, (t3 12 0 0 0), (x0, a2, a3), la, site, lbh.
  split; [exact Hw|]. split; [exact Hs|]. split; [exact E|]. split; [reflexivity|]. split; [|split; [exact Hsh|]].
  - cbn [announced]. exists [], [(t3 0 0 30 0, (x1, c2, c3), lc)]. split; [reflexivity|]. split; [intros y []|]. intros y [<-|[]]. vm_compute. reflexivity.
  - destruct site as [[sx sy] sz], lbh as [[? ?] ?]. destruct Hsh as [Hc _]. unfold column in Hc. rewrite Hq in Hc. injection Hc as <-. cbn [same_place]. clear. intros [[E|E] _]; vm_compute in E; discriminate.
Qed.
(** no observation files; a file of another time system *)
Definition w_none : world := e_world [] nav2.
Definition header_utc : list str := firstn 5 header3 ++ [pad60 "  2015     1     1     0     0    0.0000000     GLO" "TIME OF FIRST OBS"].
Definition file_utc : list str := header_utc ++ ex_eoh :: put_body3 late3.
Definition w_two : world := e_world [("site0010.12o", obs2); ("aaaa0010.15o", file_utc)]%string nav2.
Lemma two_run : map (fun x => (fst x, Nat.eqb (length (snd x)) 0)) (snd (fst (main w_two (e_cfg true None) []))) = [(site_name, true); (ok_name, false)] /\
  stopped_by w_two (e_cfg true None) [] = None /\ find_files (w_ls w_two) (c_obsdir (e_cfg true None)) RE_OBS = [ok_name; site_name].
Proof. vm_compute. repeat split; reflexivity. Qed.
