(** End to end: a run over a RINEX 2 file with satellites of GPS and GLONASS. *)
From Coq Require Import Reals Lra ZifyBool ZifyNat.
From Verif Require Import Base PyStr PyFloat PyDate PyPath PyRegex M_Common M_Header M_Obs2 M_Obs3 M_Label M_Rec M_Text M_Cfg M_Names M_Xyz M_Nav M_NmUtils M_Num M_Tec M_Sat M_Main.
From Verif Require Import S_Text S_Time S_Obs2 S_Open2 S_Obs3 S_Label S_Rec S_Tec S_Out S_Main S_End W_Obs2 E_Obs2 E_Tec E_Main P_Str P_Label P_End5.
Open Scope nat_scope.

Definition end_fields : list str := map lit ["datetime"; "c1"; "c1.lli"; "l1"; "l2"; "p2"; "tec.c1p2"; "tec.l1l2"; "tec.l1c1"]%string.
Definition end_format : rec_format := match compose_rec_format 8 end_fields with Ok f => f | Err _ => mkFormat [] [] [] end.
Definition end_cfg : cfg := mkCfg (lit "INFO") end_format [lit "/obs"] [lit "/nav"] (lit "/out") (lit "%H:%M:%S") [] [] [] true [] None.
Definition site_name : str := lit "/obs/site0010.12o".
Lemma end_composed : compose_rec_format 8 end_fields = Ok (c_format end_cfg).
Proof. vm_compute. reflexivity. Qed.
Lemma w_ok_squares : squares w_ok.
Proof. intros f G B. exact (proj2 (proj2 (ex_square f G B))). Qed.
Lemma e_valid : Forall (valid_block 7) e_blocks.
Proof. unfold e_blocks. repeat (constructor; [apply data_okb_ok; vm_compute; reflexivity|]). constructor. Qed.
Lemma e_once : first_epoch_once e_blocks.
Proof.
  exists (t_at 0 0 0 0), 1, [t_at 0 0 30 0; t_at 0 1 0 0; t_at 0 1 30 0; mkDT 2012 1 2 0 0 0 0]. split; [reflexivity|]. split; [|lia].
  cbn. intuition discriminate.
Qed.
Definition e_stated (ep : datetime) (sat : str) (vals : list (str * field)) : Prop :=
  exists fl sats fs, In (BData ep fl sats) e_blocks /\ In (sat, fs) sats /\ vals = combine ex_types fs.
Lemma w_ok_formed : well_formed w_ok site_name e_stated.
Proof.
  apply (wf2 w_ok site_name obs2 V211 ex_header (put_body e_blocks) ex_types e_blocks); [vm_compute; reflexivity|vm_compute; reflexivity|reflexivity|apply ex_parts|exact ex_header_types|exact ex_nodup|exact (put_body_ok 7 _ e_valid)|exact e_once].
Qed.
Definition ends (x y : str) : bool := seqb (skipn (List.length x - List.length y) x) y.
Lemma ends_ok x y : ends x y = true -> exists b, x = b ++ y.
Proof. unfold ends. intros H. apply seqb_eq in H. exists (firstn (List.length x - List.length y) x). rewrite <- H at 2. symmetry. apply firstn_skipn. Qed.
Definition g01_row : str := lit "00:01:30     20000000.000 0      -105123.456            0.000     20000000.123      1.171                 0.000          61636168.049" ++ [nl].
Definition r01_row : str := lit "00:00:00     20000000.005 0      -105123.461            0.000     20000000.123      1.154                 0.000          63956335.264" ++ [nl].
Definition g01_file : str := lit "/out/2012/001/site/site_G01_001_12.dat".
Definition r01_file : str := lit "/out/2012/001/site/site_R01_001_12.dat".
Definition file_ends (f : fs) (p y : str) : bool := match fs_get p f with Some x => ends x y | None => false end.
Definition end_run (r : fs * list (str * list wop) * option exn) :=
  let '(f, log, e) := r in
  (map (fun x => (fst x, List.length (rows_of (lit "G01") (snd x)), List.length (rows_of (lit "R01") (snd x)))) log, e, file_ends f g01_file g01_row, file_ends f r01_file r01_row).
Lemma end_computed : end_run (main w_ok end_cfg []) = ([(site_name, 4, 1)], None, true, true).
Proof. vm_compute. reflexivity. Qed.
Lemma end_facts r : end_run r = ([(site_name, 4, 1)], None, true, true) -> snd r = None /\
  (exists ops, snd (fst r) = [] ++ (site_name, ops) :: [] /\ rows_of (lit "G01") ops <> [] /\ rows_of (lit "R01") ops <> []) /\
  (exists b, fs_get g01_file (fst (fst r)) = Some (b ++ g01_row)) /\ (exists b, fs_get r01_file (fst (fst r)) = Some (b ++ r01_row)).
Proof.
  destruct r as [[f' log] e]. unfold end_run. cbn [fst snd]. intros H.
  pose proof (f_equal (fun x => fst (fst (fst x))) H) as H1. pose proof (f_equal (fun x => snd (fst (fst x))) H) as H2. pose proof (f_equal (fun x => snd (fst x)) H) as H3. pose proof (f_equal snd H) as H4.
  cbn [fst snd] in H1, H2, H3, H4. clear H. split; [exact H2|]. split; [|split].
  - destruct log as [|[nm ops] [|]]; try discriminate H1. cbn [map fst snd] in H1. exists ops.
    pose proof (f_equal (map (fun x => snd (fst x))) H1) as Hg. pose proof (f_equal (map snd) H1) as Hr. pose proof (f_equal (fun l => hd [] (map (fun x => fst (fst x)) l)) H1) as Hn. cbn [map hd fst snd] in Hg, Hr, Hn.
    subst nm. clear H1. split; [reflexivity|]. split; intros E; [rewrite E in Hg; discriminate Hg|rewrite E in Hr; discriminate Hr].
  - unfold file_ends in H3. destruct (fs_get g01_file f') as [x|]; [|discriminate H3]. destruct (ends_ok _ _ H3) as [b ->]. exists b. reflexivity.
  - unfold file_ends in H4. destruct (fs_get r01_file f') as [x|]; [|discriminate H4]. destruct (ends_ok _ _ H4) as [b ->]. exists b. reflexivity.
Qed.
Lemma end_example : let r := main w_ok end_cfg [] in
  compose_rec_format 8 end_fields = Ok (c_format end_cfg) /\ squares w_ok /\ well_formed w_ok site_name e_stated /\ stopped_by w_ok end_cfg [] = None /\
  (exists ops, snd (fst r) = [] ++ (site_name, ops) :: [] /\ rows_of (lit "G01") ops <> [] /\ rows_of (lit "R01") ops <> []) /\
  (exists b, fs_get g01_file (fst (fst r)) = Some (b ++ g01_row)) /\ (exists b, fs_get r01_file (fst (fst r)) = Some (b ++ r01_row)).
Proof.
  intros r. split; [exact end_composed|]. split; [exact w_ok_squares|]. split; [exact w_ok_formed|]. exact (end_facts r end_computed).
Qed.
(** *** the slant TEC of two pseudoranges *)
Definition g01_vals : list (str * field) := combine ex_types (ex_fields 0).
Lemma r01_channel : channel w_ok end_cfg (t_at 0 0 0 0) 1 (float_of_Z 5).
Proof.
  assert (H : exists f m sats dt eph, load_navigation_message (w_ls w_ok) (w_nav w_ok) (c_navdir end_cfg) (t_at 0 0 0 0) "R" (preferred end_cfg "R") = Ok (f, m) /\ dict_get ceqb "R"%char m = Some sats /\
    select_navigation_message (t_at 0 0 0 0) "R" 1 [("R"%char, Some sats)] true = Ok (Some (dt, eph)) /\ nth_error eph 7 = Some (float_of_Z 5)).
  { eexists _, _, _, _, _. split; [vm_compute; reflexivity|]. split; [vm_compute; reflexivity|]. split; [vm_compute; reflexivity|]. vm_compute. reflexivity. }
  destruct H as [f [m [sats [dt [eph [H1 [H2 [H3 H4]]]]]]]]. exists dt, eph. split; [|exact H4]. apply (eph_chosen _ _ _ _ _ f sats); [|exact H3]. exact (nav_found _ _ _ _ f m sats H1 H2).
Qed.
Lemma slant_example : let f1 := IZR 1575420000 in let f2 := IZR 1227600000 in let t := t_at 0 0 0 0 in exists r s,
  e_stated t (lit "G01") g01_vals /\
  observable g01_vals cC1 (FVal false 20000000000 0 7) /\ decimal (FVal false 20000000000 0 7) 20000000 0 /\
  observable g01_vals cP2 (FVal false 20000000123 0 0) /\ decimal (FVal false 20000000123 0 0) (20000000 + 123 / 1000) 0 /\
  absent g01_vals cL2 /\ frequency w_ok end_cfg t (lit "G01") "1" f1 /\ frequency w_ok end_cfg t (lit "G01") "2" f2 /\
  frequency w_ok end_cfg t (lit "R01") "1" (IZR 1604812500) /\
  (20000000 = r + delay s f1 /\ 20000000 + 123 / 1000 = r + delay s f2 /\ Rabs s <= 1000000)%R.
Proof.
  cbv zeta. set (f1 := IZR 1575420000). set (f2 := IZR 1227600000).
  assert (Hobs : forall k x cl, In (k, x) g01_vals -> In k cl -> (forall k' y, In (k', y) g01_vals -> In k' cl -> k' = k) -> observable g01_vals cl x).
  { intros k x cl H1 H2 H3. exists k. split; [exact H1|]. split; [exact H2|]. intros k' y Hy Hk. rewrite (H3 k' y Hy Hk). apply str_le_refl. }
  assert (Hone : forall k cl, In k cl -> forallb (fun p => negb (existsb (seqb (fst p)) cl) || seqb (fst p) k) g01_vals = true -> forall k' y, In (k', y) g01_vals -> In k' cl -> k' = k).
  { intros k cl Hk F k' y Hy Hc. rewrite forallb_forall in F. specialize (F _ Hy). cbn [fst] in F. apply Bool.orb_true_iff in F. destruct F as [F|F]; [|now apply seqb_eq].
    apply Bool.negb_true_iff in F. assert (T : existsb (seqb k') cl = true) by (apply existsb_exists; exists k'; split; [exact Hc|apply seqb_refl]). congruence. }
  set (s := ((123 / 1000) * (f1 * f1 * (f2 * f2)) / (40.308 * 10000000000000000 * (f1 * f1 - f2 * f2)))%R). exists (20000000 - delay s f1)%R, s.
  assert (P1 : (0 < f1)%R) by (unfold f1; lra). assert (P2 : (0 < f2)%R) by (unfold f2; lra). assert (P3 : (f1 * f1 - f2 * f2 <> 0)%R) by (unfold f1, f2; lra).
  split; [exists 0%Z, (ex_sats 3 ++ [r_sat 1; j_sat]), (ex_fields 0); split; [now left|]; split; [now left|reflexivity]|].
  split; [apply (Hobs (lit "C1")); [now left|vm_compute; auto 20|apply Hone; [vm_compute; auto 20|vm_compute; reflexivity]]|].
  split; [exists false, 20000000000%Z, 7%Z; split; [reflexivity|unfold dec_real; lra]|].
  split; [apply (Hobs (lit "P2")); [do 3 right; now left|vm_compute; auto 20|apply Hone; [vm_compute; auto 20|vm_compute; reflexivity]]|].
  split; [exists false, 20000000123%Z, 0%Z; split; [reflexivity|unfold dec_real; lra]|].
  split; [right; left; apply (Hobs (lit "L2")); [do 2 right; now left|vm_compute; auto 20|apply Hone; [vm_compute; auto 20|vm_compute; reflexivity]]|].
  split; [exists "G"%char, (lit "01"), 1%Z, 1575420000%Z, 0%Z, 0%Z; split; [reflexivity|]; split; [vm_compute; reflexivity|]; split; [cbn; auto 20|]; split; [lia|]; split; [discriminate|reflexivity]|].
  split; [exists "G"%char, (lit "01"), 1%Z, 1227600000%Z, 0%Z, 0%Z; split; [reflexivity|]; split; [vm_compute; reflexivity|]; split; [cbn; auto 20|]; split; [lia|]; split; [discriminate|reflexivity]|].
  split; [exists "R"%char, (lit "01"), 1%Z, 1602000000%Z, 562500%Z, 5%Z; split; [reflexivity|]; split; [vm_compute; reflexivity|]; split; [cbn; auto 20|]; split; [lia|]; split; [intros _; exact r01_channel|reflexivity]|].
  split; [lra|]. split.
  - unfold delay, s. field. repeat split; try lra.
  - unfold s, f1, f2. apply Rabs_le. lra.
Qed.
