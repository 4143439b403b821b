(** Runs over other sets of files: examples, and the witness of the claim the code violates. *)
From Coq Require Import Sorting.Permutation.
From Verif Require Import Base PyStr PyFloat PyDate PyPath PyRegex M_Common M_Header M_Obs2 M_Obs3 M_Label M_Rec M_Text M_Cfg M_Names M_Xyz M_Nav M_NmUtils M_Num M_Tec M_Sat M_Main M_Run.
From Verif Require Import S_Text S_Time S_Names S_Obs2 S_Open2 S_Obs3 S_Out W_Obs2 E_Obs2 E_Obs3 S_Label S_Main S_Fresh S_Run S_Alone E_Main P_Str P_Main3 P_Run5 E_Run.
Open Scope nat_scope.

(** the directory with observations lists [names], the others are as before *)
Definition only (w : world) (names : list str) (d : str) : list str := if seqb d (lit "/obs") then names else w_ls w d.
Lemma only_aids w names ignore : w_ls w (lit "/obs") <> [] ->
  find_files (w_ls w) [lit "/obs"] RE_XYZ = [] -> find_files (only w names) [lit "/obs"] RE_XYZ = [] -> same_aids w (e_cfg ignore None) (only w names).
Proof. intros _ H1 H2. split; [intros t sys; unfold find_nav_files; apply files_eq; intros d [<-|[]]; reflexivity|]. change (c_obsdir (e_cfg ignore None)) with [lit "/obs"]. rewrite H1, H2. reflexivity. Qed.
Definition ls_a : str -> list str := only w_obs2 [lit "aaaa0010.12o"].
Lemma obs2_found : find_files (w_ls w_obs2) (c_obsdir (e_cfg true None)) RE_OBS = [lit "/obs/bbbb0010.12o"; a_name] /\ find_files ls_a (c_obsdir (e_cfg true None)) RE_OBS = [a_name] /\
  find_files (w_ls w_obs2) [lit "/obs"] RE_XYZ = [] /\ find_files ls_a [lit "/obs"] RE_XYZ = [].
Proof. vm_compute. auto. Qed.
Lemma obs2_computable : computable_files w_obs2 (e_cfg true None).
Proof.
  intros name b s t sys n Hin Ho Hs Hi _. rewrite (proj1 obs2_found) in Hin.
  assert (Hop : match open_obs w_obs2 name with Ok _ => true | Err _ => false end = true /\ forallb (computable_b w_obs2 (e_cfg true None)) (b_steps (the_obs w_obs2 name)) = true).
  { destruct Hin as [<-|[<-|[]]]; (split; vm_compute; reflexivity). }
  destruct Hop as [Hop Hall]. apply the_obs_ok in Hop. rewrite (ok_inv _ _ _ Hop Ho) in Hs. rewrite forallb_forall in Hall.
  exact (computable_b_ok _ _ _ _ _ _ (Hall s Hs) Hi).
Qed.
Lemma obs2_run : run w_obs2 (e_cfg true None) =
  ([(a_name, [n3 "G01" 0 0; n3 "G01" 0 30], []); (lit "/obs/bbbb0010.12o", [n3 "G01" 0 0; n3 "G01" 0 30], [])], None).
Proof. vm_compute. reflexivity. Qed.
Lemma alone_example : same_aids w_obs2 (e_cfg true None) ls_a /\ computable_files w_obs2 (e_cfg true None) /\ stopped_by w_obs2 (e_cfg true None) [] = None /\
  find_files ls_a (c_obsdir (e_cfg true None)) RE_OBS = [a_name] /\ In a_name (find_files (w_ls w_obs2) (c_obsdir (e_cfg true None)) RE_OBS) /\
  find_files (w_ls w_obs2) (c_obsdir (e_cfg true None)) RE_OBS <> [a_name] /\
  exists ops, written w_obs2 (e_cfg true None) [] a_name ops /\ names ops = [n3 "G01" 0 0; n3 "G01" 0 30].
Proof.
  destruct obs2_found as [H1 [H2 [H3 H4]]].
  split; [apply only_aids; [vm_compute; discriminate|exact H3|exact H4]|]. split; [exact obs2_computable|].
  split; [rewrite run_stopped, obs2_run; reflexivity|]. split; [exact H2|]. rewrite H1. split; [right; left; reflexivity|]. split; [intros X; clear -X; discriminate|].
  destruct (run_written w_obs2 (e_cfg true None) a_name _ _ ltac:(rewrite obs2_run; left; reflexivity)) as [ops [Hw [Hn _]]]. exists ops. split; [exact Hw|exact Hn].
Qed.

(** a file with rows only because another file comes before it *)
Definition b_name : str := lit "/obs/bbbb0010.12o".
Definition ls_b : str -> list str := only w_zero [lit "bbbb0010.12o"].
Lemma zero_found : find_files (w_ls w_zero) (c_obsdir (e_cfg true None)) RE_OBS = [a_name; b_name] /\ find_files ls_b (c_obsdir (e_cfg true None)) RE_OBS = [b_name] /\
  find_files (w_ls w_zero) [lit "/obs"] RE_XYZ = [] /\ find_files ls_b [lit "/obs"] RE_XYZ = [].
Proof. vm_compute. auto. Qed.
Lemma zero_alone : run (with_ls w_zero ls_b) (e_cfg true None) = ([(b_name, [], [])], None).
Proof. vm_compute. reflexivity. Qed.
Lemma alone_differs : exists w c ls name ops, same_aids w c ls /\ find_files ls (c_obsdir c) RE_OBS = [name] /\ In name (find_files (w_ls w) (c_obsdir c) RE_OBS) /\
  stopped_by w c [] = None /\ stopped_by (with_ls w ls) c [] = None /\
  written w c [] name ops /\ (exists sat sd nav t q, In (WRow sat sd nav t q) ops) /\
  forall ops', written (with_ls w ls) c [] name ops' -> forall sat sd nav t q, ~ In (WRow sat sd nav t q) ops'.
Proof.
  destruct zero_found as [H1 [H2 [H3 H4]]].
  destruct (run_written w_zero (e_cfg true None) b_name _ _ ltac:(rewrite zero_run; right; left; reflexivity)) as [ops [Hb [Hnb _]]].
  exists w_zero, (e_cfg true None), ls_b, b_name, ops.
  split; [apply only_aids; [vm_compute; discriminate|exact H3|exact H4]|]. split; [exact H2|]. rewrite H1. split; [right; left; reflexivity|].
  split; [rewrite run_stopped, zero_run; reflexivity|]. split; [rewrite run_stopped, zero_alone; reflexivity|]. split; [exact Hb|]. split.
  - destruct (names_row (lit "G01") 0 0 ops) as [sd [nav [t [q [Hin _]]]]]; [rewrite Hnb; left; reflexivity|]. exists (lit "G01"), sd, nav, t, q. exact Hin.
  - intros ops' Hw sat sd nav t q Hin. apply run_all in Hw. rewrite zero_alone in Hw. destruct Hw as [E|[]]. injection E as E _. apply names_in in Hin. rewrite <- E in Hin. exact Hin.
Qed.

(** the run without the file that is no RINEX file *)
Definition ls_site : str -> list str := only w_bad [lit "site0010.12o"].
Lemma skip_example : sort_str (find_files (w_ls w_bad) (c_obsdir (e_cfg true None)) RE_OBS) = [] ++ lit "/obs/aaaa0010.12o" :: [ok_name] /\
  sort_str (find_files ls_site (c_obsdir (e_cfg true None)) RE_OBS) = [] ++ [ok_name] /\ same_aids w_bad (e_cfg true None) ls_site /\
  open_obs w_bad (lit "/obs/aaaa0010.12o") = Err RinexError.
Proof.
  split; [exact bad_names|]. split; [vm_compute; reflexivity|]. split; [|exact bad_open].
  apply only_aids; [vm_compute; discriminate|vm_compute; reflexivity|vm_compute; reflexivity].
Qed.

(** *** Other files *)
Definition digit_b (c : ascii) : bool := (48 <=? nat_of_ascii c) && (nat_of_ascii c <=? 57).
Definition ext_b (x : str) : bool :=
  match x with
  | a :: b :: t :: _ => digit_b a && digit_b b && existsb (ceqb (lower_c t)) (lit "odnghlp") || seqb (lower [a; b; t]) (lit "rnx") || seqb (lower [a; b; t]) (lit "crx")
  | _ => false
  end.
Fixpoint no_rinex_b (name : str) : bool :=
  match name with
  | [] => true
  | c :: r => (negb (ceqb c "."%char) || negb (ext_b r)) && no_rinex_b r
  end.
Lemma digit_b_ok c : digit c -> digit_b c = true.
Proof. unfold digit, digit_b. intros [H1 H2]. apply andb_true_iff. split; apply Nat.leb_le; assumption. Qed.
Lemma ext_b_ok x v : rinex_ext x -> ext_b (x ++ v) = true.
Proof.
  intros H. assert (L : exists a b t, x = [a; b; t]).
  { destruct H as [H|[H|[a [b [t [-> _]]]]]]; [| |eauto]; (apply (f_equal (@List.length _)) in H; unfold lower in H; rewrite !map_length in H; destruct x as [|a [|b [|t [|]]]]; try discriminate; eauto). }
  destruct L as [a [b [t ->]]]. cbn [app ext_b]. destruct H as [H|[H|[a' [b' [t' [E [A [B T]]]]]]]].
  - unfold same_ci in H. rewrite H. rewrite orb_comm. cbn [orb]. replace (seqb (lower (lit "rnx")) (lit "rnx")) with true by reflexivity. now rewrite !orb_true_r.
  - unfold same_ci in H. rewrite H. replace (seqb (lower (lit "crx")) (lit "crx")) with true by reflexivity. now rewrite !orb_true_r.
  - injection E as -> -> ->. rewrite (digit_b_ok _ A), (digit_b_ok _ B). cbn [andb].
    assert (X : existsb (ceqb (lower_c t')) (lit "odnghlp") = true) by (apply existsb_exists; exists (lower_c t'); split; [exact T|apply ceqb_eq; reflexivity]).
    rewrite X. reflexivity.
Qed.
Lemma no_rinex_ok name : no_rinex_b name = true -> no_rinex name.
Proof.
  intros H u x v E Hx. revert name H E. induction u as [|c u IH]; intros name H E; subst name; cbn [app no_rinex_b] in H; apply andb_true_iff in H; destruct H as [H1 H2].
  - rewrite (ext_b_ok x v Hx) in H1. discriminate.
  - exact (IH _ H2 eq_refl).
Qed.
Definition ls_more (d : str) : list str :=
  if seqb d (lit "/obs") then [lit ".DS_Store"; lit "aaaa0010.12o"; lit "readme.txt"; lit "site.1"]
  else if seqb d (lit "/nav") then [lit "brdc0010.12n"; lit "brdc0010.sp3"] else w_ls w_clean d.
Lemma others_example : (forall d, In d (c_obsdir (e_cfg true None)) \/ In d (c_navdir (e_cfg true None)) -> with_others (w_ls w_clean d) (ls_more d)) /\
  length (ls_more (lit "/obs")) = 4 /\ no_rinex (lit "readme.txt") /\ ~ no_rinex (lit "copy of aaaa0010.12o").
Proof.
  assert (Hr : no_rinex (lit "readme.txt")) by (apply no_rinex_ok; vm_compute; reflexivity).
  split; [|split; [reflexivity|split; [exact Hr|]]].
  - assert (Ho : with_others [lit "aaaa0010.12o"] [lit ".DS_Store"; lit "aaaa0010.12o"; lit "readme.txt"; lit "site.1"]).
    { apply wo_other; [apply no_rinex_ok; vm_compute; reflexivity|]. apply wo_keep. apply wo_other; [exact Hr|]. apply wo_other; [apply no_rinex_ok; vm_compute; reflexivity|constructor]. }
    assert (Hn : with_others [lit "brdc0010.12n"] [lit "brdc0010.12n"; lit "brdc0010.sp3"]).
    { apply wo_keep. apply wo_other; [apply no_rinex_ok; vm_compute; reflexivity|constructor]. }
    intros d Hd. assert (E : d = lit "/obs" \/ d = lit "/nav") by (destruct Hd as [[<-|[]]|[<-|[]]]; auto). destruct E as [-> | ->]; [exact Ho|exact Hn].
  - intros X. apply (X (lit "copy of aaaa0010") (lit "12o") []); [reflexivity|]. right. right. exists "1"%char, "2"%char, "o"%char.
    split; [reflexivity|]. split; [|split; [|left; reflexivity]]; unfold digit; cbn; lia.
Qed.
