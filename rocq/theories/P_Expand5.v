(** A program that is missing: the observation files that need it are left out, and errors are announced. *)
From Verif Require Import Base PyStr PyFloat PyDate PyPath PyRegex M_Common M_Header M_Obs2 M_Obs3 M_Label M_Rec M_Text M_Cfg M_Names M_Xyz M_Nav M_NmUtils M_Num M_Tec M_Sat M_Main M_Run M_Expand.
From Verif Require Import S_Text S_Names S_Main S_Run S_Expand P_Expand2 P_Main10 P_Run3 P_Run8.
Open Scope nat_scope.

Lemma missing_program t w c f names1 name names2 dir base ext hat packed b : stored t dir base ext name hat packed b -> tool_missing t hat packed ->
  sort_str (find_files (w_ls w) (c_obsdir c) RE_OBS) = names1 ++ name :: names2 ->
  let w1 := tools_world t w in
  let without := files_loop w1 c no_caches f (names1 ++ names2) in
  fst (fst (main w1 c f)) = fst (fst without) /\ stopped_by w1 c f = snd without /\
  (forall nm ops, ops <> [] -> written w1 c f nm ops <-> In (nm, ops) (snd (fst without))) /\
  (forall isdir, dirs_exist isdir c -> o_exn (full_main false isdir w1 c f) = None -> announces_errors (full_main false isdir w1 c f) = true).
Proof.
  intros Hs Hm Hn w1 without. pose proof (obs_missing t w dir base ext name hat packed b Hs Hm) as Ho.
  destruct (skip_file w1 c f names1 name names2 Hn (or_intror Ho)) as [A [B C]]. split; [exact A|]. split; [exact B|]. split; [exact C|].
  intros isdir Hd He. apply (proj2 (announced_errors isdir w1 c f Hd He)). apply (tr_open w1 c _ _ name); [|now right].
  apply (found_iff w1 c name). cbn [w1 tools_world w_ls]. rewrite Hn. apply in_or_app. right. now left.
Qed.
