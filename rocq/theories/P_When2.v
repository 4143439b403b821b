(** The datetime column of the rows of a run. *)
From Verif Require Import Base PyStr PyFloat PyDate PyStrftime S_Text S_Time S_Rec S_Cfg S_When M_Rec M_Text M_Cfg M_Main P_Rec P_When.
Open Scope nat_scope.
Lemma cell_codes w c t u d : documented (c_dtformat c) -> common_era t -> common_era u -> oc_strftime (out_of w c) t = oc_strftime (out_of w c) u ->
  uses d (c_dtformat c) -> code_value d t = code_value d u.
Proof. exact (text_tells (w_strftime w) (c_dtformat c) t u d). Qed.
Lemma cell_second w c t u : documented (c_dtformat c) -> to_second (c_dtformat c) -> common_era t -> common_era u ->
  oc_strftime (out_of w c) t = oc_strftime (out_of w c) u -> (instant t - dus t = instant u - dus u)%Z /\ (uses "f" (c_dtformat c) -> t = u).
Proof. exact (text_second (w_strftime w) (c_dtformat c) t u). Qed.
Lemma header_width e ls fields outdir dtf secs c n : cfg_of e ls fields outdir dtf secs c -> fixed dtf n -> common_era (e_now e) ->
  (forall f, In f [lit "site.l"; lit "site.b"; lit "site.h"] -> ~ In f (rf_fields (c_format c))) ->
  (exists ds s, rf_fortran (c_format c) = "("%char :: s ++ [")"%char] /\ descriptor_list ds s /\ Forall2 (describes n) (rf_fields (c_format c)) ds) /\
  forall w t, common_era t -> List.length (oc_strftime (out_of w c) t) = n.
Proof.
  intros H Hf Hn Hs. split.
  - pose proof (co_fields _ _ _ _ _ _ _ H) as Hc. unfold now_len in Hc. rewrite (fixed_width _ dtf n _ Hf Hn) in Hc. exact (fortran_ok _ _ _ Hc Hs).
  - intros w t Ht. cbn [oc_strftime out_of]. rewrite (co_dt _ _ _ _ _ _ _ H). exact (fixed_width _ dtf n t Hf Ht).
Qed.
