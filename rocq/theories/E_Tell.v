(** The account of the run of E_End. *)
From Coq Require Import Reals.
From Verif Require Import Base PyStr PyFloat PyDate PyPath PyRegex M_Common M_Header M_Obs2 M_Obs3 M_Label M_Rec M_Text M_Cfg M_Names M_Xyz M_Nav M_NmUtils M_Num M_Tec M_Sat M_Main.
From Verif Require Import S_Text S_Time S_Obs2 S_Open2 S_Obs3 S_Label S_Rec S_Tec S_Out S_Main S_End S_Tell W_Obs2 E_Obs2 E_Tec E_Main P_Str P_Nav E_End.
Open Scope nat_scope.

Fixpoint facts_of (types : list str) (bs : list block) : list fact :=
  match bs with
  | BData ep _ sats :: r => map (fun s => (ep, fst s, combine types (snd s))) sats ++ facts_of types r
  | BEvent _ _ _ :: r => facts_of types r
  | [] => []
  end.
Definition e_facts : list fact := facts_of ex_types e_blocks.
Lemma e_states : file_states w_ok site_name e_facts.
Proof.
  apply (fs2 w_ok site_name obs2 V211 ex_header (put_body e_blocks) ex_types e_blocks); [vm_compute; reflexivity|vm_compute; reflexivity|reflexivity|apply ex_parts|exact ex_header_types|exact ex_nodup|exact (put_body_ok 7 _ e_valid)|exact e_once|].
  unfold e_facts, e_blocks. cbn [facts_of]. repeat (apply st2_data; [discriminate|]). apply st2_nil.
Qed.
Lemma tell_example : let r := main w_ok end_cfg [] in
  compose_rec_format 8 end_fields = Ok (c_format end_cfg) /\ squares w_ok /\ stopped_by w_ok end_cfg [] = None /\
  (exists ops, snd (fst r) = [] ++ (site_name, ops) :: [] /\ rows_of (lit "G01") ops <> [] /\ rows_of (lit "R01") ops <> []) /\
  (exists b, open_obs w_ok site_name = Ok b /\ used_facts end_cfg b e_facts e_facts) /\ file_states w_ok site_name e_facts /\ List.length e_facts = 15.
Proof.
  destruct end_example as [H1 [H2 [_ [H3 [H4 _]]]]]. intros r. split; [exact H1|]. split; [exact H2|]. split; [exact H3|]. split; [exact H4|]. split; [|split; [exact e_states|reflexivity]].
  exists (the_obs w_ok site_name). split; [apply the_obs_ok; vm_compute; reflexivity|]. left. split; [left; reflexivity|reflexivity].
Qed.

(** one record a minute *)
Definition min_cfg : cfg := mkCfg (lit "INFO") end_format [lit "/obs"] [lit "/nav"] (lit "/out") (lit "%H:%M:%S") [] [] [] true [] (Some 60000000%Z).
Definition of_dayb (day : option date) (t : datetime) (k : str) : bool :=
  match k, day with sys :: digits, Some d => match py_int digits with Ok _ => existsb (ceqb sys) systems && date_eqb d (dt_date t) | Err _ => false end | _, _ => false end.
Lemma of_dayb_ok day t k : of_dayb day t k = true <-> of_day day t k.
Proof.
  unfold of_dayb, of_day. destruct k as [|sys digits]; [split; [discriminate|intros [? [? [? [H _]]]]; discriminate]|]. destruct day as [d|]; [|split; [discriminate|intros [? [? [? [_ [_ [_ H]]]]]]; discriminate]].
  destruct (py_int digits) as [n|e] eqn:En; [|split; [discriminate|intros [? [? [? [H [H2 _]]]]]; congruence]]. rewrite andb_true_iff, existsb_exists, date_eqb_eq. split.
  - intros [[x [H1 H2]] ->]. apply ceqb_eq in H2. subst x. exists sys, digits, n. auto.
  - intros [s' [dg [n' [H1 [H2 [H3 H4]]]]]]. injection H1 as <- <-. split; [exists sys; split; [exact H3|apply ceqb_eq; reflexivity]|congruence].
Qed.
Fixpoint sample_facts (day : option date) (iv : Z) (last : option datetime) (facts : list fact) : list fact :=
  match facts with
  | [] => []
  | (t, k, vals) :: r =>
    if of_dayb day t k then
      match last with
      | None => (t, k, vals) :: sample_facts day iv (Some t) r
      | Some t0 => if dt_dec t t0 then (t, k, vals) :: sample_facts day iv (Some t0) r
                   else if (instant t <? instant t0 + iv)%Z then sample_facts day iv (Some t0) r else (t, k, vals) :: sample_facts day iv (Some t) r
      end
    else sample_facts day iv last r
  end.
Lemma sample_facts_ok day iv facts : forall last, sampled day iv last facts (sample_facts day iv last facts).
Proof.
  induction facts as [|[[t k] vals] facts IH]; intros last; cbn [sample_facts]; [constructor|]. destruct (of_dayb day t k) eqn:Ed.
  - apply of_dayb_ok in Ed. destruct last as [t0|]; [|now apply sa_first]. destruct (dt_dec t t0) as [->|Hn]; [now apply sa_same|].
    destruct (Z.ltb_spec (instant t) (instant t0 + iv)); [now apply sa_drop|now apply sa_next].
  - apply sa_other; [intros X; apply of_dayb_ok in X; congruence|apply IH].
Qed.
Definition min_facts : list fact := sample_facts (b_date (the_obs w_ok site_name)) 60000000 None e_facts.
Definition min_shape (r : fs * list (str * list wop) * option exn) := (map (fun x => (fst x, List.length (rows_of (lit "G01") (snd x)))) (snd (fst r)), snd r).
Lemma min_run : min_shape (main w_ok min_cfg []) = ([(site_name, 2)], None).
Proof. vm_compute. reflexivity. Qed.
Lemma min_read r : min_shape r = ([(site_name, 2)], None) -> snd r = None /\ exists ops, snd (fst r) = [] ++ (site_name, ops) :: [] /\ List.length (rows_of (lit "G01") ops) = 2.
Proof.
  destruct r as [[f log] e]. unfold min_shape. cbn [fst snd]. intros H. pose proof (f_equal fst H) as H1. pose proof (f_equal snd H) as H2. cbn [fst snd] in H1, H2. split; [exact H2|].
  destruct log as [|[nm ops] [|]]; try discriminate H1. cbn [map fst snd] in H1. exists ops. pose proof (f_equal (map snd) H1) as Hl. pose proof (f_equal (fun l => hd [] (map fst l)) H1) as Hn.
  cbn [map hd fst snd] in Hl, Hn. subst nm. split; [reflexivity|]. congruence.
Qed.
Lemma min_example : let r := main w_ok min_cfg [] in
  compose_rec_format 8 end_fields = Ok (c_format min_cfg) /\ stopped_by w_ok min_cfg [] = None /\
  (exists ops, snd (fst r) = [] ++ (site_name, ops) :: [] /\ List.length (rows_of (lit "G01") ops) = 2) /\
  (exists b, open_obs w_ok site_name = Ok b /\ thins min_cfg b 60000000 /\ used_facts min_cfg b e_facts min_facts) /\ List.length min_facts = 7.
Proof.
  intros r. split; [exact end_composed|]. destruct (min_read r min_run) as [H1 H2]. split; [exact H1|]. split; [exact H2|]. split; [|vm_compute; reflexivity].
  assert (Ht : thins min_cfg (the_obs w_ok site_name) 60000000) by exact ok_thins.
  exists (the_obs w_ok site_name). split; [apply the_obs_ok; vm_compute; reflexivity|]. split; [exact Ht|]. right. exists 60000000%Z. split; [exact Ht|apply sample_facts_ok].
Qed.
