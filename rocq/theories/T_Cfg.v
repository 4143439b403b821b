(** Property theorems about the configuration file. *)
From Verif Require Import Base PyStr PyFloat PyPath S_Text P_Str M_Rec S_Rec M_Cfg S_Cfg P_Rec P_Cfg P_Cfg2.
Open Scope nat_scope.

(** C45: a file of blank lines, comments that start the line, and assignments (perhaps followed by a
    comment) sets exactly the known variables, each to the last non-empty value assigned.
    Missing for the full property: an indented comment and a value with '=' (refuted below). *)
Theorem C45_settings_partial : forall ls, Forall line_ok ls ->
  exists st, read_settings (file_text ls) = Ok st /\
    forall name, dict_get seqb name st =
      match dict_get seqb name defaults with
      | None => None
      | Some d => Some (match assigned name ls with Some v => CStr v | None => d end)
      end.
Proof. exact read_settings_ok. Qed.
Print Assumptions C45_settings_partial.

(** an indented comment is not accepted, nor is a value with an equals sign *)
Theorem C45_indented_comment_refuted : exists text, text = lit "outDir = out" ++ [newline] ++ lit "  # a note" /\
  read_settings text = Err ValueError.
Proof. eexists. split; [reflexivity|]. vm_compute. reflexivity. Qed.
Print Assumptions C45_indented_comment_refuted.
Theorem C45_equals_in_value_refuted : exists text, text = lit "datetimeFormat = 'day=%j'" /\ read_settings text = Err ValueError.
Proof. eexists. split; [reflexivity|]. vm_compute. reflexivity. Qed.
Print Assumptions C45_equals_in_value_refuted.

(** C46: variables omitted take their documented defaults, provided navIgnoreAbsence is assigned.
    Missing: a file that omits navIgnoreAbsence (refuted below). *)
Theorem C46_defaults_partial : forall e ls fields outdir dtformat seconds, Forall line_ok ls ->
  assigned (lit "navIgnoreAbsence") ls <> None -> good_values ls fields outdir dtformat seconds ->
  exists c, read_cfg e (file_text ls) = Ok c /\ cfg_of e ls fields outdir dtformat seconds c.
Proof. exact read_cfg_ok. Qed.
Print Assumptions C46_defaults_partial.

(** every acceptable file that omits navIgnoreAbsence ends in TypeError, the empty one included *)
Theorem C46_omitted_refuted : forall e ls fields outdir dtformat seconds, Forall line_ok ls ->
  assigned (lit "navIgnoreAbsence") ls = None -> good_values ls fields outdir dtformat seconds ->
  read_cfg e (file_text ls) = Err TypeError.
Proof. exact read_cfg_omitted. Qed.
Print Assumptions C46_omitted_refuted.

(** non-vacuity: a file *)
Definition example_file : list cline :=
  [Comment (lit " settings"); Blank (lit "  ");
   Assign [] (lit "samplingInterval") (lit " ") (lit " ") (lit "30") (lit " ") (Some (lit " seconds"));
   Assign (lit " ") (lit "navIgnoreAbsence") [] [] (lit "True") [] None;
   Assign [] (lit "samplingInterval") [] [] (lit "60") [] None].
Lemma absent_dec c s : forallb (fun x => negb (ceqb x c)) s = true -> absent c s.
Proof. intros H HI. rewrite forallb_forall in H. apply H in HI. now rewrite ceqb_refl in HI. Qed.
Lemma trimmed_dec s : match s with [] => true | c :: _ => negb (is_space c) end = true ->
  match rev s with [] => true | c :: _ => negb (is_space c) end = true -> trimmed s.
Proof.
  intros H1 H2. split.
  - intros c r ->. now apply negb_true_iff.
  - intros r c ->. rewrite rev_unit in H2. now apply negb_true_iff.
Qed.
Ltac solid := repeat (constructor; [reflexivity|]); constructor.
Example example_file_ok : Forall line_ok example_file.
Proof.
  assert (H : forall w1 n w2 w3 v w4 c, absent newline (line_text (Assign w1 n w2 w3 v w4 c)) -> white w1 -> white w2 -> white w3 -> white w4 ->
    Forall (fun c => is_space c = false) n -> absent "="%char n -> absent "#"%char n -> trimmed v -> absent "="%char v -> absent "#"%char v ->
    line_ok (Assign w1 n w2 w3 v w4 c)) by (intros; split; [assumption|]; repeat split; assumption || apply H7).
  unfold example_file. constructor; [|constructor; [|constructor; [|constructor; [|constructor; [|constructor]]]]].
  - split; [now apply absent_dec|exact I].
  - split; [now apply absent_dec|solid].
  - apply H; try (now apply absent_dec); try (now apply trimmed_dec); solid.
  - apply H; try (now apply absent_dec); try (now apply trimmed_dec); solid.
  - apply H; try (now apply absent_dec); try (now apply trimmed_dec); solid.
Qed.
Example example_file_good : good_values example_file (lit "datetime, el, az, tec.l1l2, validity") (lit "./out") (lit "%Y-%j %H:%M:%S") 60.
Proof.
  constructor.
  - vm_compute. now left.
  - repeat split; try (now apply absent_dec). now left.
  - right. assert (H : items (without_space (lower (lit "datetime, el, az, tec.l1l2, validity"))) = map lit ["datetime"; "el"; "az"; "tec.l1l2"; "validity"]%string) by (vm_compute; reflexivity).
    rewrite H. cbn [map]. repeat (apply Forall_cons; [apply lookup_names; eexists; vm_compute; reflexivity|]). apply Forall_nil.
  - repeat split; try (now apply absent_dec). now left.
  - repeat split; try (now apply absent_dec). now left.
  - reflexivity.
  - split; [|split]; [|reflexivity|reflexivity].
    change (value_of example_file (lit "samplingInterval")) with (lit "60"). repeat constructor; apply digit_is_digit; reflexivity.
Qed.
Example example_file_ignore : assigned (lit "navIgnoreAbsence") example_file <> None.
Proof. discriminate. Qed.
