(** Property theorems: observation classes, parse_rec, validity word (C24, C25, C26). *)
From Coq Require Import Permutation.
From Verif Require Import Base PyStr PyFloat M_Obs2 M_Label S_Label P_Label.
Open Scope nat_scope.

Definition ex_rec : record :=
  [(lit "C1C", (Some (float_of_Z 2000), 0%Z, 0%Z)); (lit "L1C", (Some (float_of_Z 3), 1%Z, 5%Z)); (lit "L1W", (Some (float_of_Z 4), 0%Z, 5%Z));
   (lit "C2W", (None, 0%Z, 0%Z)); (lit "L2W", (Some fzero, 1%Z, 0%Z))].

(** C24.  Bits of the classes: exactly one of "declared" and "has a non-zero value". *)
Theorem C24_class_bits : forall types rec w k c,
  NoDup (map fst rec) -> record_validity types rec = Ok w -> class_bit k = Some c ->
  (Z.testbit w k = true <-> (declared types c /\ ~ has_value rec c) \/ (has_value rec c /\ ~ declared types c)).
Proof. exact validity_class_bit. Qed.
Print Assumptions C24_class_bits.
(** Bits of the loss-of-lock indicators (0: L1, 1: L2, 16: L5). *)
Theorem C24_lock_bits : forall types rec w k c,
  NoDup (map fst rec) -> no_lli types -> no_lli (map fst rec) -> record_validity types rec = Ok w -> lock_bit k = Some c ->
  (Z.testbit w k = true <-> lock_lost rec c).
Proof. exact validity_lock_bit. Qed.
Print Assumptions C24_lock_bits.
Theorem C24_no_other_bits : forall types rec w k, record_validity types rec = Ok w -> (16 < k)%Z -> Z.testbit w k = false.
Proof. exact validity_high. Qed.
Print Assumptions C24_no_other_bits.
(** It is defined whenever all codes are known. *)
Theorem C24_defined : forall types rec, NoDup (map fst rec) ->
  (forall t, In t types \/ In t (map fst rec) -> exists c, In c labels /\ In t c) -> exists w, record_validity types rec = Ok w.
Proof. exact record_validity_total. Qed.
Print Assumptions C24_defined.
(** declared C1C L1C C2W L2W: bits 6 (P2) and 4 (L2) missing, LLI1 and LLI2 set *)
Example C24_example : record_validity [lit "C1C"; lit "L1C"; lit "C2W"; lit "L2W"] ex_rec = Ok (1 + 2 + 16 + 64)%Z /\ NoDup (map fst ex_rec).
Proof. split; [vm_compute; reflexivity|]. cbn. repeat (constructor; [cbn; intuition discriminate|]). constructor. Qed.

(** C25.  At most one class per code ... *)
Theorem C25_one_class : forall i j a b code, nth_error labels i = Some a -> nth_error labels j = Some b -> In code a -> In code b -> i = j.
Proof. exact label_unique. Qed.
Print Assumptions C25_one_class.
(** ... so the order of the search does not matter ... *)
Theorem C25_search_order : forall ls code, Permutation labels ls -> get_label_in ls code = get_label code.
Proof. exact order_irrelevant. Qed.
Print Assumptions C25_search_order.
(** ... unknown codes, and only those, raise LabelError ... *)
Theorem C25_unknown : forall code, get_label code = Err LabelError <-> (forall c, In c labels -> ~ In code c).
Proof. exact (get_label_err labels). Qed.
Print Assumptions C25_unknown.
(** ... and phase codes have signal strength and (but for L6I and L6Q) Doppler codes. *)
Theorem C25_phase_codes_partial : forall band attr c, get_label (code3 "L" band attr) = Ok c ->
  (exists d, get_label (code3 "S" band attr) = Ok d) /\
  ((band, attr) <> ("6", "I")%char /\ (band, attr) <> ("6", "Q")%char -> exists d, get_label (code3 "D" band attr) = Ok d).
Proof. exact phase_codes. Qed.
Print Assumptions C25_phase_codes_partial.
(** The claim itself is false: D6I and D6Q are unknown. *)
Theorem C25_phase_codes_refuted : exists band attr c, get_label (code3 "L" band attr) = Ok c /\ get_label (code3 "D" band attr) = Err LabelError.
Proof. exact phase_no_doppler. Qed.
Print Assumptions C25_phase_codes_refuted.
Example C25_example : get_label (lit "L2W") = Ok cL2 /\ get_label (lit "L2") = Ok cL2 /\ get_label (lit "C2W") = Ok cP2 /\ get_label (lit "D6I") = Err LabelError.
Proof. repeat split; vm_compute; reflexivity. Qed.

(** C26.  The alphabetically first code of the class present in the record ... *)
Theorem C26_first_code : forall rec c k v, NoDup (map fst rec) -> In c obs_type_labels -> first_of_class rec c k -> In (k, v) rec ->
  dict_get class_eqb c (parse_rec rec) = Some (datum_of v).
Proof. exact parse_rec_first. Qed.
Print Assumptions C26_first_code.
(** ... which there is as soon as the class occurs ... *)
Theorem C26_first_exists : forall rec c, (exists k, In k (map fst rec) /\ In k c) -> exists k, first_of_class rec c k.
Proof. exact first_exists. Qed.
Print Assumptions C26_first_exists.
(** ... and three times None when it does not occur. *)
Theorem C26_no_code : forall rec c, In c obs_type_labels -> (forall k, In k (map fst rec) -> ~ In k c) ->
  dict_get class_eqb c (parse_rec rec) = Some (None, None, None).
Proof. exact parse_rec_none. Qed.
Print Assumptions C26_no_code.
Example C26_example : first_of_class ex_rec cL1 (lit "L1C") /\ ds_get (parse_rec ex_rec) cL1 = (Some (float_of_Z 3), Some 1%Z, Some 5%Z) /\
  ds_get (parse_rec ex_rec) cC5 = (None, None, None).
Proof.
  split; [|split; vm_compute; reflexivity]. split; [cbn; tauto|]. split; [cbn; tauto|]. intros k Hk Hc. cbn in Hk.
  repeat (destruct Hk as [<-|Hk]; [first [apply str_leb_le; vm_compute; reflexivity|exfalso; cbn in Hc; intuition discriminate]|]). contradiction.
Qed.
