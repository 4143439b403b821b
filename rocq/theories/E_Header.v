(** Concrete headers for the examples of T_Header.v. *)
From Verif Require Import Base PyStr PyFloat PyDate M_Common M_Header S_Text P_Str S_Time P_Date P_Common S_Obs2 P_Obs2 P_Obs2c E_Obs2 E_Obs3 E_Nav P_Names6 W_Obs2 S_Header.
Open Scope nat_scope.

Lemma fix_lit w k s b ip fp m : s = b ++ [] ++ ip ++ ["."%char] ++ fp -> List.length s = w -> forallb (fun c => Ascii.eqb c " ") b = true ->
  forallb is_digit ip = true -> forallb is_digit fp = true -> List.length fp = k -> ip ++ fp <> [] -> m = dec_value (ip ++ fp) -> fix_field w k s false m.
Proof.
  intros -> HL Hb Hi Hf Hk Hn ->. split; [exact HL|]. exists b, ip, fp. split; [reflexivity|]. split; [now apply blanks_lit|].
  split; [now apply digits_lit|]. split; [now apply digits_lit|]. auto.
Qed.
Lemma other_item v l : forallb (fun lab => negb (seqb (line_label l) lab)) known_labels = true -> header_line v l IOther.
Proof. intros H. apply other_line_ok in H. inversion H; subst. now apply hl_other. Qed.
Lemma pos_item v : header_line v (put_pos ex_pos0) (IPosition ex_pos0).
Proof. apply hl_position. apply put_pos_ok. cbn. unfold valid_dec4. cbn. lia. Qed.
Definition t0_2012 : datetime := mkDT 2012 1 1 0 0 0 0.
Definition t0_2015 : datetime := mkDT 2015 1 1 0 0 0 0.

Lemma ver_item v (a c c2 : str) (ip fp : str) ft sys line m k :
  line = (lit "     " ++ ip ++ "."%char :: fp ++ []) ++ a ++ [ft] ++ c ++ [sys] ++ c2 ++ lit "RINEX VERSION / TYPE" ++ [nl] ->
  forallb is_digit ip = true -> forallb is_digit fp = true -> ip ++ fp <> [] ->
  List.length (lit "     " ++ ip ++ "."%char :: fp ++ []) = 9 -> List.length a = 11 -> List.length c = 19 -> List.length c2 = 19 ->
  m = dec_value (ip ++ fp) -> k = List.length fp -> header_line v line (IVersion m k ft sys).
Proof.
  intros -> Hi Hf Hn Hl Ha Hc Hc2 -> ->.
  apply hl_version; try assumption; try (now apply digits_lit); try (apply blanks_lit; reflexivity). constructor; [reflexivity|constructor].
Qed.

Definition ex_items : list hitem := [IVersion 211 2 "O" "M"; IOther; IPosition ex_pos0; ITime t0_2012 (lit "GPS")].
Lemma ex_header_items : Forall2 (header_line V211) ex_header ex_items.
Proof.
  constructor; [|constructor; [|constructor; [|constructor; [|constructor]]]].
  - eapply (ver_item _ (skipn 9 (firstn 20 (pad60 "     2.11           OBSERVATION DATA    M" "RINEX VERSION / TYPE")))
      (lit "BSERVATION DATA    ") (spaces 19) (lit "2") (lit "11")); [vm_compute; reflexivity|reflexivity|reflexivity|discriminate|reflexivity..].
  - apply other_item. vm_compute. reflexivity.
  - apply pos_item.
  - pose proof (hl_time V211 (lit "  2012") (lit "     1") (lit "     1") (lit "     0") (lit "     0") (lit "    0.0000000") (spaces 5) (lit "GPS") (spaces 9) [nl]
      2012 1 1 0 0 0 t0_2012) as H.
    match type of H with _ -> _ -> _ -> _ -> _ -> _ -> _ -> _ -> _ -> _ -> _ -> _ -> _ -> _ -> header_line _ ?l _ =>
      assert (E : l = nth 3 ex_header []) by (vm_compute; reflexivity); rewrite E in H; apply H; clear H E end.
    + eapply (int_lit 6 _ (lit "  ") (lit "2012")); try reflexivity; discriminate.
    + eapply (int_lit 6 _ (lit "     ") (lit "1")); try reflexivity; discriminate.
    + eapply (int_lit 6 _ (lit "     ") (lit "1")); try reflexivity; discriminate.
    + eapply (int_lit 6 _ (lit "     ") (lit "0")); try reflexivity; discriminate.
    + eapply (int_lit 6 _ (lit "     ") (lit "0")); try reflexivity; discriminate.
    + eapply (fix_lit 13 7 _ (lit "    ") (lit "0") (lit "0000000")); try reflexivity; discriminate.
    + reflexivity.
    + apply blanks_lit. reflexivity.
    + reflexivity.
    + reflexivity.
    + constructor; [reflexivity|constructor].
    + unfold epoch_in_range, valid_date. repeat split; vm_compute; discriminate.
    + unfold valid_datetime, valid_date. repeat split; vm_compute; discriminate.
    + vm_compute. reflexivity.
Qed.
