(** Concrete RINEX 2 files: the hypotheses of the theorems are met, and witnesses of the claims
    the code violates. *)
From Coq Require Import ZifyBool ZifyNat.
From Verif Require Import Base PyStr PyFloat PyDate M_Common M_Header M_Obs2.
From Verif Require Import S_Text S_Time S_Obs2 S_Open2 S_Errors2 P_Str P_Date P_Obs2 P_Obs2b P_Obs2c P_Open2 P_Open2b P_View2 P_Errors2 W_Obs2.
Open Scope nat_scope.

Definition pad60 (s : string) (label : string) : str := lit s ++ spaces (60 - length (lit s)) ++ lit label ++ [nl].
Definition ex_pos0 : dec_position := ((false, 39284750000%Z), (true, 1234%Z), (false, 50000000000%Z)).
Definition ex_header : list str :=
  [pad60 "     2.11           OBSERVATION DATA    M" "RINEX VERSION / TYPE";
   pad60 "     7    C1    L1    L2    P2    S1    S2    D1" "# / TYPES OF OBSERV";
   put_pos ex_pos0;
   pad60 "  2012     1     1     0     0    0.0000000     GPS" "TIME OF FIRST OBS"].
Definition ex_eoh : str := pad60 "" "END OF HEADER".
Definition ex_file (body : list str) : list str := ex_header ++ ex_eoh :: body.
Definition ex_types : list str := map lit ["C1"; "L1"; "L2"; "P2"; "S1"; "S2"; "D1"]%string.

Definition t_at (h mi s us : Z) : datetime := mkDT 2012 1 1 h mi s us.
Definition ex_fields (k : Z) : list field :=
  [FVal false (20000000000 + k) 0 7; FVal true (105123456 + k) 1 5; FBlank; FVal false 20000000123 0 0; FBlank; FVal false 45000 0 0; FBlank].
Definition ex_name (n : nat) : str := "G"%char :: fmt_0d 2 (Z.of_nat n).
Definition ex_sats (n : nat) : list (str * list field) := map (fun k => (ex_name (S k), ex_fields (Z.of_nat k))) (seq 0 n).
Definition ex_pos1 : dec_position := ((false, 11110000%Z), (false, 22220000%Z), (true, 33330000%Z)).
Definition ex_blocks : list block :=
  [BData (t_at 0 0 0 0) 0 (ex_sats 14);
   BData (t_at 0 0 30 0) 0 (ex_sats 3);
   BData (t_at 0 0 30 0) 1 (ex_sats 2);
   BEvent 4 [put_pos ex_pos1; lit "a comment"] (Some ex_pos1);
   BData (t_at 0 1 0 500000) 0 (ex_sats 1);
   BEvent 5 [] None].

Lemma ex_parts body : file_parts ex_header body (ex_file body).
Proof.
  exists ex_eoh. split; [reflexivity|]. split.
  - apply Forall_forall. intros l Hl. apply contains_false. revert l Hl. apply Forall_forall. repeat constructor.
  - exists (spaces 60), [nl]. split; [reflexivity|]. split; [reflexivity|]. repeat constructor.
Qed.
Lemma ex_header_types : header_types ex_header ex_types.
Proof.
  exists [nth 0 ex_header []], [nth 1 ex_header []], [nth 2 ex_header []; nth 3 ex_header []]. split; [reflexivity|]. split.
  { constructor; [|constructor]. apply contains_false. reflexivity. }
  split.
  - apply (tl_last (lit "     7")). exists (map (fun t => spaces 4 ++ t) ex_types), (spaces 12 ++ lit "# / TYPES OF OBSERV" ++ [nl]).
    split; [reflexivity|]. split; [|split; [reflexivity|split; [cbn; lia|apply contains_spec; reflexivity]]].
    unfold ex_types. cbn [map]. repeat (constructor; [match goal with |- type_text ?a ?b => change a with (spaces 4 ++ b) end; apply tt; reflexivity|]). constructor.
  - exists (lit "     7"), (nth 1 ex_header []). split; [reflexivity|]. split; [|eexists; reflexivity].
    split; [reflexivity|]. exists (spaces 5), (lit "7"). split; [reflexivity|]. split; [apply spaces_blanks|].
    split; [constructor; [unfold digit; cbn; lia|constructor]|]. split; [discriminate|reflexivity].
Qed.

Lemma valid_dt_dec t : dt_ok t = true -> valid_datetime t.
Proof. apply valid_datetime_iff. Qed.
Definition name_okb (nm : str) : bool :=
  match nm with [c; d1; d2] => is_upper c && is_digit d1 && is_digit d2 | _ => false end.
Lemma name_okb_ok nm : name_okb nm = true -> valid_name nm.
Proof.
  destruct nm as [|c [|d1 [|d2 [|]]]]; cbn [name_okb]; try discriminate. intros H. apply andb_prop in H. destruct H as [H H2]. apply andb_prop in H. destruct H as [H H1].
  exists c, d1, d2. split; [reflexivity|]. split; [exact H|]. split; now apply digit_is_digit.
Qed.
Definition field_okb (f : field) : bool :=
  match f with FBlank => true | FVal _ m l k => ((0 <=? m) && (m <? 10 ^ 12) && (0 <=? l) && (l <=? 9) && (0 <=? k) && (k <=? 9))%Z end.
Lemma field_okb_ok f : field_okb f = true -> valid_field f.
Proof. destruct f; cbn [field_okb valid_field]; [auto|lia]. Qed.
Definition sat_okb (n : nat) (s : str * list field) : bool := name_okb (fst s) && (length (snd s) =? n) && forallb field_okb (snd s).
Lemma sat_okb_ok n s : sat_okb n s = true -> valid_name (fst s) /\ length (snd s) = n /\ Forall valid_field (snd s).
Proof.
  unfold sat_okb. intros H. apply andb_prop in H. destruct H as [H H2]. apply andb_prop in H. destruct H as [H H1].
  split; [now apply name_okb_ok|]. split; [now apply Nat.eqb_eq|]. apply Forall_forall. intros f Hf. apply field_okb_ok. rewrite forallb_forall in H2. auto.
Qed.
Definition data_okb (n : nat) (ep : datetime) (fl : Z) (sats : list (str * list field)) : bool :=
  dt_ok ep && ((1989 <=? dy ep) && (dy ep <=? 2088) && ((fl =? 0) || (fl =? 1)))%Z && forallb (sat_okb n) sats && (length sats <? 1000).
Lemma data_okb_ok n ep fl sats : data_okb n ep fl sats = true -> valid_block n (BData ep fl sats).
Proof.
  unfold data_okb. intros H. apply andb_prop in H. destruct H as [H H4]. apply andb_prop in H. destruct H as [H H3]. apply andb_prop in H. destruct H as [H1 H2].
  cbn [valid_block]. split; [split; [now apply valid_dt_dec|lia]|]. split; [lia|]. split; [|now apply Nat.ltb_lt].
  apply Forall_forall. intros s Hs. apply sat_okb_ok. rewrite forallb_forall in H3. auto.
Qed.
Lemma other_line_ok l : forallb (fun lab => negb (seqb (line_label l) lab)) known_labels = true -> event_line l None.
Proof.
  intros H. apply ev_other. intros lab Hin Hh. rewrite forallb_forall in H. specialize (H lab Hin). apply negb_true_iff in H. apply seqb_neq in H.
  apply H. apply has_label_label; [|exact Hh]. cbn in Hin. repeat destruct Hin as [<-|Hin]; try reflexivity. contradiction.
Qed.

Lemma ex_valid : Forall (valid_block 7) ex_blocks.
Proof.
  unfold ex_blocks.
  constructor; [apply data_okb_ok; vm_compute; reflexivity|].
  constructor; [apply data_okb_ok; vm_compute; reflexivity|].
  constructor; [apply data_okb_ok; vm_compute; reflexivity|].
  constructor.
  { cbn [valid_block]. split; [lia|]. split; [cbn; lia|]. left. split; [lia|].
    apply es_pos; [apply put_pos_ok; unfold valid_dec4; cbn; lia|]. constructor; [apply other_line_ok; reflexivity|constructor]. }
  constructor; [apply data_okb_ok; vm_compute; reflexivity|].
  constructor; [|constructor]. cbn [valid_block]. split; [lia|]. split; [cbn; lia|]. right. split; [lia|reflexivity].
Qed.
Lemma ex_body : body_lines 7 ex_blocks (put_body ex_blocks).
Proof. apply put_body_ok. exact ex_valid. Qed.
Lemma ex_nodup : NoDup ex_types.
Proof. unfold ex_types. cbn. repeat (constructor; [cbn; intuition discriminate|]). constructor. Qed.
Lemma ex_once : first_epoch_once ex_blocks.
Proof.
  exists (t_at 0 0 0 0), 1, [t_at 0 0 30 0; t_at 0 0 30 0; t_at 0 1 0 500000]. split; [reflexivity|]. split; [|lia].
  cbn. intuition discriminate.
Qed.
Definition ex_reader : res reader2 := open2 V211 (ex_file (put_body ex_blocks)).
Lemma ex_open : exists r, ex_reader = Ok r /\ r_types r = ex_types.
Proof. eexists. split; [vm_compute; reflexivity|vm_compute; reflexivity]. Qed.
(** eighteen records come out: 14 + 3 + 0 (repeated epoch) + 1 *)
Lemma ex_count : match ex_reader with Ok r => length (fst (fst (records2 V211 r))) = 18 | Err _ => False end.
Proof. vm_compute. reflexivity. Qed.

(** ** witnesses of violated claims *)
(** epochs A, B, A: the first block is lost *)
Definition aba_blocks : list block :=
  [BData (t_at 0 0 0 0) 0 (ex_sats 2); BData (t_at 0 0 30 0) 0 (ex_sats 2); BData (t_at 0 0 0 0) 0 (ex_sats 2)].
Lemma aba_valid : Forall (valid_block 7) aba_blocks.
Proof. unfold aba_blocks. repeat (constructor; [apply data_okb_ok; vm_compute; reflexivity|]). constructor. Qed.
Definition ids (ys : list (orec * obj2)) : list (datetime * str) := map (fun y => fst (fst y)) ys.
Lemma aba_lost : exists r, open2 V211 (ex_file (put_body aba_blocks)) = Ok r /\ r_types r = ex_types /\
  ids (fst (fst (records2 V211 r))) = [(t_at 0 0 30 0, ex_name 1); (t_at 0 0 30 0, ex_name 2); (t_at 0 0 0 0, ex_name 1); (t_at 0 0 0 0, ex_name 2)].
Proof. eexists. split; [vm_compute; reflexivity|]. split; vm_compute; reflexivity. Qed.

(** a later event moves the position reported for the opened file *)
Definition moved_blocks : list block :=
  [BData (t_at 0 0 0 0) 0 (ex_sats 2); BData (t_at 0 0 30 0) 0 (ex_sats 2); BEvent 4 [put_pos ex_pos1] (Some ex_pos1)].
Lemma moved_valid : Forall (valid_block 7) moved_blocks.
Proof.
  unfold moved_blocks. do 2 (constructor; [apply data_okb_ok; vm_compute; reflexivity|]). constructor; [|constructor].
  cbn [valid_block]. split; [lia|]. split; [cbn; lia|]. left. split; [lia|].
  apply es_pos; [apply put_pos_ok; unfold valid_dec4; cbn; lia|]. constructor.
Qed.
Lemma moved_wrong : exists r h, open2 V211 (ex_file (put_body moved_blocks)) = Ok r /\ r_types r = ex_types /\
  parse_header V211 ex_header hdr0 = Ok h /\ h_xyz (o_hdr (r_obj r)) <> h_xyz h.
Proof.
  eexists _, _. split; [vm_compute; reflexivity|]. split; [vm_compute; reflexivity|]. split; [vm_compute; reflexivity|]. vm_compute. discriminate.
Qed.

(** half-second interval in a version 2.0 file: reported as 0; descending epochs: negative *)
Definition half_blocks : list block := [BData (t_at 0 0 0 0) 0 (ex_sats 1); BData (t_at 0 0 0 500000) 0 (ex_sats 1); BData (t_at 0 0 1 0) 0 (ex_sats 1)].
Lemma half_valid : Forall (valid_block 7) half_blocks.
Proof. unfold half_blocks. repeat (constructor; [apply data_okb_ok; vm_compute; reflexivity|]). constructor. Qed.
Lemma half_zero : exists r, open2 V20 (ex_file (put_body half_blocks)) = Ok r /\ h_interval (o_hdr (r_obj r)) = Some (PInt 0).
Proof. eexists. split; vm_compute; reflexivity. Qed.
Definition desc_blocks : list block := [BData (t_at 0 1 0 0) 0 (ex_sats 1); BData (t_at 0 0 0 0) 0 (ex_sats 1)].
Lemma desc_valid : Forall (valid_block 7) desc_blocks.
Proof. unfold desc_blocks. repeat (constructor; [apply data_okb_ok; vm_compute; reflexivity|]). constructor. Qed.
Lemma desc_negative : exists r, open2 V211 (ex_file (put_body desc_blocks)) = Ok r /\ h_interval (o_hdr (r_obj r)) = Some (PFloat (float_of_Z (-60))).
Proof. eexists. split; vm_compute; reflexivity. Qed.

(** twelve good epochs, then a bad one *)
Definition many_blocks : list block := map (fun k => BData (t_at 0 (Z.of_nat k) 0 0) 0 (ex_sats 1)) (seq 0 12).
Lemma many_valid : Forall (valid_block 7) many_blocks.
Proof. apply Forall_forall. intros b Hb. unfold many_blocks in Hb. apply in_map_iff in Hb. destruct Hb as [k [<- Hk]]. apply in_seq in Hk.
  apply data_okb_ok. do 12 (destruct k as [|k]; [vm_compute; reflexivity|]). lia. Qed.
Lemma many_body : body_lines 7 many_blocks (put_body many_blocks).
Proof. apply put_body_ok. exact many_valid. Qed.
Definition huge_epoch : str := lit " 12  1  1  0 30       1e99  0  1G01" ++ [nl].
Lemma huge_overflow : exists r, open2 V211 (ex_file (put_body many_blocks ++ [huge_epoch])) = Ok r /\
  snd (fst (records2 V211 r)) = GRaise OverflowError /\ length (fst (fst (records2 V211 r))) = 12.
Proof. eexists. split; [vm_compute; reflexivity|]. split; vm_compute; reflexivity. Qed.
Definition garbage_epoch : str := lit " 12  1  1  0 30  0.0000000  x  1G01" ++ [nl].
Lemma garbage_bad : bad_epoch garbage_epoch.
Proof. apply be_flag. intros n H. vm_compute in H. discriminate. Qed.
Lemma garbage_late : exists r, open2 V211 (ex_file (put_body many_blocks ++ [garbage_epoch])) = Ok r /\ r_types r = ex_types.
Proof. eexists. split; vm_compute; reflexivity. Qed.
(** the same malformed line early in the file: nothing is delivered at all *)
Lemma garbage_early : open2 V211 (ex_file (put_body desc_blocks ++ [garbage_epoch])) = Err RinexError.
Proof. vm_compute. reflexivity. Qed.
Lemma many_once : first_epoch_once many_blocks.
Proof.
  exists (t_at 0 0 0 0), 1, (map (fun k => t_at 0 (Z.of_nat k) 0 0) (seq 1 11)). split; [reflexivity|]. split; [|lia].
  cbn. intuition discriminate.
Qed.

(** ** the refutations in the form of the property theorems *)
Lemma repeated_epochs_bad : exists file header body blocks r,
  file_parts header body file /\ open2 V211 file = Ok r /\ NoDup (r_types r) /\
  body_lines (length (r_types r)) blocks body /\
  map (fun y => fst (fst y)) (fst (fst (records2 V211 r))) <> expected None blocks.
Proof.
  destruct aba_lost as [r [H1 [H2 H3]]]. exists (ex_file (put_body aba_blocks)), ex_header, (put_body aba_blocks), aba_blocks, r.
  split; [apply ex_parts|]. split; [exact H1|]. rewrite H2. split; [exact ex_nodup|]. split; [exact (put_body_ok 7 _ aba_valid)|].
  intros E. unfold ids in H3. rewrite H3 in E. apply (f_equal (@length _)) in E. discriminate E.
Qed.
Lemma first_position_bad : exists file header body blocks r h,
  file_parts header body file /\ open2 V211 file = Ok r /\ body_lines (length (r_types r)) blocks body /\
  parse_header V211 header hdr0 = Ok h /\ h_xyz (o_hdr (r_obj r)) <> h_xyz h.
Proof.
  destruct moved_wrong as [r [h [H1 [H2 [H3 H4]]]]]. exists (ex_file (put_body moved_blocks)), ex_header, (put_body moved_blocks), moved_blocks, r, h.
  split; [apply ex_parts|]. split; [exact H1|]. rewrite H2. split; [exact (put_body_ok 7 _ moved_valid)|]. split; assumption.
Qed.
Lemma interval_zero : exists body blocks r, body_lines 7 blocks body /\
  open2 V20 (ex_file body) = Ok r /\ h_interval (o_hdr (r_obj r)) = Some (PInt 0).
Proof.
  destruct half_zero as [r H]. exists (put_body half_blocks), half_blocks, r. split; [exact (put_body_ok 7 _ half_valid)|exact H].
Qed.
Lemma interval_negative : exists body blocks r, body_lines 7 blocks body /\
  open2 V211 (ex_file body) = Ok r /\ h_interval (o_hdr (r_obj r)) = Some (PFloat (float_of_Z (-60))).
Proof.
  destruct desc_negative as [r H]. exists (put_body desc_blocks), desc_blocks, r. split; [exact (put_body_ok 7 _ desc_valid)|exact H].
Qed.
Lemma malformed_overflow : exists body blocks line r, body_lines 7 blocks body /\
  open2 V211 (ex_file (body ++ [line])) = Ok r /\ snd (fst (records2 V211 r)) = GRaise OverflowError.
Proof.
  destruct huge_overflow as [r [H1 [H2 _]]]. exists (put_body many_blocks), many_blocks, huge_epoch, r. split; [exact many_body|]. split; assumption.
Qed.
Lemma malformed_early : exists body blocks line, body_lines 7 blocks body /\ expected None blocks <> [] /\ bad_epoch line /\
  open2 V211 (ex_file (body ++ [line])) = Err RinexError.
Proof.
  exists (put_body desc_blocks), desc_blocks, garbage_epoch. split; [exact (put_body_ok 7 _ desc_valid)|].
  split; [discriminate|]. split; [exact garbage_bad|exact garbage_early].
Qed.
