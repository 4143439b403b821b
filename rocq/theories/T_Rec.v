(** Property theorems: output rows (C36, C37, C38). *)
From Coq Require Import Permutation Sorted Reals.
From Verif Require Import Base PyStr PyFloat PyDate M_Header M_Obs2 M_Rec S_Text S_Time S_Label S_Rec P_Rec P_Tsn.
Open Scope nat_scope.

Definition ex_t : datetime := mkDT 2017 3 5 10 20 30 0.
Definition ex_q (q : quantity) : option pyval :=
  match q with QEl => Some (VFloat (b64_of_dec false 4512345 (-5))) | QTec k => if String.eqb k "l1l2" then Some (VFloat (b64_of_dec true 12345 (-4))) else None | QValidity => Some (VInt 4) | _ => None end.

(** C36.  For every accepted list of fields, every epoch, positive interval and record: the row is
    written, its i-th cell is the value of the i-th field, cells are separated by one blank. *)
Theorem C36_columns : forall dtlen fields rf dtx t iv q0 q,
  compose_rec_format dtlen fields = Ok rf -> valid_datetime t -> interval_ms iv q0 -> (1 <= q0 < 10 ^ 9)%Z -> (forall qq, typed qq (q qq)) ->
  exists n cells row, row_text rf dtx iv t q = Ok row /\ row_of cells row /\ serial_ok n (us_of_day t) q0 /\
    Forall2 (cell_of dtx t n q) (rf_fields rf) cells.
Proof. exact row_ok. Qed.
Print Assumptions C36_columns.
(** The fields are the listed ones; an unknown one, and only that, raises CfgError. *)
Theorem C36_fields : forall dtlen fields, fields <> [] -> ~ In (lit "all") fields ->
  match compose_rec_format dtlen fields with
  | Ok rf => rf_fields rf = fields /\ Forall (fun f => In f field_names) fields
  | Err e => e = CfgError /\ ~ Forall (fun f => In f field_names) fields
  end.
Proof. exact compose_names. Qed.
Print Assumptions C36_fields.
(** 'all' stands for all fields in alphabetical order. *)
Theorem C36_all : forall dtlen fields, In (lit "all") fields -> exists rf, compose_rec_format dtlen fields = Ok rf /\
  Permutation field_names (rf_fields rf) /\ StronglySorted str_le (rf_fields rf).
Proof. exact compose_all. Qed.
Print Assumptions C36_all.
Example C36_example : exists rf, compose_rec_format 17 [lit "tsn"; lit "hour"; lit "el"; lit "tec.l1l2"; lit "validity"; lit "p1"] = Ok rf /\
  row_text rf (fun _ => lit "2017-064 10:20:30") (PInt 30) ex_t ex_q
  = Ok (lit "       1241 10.34166666667   45.12345                -1.234       4            0.000" ++ [ascii_of_nat 10]) /\
  (forall qq, typed qq (ex_q qq)) /\ valid_datetime ex_t /\ interval_ms (PInt 30) 30000.
Proof.
  eexists. split; [vm_compute; reflexivity|]. split; [vm_compute; reflexivity|]. split.
  - intros qq. destruct qq; try exact I.
    + split; [discriminate|split; vm_compute; reflexivity].
    + change (Z.abs 4 <= 2 ^ 53)%Z. lia.
    + unfold ex_q. destruct (String.eqb o "l1l2"); [|exact I]. split; [discriminate|split; vm_compute; reflexivity].
  - split; [repeat split; cbn; discriminate|reflexivity].
Qed.

(** C37.  The header describes the rows, for lists without site.l, site.b, site.h ... *)
Theorem C37_fortran_partial : forall dtlen fields rf, compose_rec_format dtlen fields = Ok rf ->
  (forall f, In f [lit "site.l"; lit "site.b"; lit "site.h"] -> ~ In f (rf_fields rf)) ->
  exists ds s, rf_fortran rf = "("%char :: s ++ [")"%char] /\ descriptor_list ds s /\ Forall2 (describes dtlen) (rf_fields rf) ds.
Proof. exact fortran_ok. Qed.
Print Assumptions C37_fortran_partial.
(** ... but not for those: the header announces 23 columns, the row has 17. *)
Theorem C37_fortran_refuted : exists rf row, compose_rec_format 17 [lit "site.l"] = Ok rf /\ rf_fortran rf = lit "(F23.12)" /\
  row_text rf (fun _ => []) (PInt 30) ex_t (fun q => match q with QSite _ => Some (VFloat (float_of_Z 104)) | _ => None end) = Ok row /\
  List.length row = 17 + 1.
Proof. eexists. eexists. split; [vm_compute; reflexivity|]. split; [vm_compute; reflexivity|]. split; [vm_compute; reflexivity|]. reflexivity. Qed.
Print Assumptions C37_fortran_refuted.
Example C37_example : exists rf, compose_rec_format 17 [lit "datetime"; lit "el"; lit "p1.lli"; lit "tec.l1l2"] = Ok rf /\
  rf_fortran rf = lit "(A17,1X,F10.5,1X,I1,1X,F21.3)".
Proof. eexists. split; vm_compute; reflexivity. Qed.

(** C38.  The serial number is within one half of (time of day) / interval ... *)
Theorem C38_tsn : forall t iv q, valid_datetime t -> interval_ms iv q -> (1 <= q < 10 ^ 9)%Z ->
  exists n, tsn_of t iv = Ok n /\ serial_ok n (us_of_day t) q.
Proof. exact tsn_ok. Qed.
Print Assumptions C38_tsn.
(** ... and exactly k at k times the interval. *)
Theorem C38_tsn_exact : forall t iv q k n, valid_datetime t -> interval_ms iv q -> (1 <= q < 10 ^ 9)%Z ->
  us_of_day t = (k * (q * 1000))%Z -> tsn_of t iv = Ok n -> n = k.
Proof. exact tsn_exact. Qed.
Print Assumptions C38_tsn_exact.
Example C38_example : tsn_of ex_t (PInt 30) = Ok 1241%Z /\ tsn_of (mkDT 2017 3 5 0 0 0 300000) (PFloat (b64_of_dec false 100 (-3))) = Ok 3%Z /\
  interval_ms (PInt 30) 30000.
Proof. repeat split; vm_compute; reflexivity. Qed.
