(** Specification of opening a RINEX 2 observation file: header layout, list of observation
    types, observation interval. *)
From Verif Require Import Base PyStr PyFloat PyDate S_Text S_Time S_Obs2 M_Obs2.
Open Scope nat_scope.

(** [s] occurs in [line] *)
Definition occurs (s line : str) : Prop := exists a b, line = a ++ s ++ b.

(** The file is a header without end-of-header text, the END OF HEADER line, and the body. *)
Definition file_parts (header : list str) (body file : list str) : Prop :=
  exists eoh, file = header ++ eoh :: body /\
    Forall (fun l => ~ occurs (lit "END OF HEADER") l) header /\
    has_label (lit "END OF HEADER") eoh.

(** the types as written: six columns each, of which the last two are the code *)
Inductive type_text : str -> str -> Prop :=
| tt pre a b : List.length pre = 4 -> type_text (pre ++ [a; b]) [a; b].

(** A "# / TYPES OF OBSERV" line: six columns of anything, up to nine types, the label. *)
Definition type_line (first : str) (types : list str) (line : str) : Prop :=
  exists texts rest, List.length first = 6 /\ Forall2 type_text texts types /\
    line = first ++ concat texts ++ rest /\ 1 <= List.length types <= 9 /\ occurs (lit "# / TYPES OF OBSERV") line.
Inductive type_lines : list str -> list str -> Prop :=
| tl_last first types line : type_line first types line -> type_lines types [line]
| tl_more first types more line lines : List.length types = 9 -> type_line first types line ->
    type_lines more lines -> type_lines (types ++ more) (line :: lines).

(** header whose observation type list is [types] (the count is on its first line) *)
Definition header_types (header : list str) (types : list str) : Prop :=
  exists before tl after, header = before ++ tl ++ after /\
    Forall (fun l => ~ occurs (lit "# / TYPES OF OBSERV") l) before /\
    type_lines types tl /\
    exists count line, nth_error tl 0 = Some line /\ int_field 6 count (Z.of_nat (List.length types)) /\
                       (exists r, line = count ++ r).

(** epochs of the data blocks, in file order *)
Fixpoint data_epochs (bs : list block) : list datetime :=
  match bs with
  | [] => []
  | BData ep _ _ :: r => ep :: data_epochs r
  | BEvent _ _ _ :: r => data_epochs r
  end.

(** the first epoch of the file does not come again after a different epoch *)
Definition first_epoch_once (bs : list block) : Prop :=
  exists e0 k rest, data_epochs bs = repeat e0 k ++ rest /\ ~ In e0 rest /\ 1 <= k.

(** non-zero differences (in microseconds) between consecutive epochs *)
Fixpoint diffs (prev : datetime) (eps : list datetime) : list Z :=
  match eps with
  | [] => []
  | e :: r => (if (instant e - instant prev =? 0)%Z then [] else [(instant e - instant prev)%Z]) ++ diffs e r
  end.
Definition epoch_diffs (eps : list datetime) : list Z :=
  match eps with [] => [] | e :: r => diffs e r end.

(** difference in seconds, as a Python float: nearest binary64 to us / 10^6 *)
Definition seconds (us : Z) (f : float) : Prop := nearest64 f (dec_real (us <? 0)%Z (Z.abs us) 6).

(** numbers equal to x in l *)
Definition times (x : float) (l : list float) : nat := List.length (filter (feqb x) l).
(** m is the most frequent element of l, the earliest one among equally frequent ones *)
Definition most_frequent (m : float) (l : list float) : Prop :=
  exists a b, l = a ++ m :: b /\
    (forall x, In x l -> times x l <= times m l) /\
    (forall x, In x a -> times x l < times m l).

(** The most frequent element of a list of integers, the earliest among equally frequent ones. *)
Definition most_frequent_us (m : Z) (l : list Z) : Prop :=
  exists a b, l = a ++ m :: b /\
    (forall x, In x l -> count_occ Z.eq_dec l x <= count_occ Z.eq_dec l m) /\
    (forall x, In x a -> count_occ Z.eq_dec l x < count_occ Z.eq_dec l m).

Definition dt_dec : forall a b : datetime, {a = b} + {a <> b}.
Proof. decide equality; apply Z.eq_dec. Defined.
Definition odt_dec : forall a b : option datetime, {a = b} + {a <> b}.
Proof. decide equality; apply dt_dec. Defined.

(** (epoch, satellite) pairs a reader must deliver: those of every block whose epoch differs from
    that of the block before it ([prec]), in file order. *)
Fixpoint expected (prec : option datetime) (bs : list block) : list (datetime * str) :=
  match bs with
  | [] => []
  | BData ep _ sats :: r =>
      (if odt_dec prec (Some ep) then [] else map (fun s => (ep, fst s)) sats) ++ expected (Some ep) r
  | BEvent _ _ _ :: r => expected prec r
  end.

(** no event announces a position *)
Definition no_positions (bs : list block) : Prop := forall fl ls np, In (BEvent fl ls np) bs -> np = None.
