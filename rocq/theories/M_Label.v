(** Model of tecs/rinex/label.py, tecs/validity.py, tecs/gtb/tools.py and of the part of
    tecs/__main__.py that computes the validity word. *)
From Verif Require Import Base PyStr PyFloat PyDate M_Common M_Header M_Obs2.
Open Scope nat_scope.

(** An observation class: a tuple of codes. *)
Definition oclass := list str.

(** label.py:50-52 *)
Definition codes (band code : string) : oclass := map (fun c => lit band ++ [c]) (lit code).

(** label.py:57-97 *)
Definition cC1 : oclass := lit "C1" :: codes "C1" "CSLXYMABCZ".
Definition cC2 : oclass := lit "C2" :: codes "C2" "CDSLXYMIQ".
Definition cC3 : oclass := [lit "C3I"; lit "C3Q"; lit "C3X"].
Definition cC5 : oclass := lit "C5" :: codes "C5" "IQX".
Definition cC6 : oclass := lit "C6" :: codes "C6" "IQXABCZ".
Definition cC7 : oclass := lit "C7" :: codes "C7" "IQX".
Definition cC8 : oclass := lit "C8" :: codes "C8" "IQX".
Definition cP1 : oclass := [lit "P1"; lit "C1P"; lit "C1W"].
Definition cP2 : oclass := [lit "P2"; lit "C2P"; lit "C2W"].
Definition cP5 : oclass := [lit "P5"].
Definition cP6 : oclass := [lit "P6"].
Definition cP7 : oclass := [lit "P7"].
Definition cP8 : oclass := [lit "P8"].
Definition cL1 : oclass := lit "L1" :: codes "L1" "CSLXPWYMNABCZ".
Definition cL2 : oclass := lit "L2" :: codes "L2" "CDSLXPWYMNIQ".
Definition cL3 : oclass := [lit "L3I"; lit "L3Q"; lit "L3X"].
Definition cL5 : oclass := lit "L5" :: codes "L5" "IQX".
Definition cL6 : oclass := lit "L6" :: codes "L6" "IQXABCZ".
Definition cL7 : oclass := lit "L7" :: codes "L7" "IQX".
Definition cL8 : oclass := lit "L8" :: codes "L8" "IQX".
Definition cD1 : oclass := lit "D1" :: codes "D1" "CSLXPWYMNABCZ".
Definition cD2 : oclass := lit "D2" :: codes "D2" "CDSLXPWYMNIQ".
Definition cD3 : oclass := [lit "D3I"; lit "D3Q"; lit "D3X"].
Definition cD5 : oclass := lit "D5" :: codes "D5" "IQX".
Definition cD6 : oclass := lit "D6" :: codes "D6" "ABCXZ".
Definition cD7 : oclass := lit "D7" :: codes "D7" "IQX".
Definition cD8 : oclass := lit "D8" :: codes "D8" "IQX".
Definition cS1 : oclass := lit "S1" :: codes "S1" "CSLXPWYMNABCZ".
Definition cS2 : oclass := lit "S2" :: codes "S2" "CDSLXPWYMNIQ".
Definition cS3 : oclass := [lit "S3I"; lit "S3Q"; lit "S3X"].
Definition cS5 : oclass := lit "S5" :: codes "S5" "IQX".
Definition cS6 : oclass := lit "S6" :: codes "S6" "IQXABCZ".
Definition cS7 : oclass := lit "S7" :: codes "S7" "IQX".
Definition cS8 : oclass := lit "S8" :: codes "S8" "IQX".
(** label.py:100-102 *)
Definition cLLI1 : oclass := [lit "LLI1"].
Definition cLLI2 : oclass := [lit "LLI2"].
Definition cLLI5 : oclass := [lit "LLI5"].

(** label.py:104-112 *)
Definition obs_type_labels : list oclass :=
  [cC1; cC2; cC3; cC5; cC6; cC7; cC8; cP1; cP2; cP5; cP6; cP7; cP8;
   cL1; cL2; cL3; cL5; cL6; cL7; cL8; cS1; cS2; cS3; cS5; cS6; cS7; cS8;
   cD1; cD2; cD3; cD5; cD6; cD7; cD8].
Definition labels : list oclass := obs_type_labels ++ [cLLI1; cLLI2; cLLI5].

(** code in tuple *)
Definition in_class (code : str) (c : oclass) : bool := existsb (seqb code) c.

(** tuple equality *)
Fixpoint class_eqb (a b : oclass) : bool :=
  match a, b with
  | [], [] => true
  | x :: a', y :: b' => seqb x y && class_eqb a' b'
  | _, _ => false
  end.

(** label.py:115-122, with the list of classes as a parameter *)
Definition get_label_in (ls : list oclass) (code : str) : res oclass :=
  of_option LabelError (find (in_class code) ls).
Definition get_label : str -> res oclass := get_label_in labels.

(** validity.py:33-51 BIT_SET: class -> bit number *)
Definition bit_set : list (oclass * Z) :=
  [(cLLI1, 0%Z); (cLLI2, 1%Z); (cC1, 2%Z); (cL1, 3%Z); (cL2, 4%Z); (cP1, 5%Z); (cP2, 6%Z); (cS1, 7%Z); (cS2, 8%Z);
   (cD1, 9%Z); (cD2, 10%Z); (cD5, 11%Z); (cC2, 12%Z); (cC5, 13%Z); (cL5, 14%Z); (cS5, 15%Z); (cLLI5, 16%Z)].

(** validity.py:54-60 *)
Fixpoint set_bits_loop (types : list str) (value : Z) : res Z :=
  match types with
  | [] => Ok value
  | t :: r =>
    do l <- get_label t;
    set_bits_loop r (match dict_get class_eqb l bit_set with
                     | Some b => Z.lor value (2 ^ b)
                     | None => value
                     end)
  end.
Definition set_bits (types : list str) : res Z := set_bits_loop types 0.

(** validity.py:63-80 *)
Definition eval_validity (obs_types validity_types : list str) : res Z :=
  do standard <- set_bits obs_types;
  do actual <- set_bits validity_types;
  Ok (Z.lxor standard actual).

(** str comparison (by code points) and list.sort() *)
Fixpoint str_leb (a b : str) : bool :=
  match a, b with
  | [], _ => true
  | _ :: _, [] => false
  | x :: a', y :: b' => if ceqb x y then str_leb a' b' else (code x <? code y)%N
  end.
Fixpoint insert_str (x : str) (l : list str) : list str :=
  match l with
  | [] => [x]
  | y :: r => if str_leb x y then x :: l else y :: insert_str x r
  end.
Fixpoint sort_str (l : list str) : list str :=
  match l with [] => [] | x :: r => insert_str x (sort_str r) end.

(** list.remove: the first occurrence *)
Fixpoint remove_first (x : str) (l : list str) : list str :=
  match l with
  | [] => []
  | y :: r => if seqb x y then r else y :: remove_first x r
  end.

(** An entry of parse_rec's result: (value, LLI, strength), each possibly None. *)
Definition datum := (option float * option Z * option Z)%type.
Definition no_datum : datum := (None, None, None).
Definition datum_of (v : obsval) : datum := let '(x, l, s) := v in (x, Some l, Some s).

(** gtb/tools.py:55-61 *)
Fixpoint parse_rec_loop (classes : list oclass) (obs_types : list str) (rec : record) : list (oclass * datum) :=
  match classes with
  | [] => []
  | c :: r =>
    match find (fun ot => in_class ot c) obs_types with
    | Some ot =>
      (c, match dict_get seqb ot rec with Some v => datum_of v | None => no_datum end)
        :: parse_rec_loop r (remove_first ot obs_types) rec
    | None => (c, no_datum) :: parse_rec_loop r obs_types rec
    end
  end.
(** gtb/tools.py:35-63 parse_rec *)
Definition parse_rec (rec : record) : list (oclass * datum) :=
  parse_rec_loop obs_type_labels (sort_str (map fst rec)) rec.

(** ds[class] *)
Definition ds_get (d : list (oclass * datum)) (c : oclass) : datum :=
  match dict_get class_eqb c d with Some v => v | None => no_datum end.

(** __main__.py:603-605: types of the record with a true value *)
Definition valued_types (rec : record) : list str :=
  map fst (filter (fun kv => match fst (fst (snd kv)) with Some x => ftruth x | None => false end) rec).

(** __main__.py:607-615: bool(x) and x & 1 *)
Definition lli_type (d : datum) (name : str) : list str :=
  match snd (fst d) with
  | Some l => if negb (l =? 0)%Z && Z.odd l then [name] else []
  | None => []
  end.

(** __main__.py:596-618: the validity word of a record, [obs_types] being the declared types *)
Definition record_validity (obs_types : list str) (rec : record) : res Z :=
  let d := parse_rec rec in
  eval_validity obs_types
    (valued_types rec ++ lli_type (ds_get d cL1) (lit "LLI1") ++
     lli_type (ds_get d cL2) (lit "LLI2") ++ lli_type (ds_get d cL5) (lit "LLI5")).
