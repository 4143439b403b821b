(** Specification of the numbers shown in comments. *)
From Flocq Require Import IEEE754.BinarySingleNaN.
From Verif Require Import Base PyStr PyFloat M_Header M_Text M_Num.
Open Scope nat_scope.

(** a binary64 number (finite, infinite or NaN) *)
Definition is_b64 (x : float) : Prop := valid_binary 53 1024 x = true.
Definition is_b64_3 (p : xyz) : Prop := let '(x, y, z) := p in is_b64 x /\ is_b64 y /\ is_b64 z.
(** the numbers of a text, separated by [sep], as Python's float() reads them *)
Definition numbers (sep : ascii) (s : str) : list (res float) := map py_float (split_on sep s).
Definition three_of (p : xyz) : list (res float) := let '(x, y, z) := p in [Ok x; Ok y; Ok z].
(** an interval read back: an int by int(), a float by float() *)
Definition reads_interval (s : str) (v : pynum) : Prop :=
  match v with PInt n => py_int s = Ok n | PFloat x => py_float s = Ok x end.
(** the functions of the C library give binary64 numbers *)
Definition libm_b64 (m : libm) : Prop :=
  (forall x, is_b64 x -> is_b64 (l_sin m x)) /\ (forall x, is_b64 x -> is_b64 (l_cos m x)) /\ (forall x, is_b64 x -> is_b64 (l_atan m x)) /\
  (forall x y, is_b64 x -> is_b64 y -> is_b64 (l_atan2 m x y)) /\ (forall x n, is_b64 x -> is_b64 (l_pow m x n)).
