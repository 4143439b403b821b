(** Basic types shared by the whole model: text, exceptions, results. *)
From Coq Require Export Ascii String Arith ZArith Lia Bool.
From Coq Require Export List.
Export ListNotations.
Open Scope list_scope.

(** A Python [str] restricted to one-byte characters. *)
Definition str := list ascii.
(** Literal text: [lit "abc"]. *)
Definition lit (s : string) : str := list_ascii_of_string s.
Arguments lit s%string.

(** The exception classes the code raises or lets through.
    [OutOfFuel] is not a Python exception: it stands for "does not terminate". *)
Inductive exn :=
| RinexError | UncompressError | ValueError | IndexError | TypeError | KeyError
| AttributeError | AssertionError | ZeroDivisionError | OverflowError
| HeaderError | LabelError | NMError | CfgError | TextError | SystemExit
| OSError | StopIteration | PlainException | OutOfFuel.

Definition exn_eqb (a b : exn) : bool :=
  match a, b with
  | RinexError, RinexError | UncompressError, UncompressError
  | ValueError, ValueError | IndexError, IndexError | TypeError, TypeError
  | KeyError, KeyError | AttributeError, AttributeError
  | AssertionError, AssertionError | ZeroDivisionError, ZeroDivisionError
  | OverflowError, OverflowError | HeaderError, HeaderError
  | LabelError, LabelError | NMError, NMError | CfgError, CfgError
  | TextError, TextError | SystemExit, SystemExit | OSError, OSError
  | StopIteration, StopIteration | PlainException, PlainException | OutOfFuel, OutOfFuel => true
  | _, _ => false
  end.

(** Result of a Python call: a value or a raised exception. *)
Inductive res (A : Type) := Ok (a : A) | Err (e : exn).
Arguments Ok {A} a.
Arguments Err {A} e.

Definition bind {A B} (x : res A) (f : A -> res B) : res B :=
  match x with Ok a => f a | Err e => Err e end.

Notation "'do' x <- e ; k" := (bind e (fun x => k))
  (at level 200, x pattern, e at level 100, k at level 200, right associativity).

(** [try: x except <classes in es>: h] *)
Definition catch {A} (x : res A) (es : list exn) (h : res A) : res A :=
  match x with
  | Ok a => Ok a
  | Err e => if existsb (exn_eqb e) es then h else Err e
  end.

Definition of_option {A} (e : exn) (x : option A) : res A :=
  match x with Some a => Ok a | None => Err e end.

Fixpoint mapM {A B} (f : A -> res B) (l : list A) : res (list B) :=
  match l with
  | [] => Ok []
  | a :: r => do b <- f a; do bs <- mapM f r; Ok (b :: bs)
  end.

(** Python dict with insertion order: updating a key keeps its place. *)
Section Dict.
  Context {K V : Type} (eqb : K -> K -> bool).
  Fixpoint dict_get (k : K) (d : list (K * V)) : option V :=
    match d with
    | [] => None
    | (k', v) :: r => if eqb k k' then Some v else dict_get k r
    end.
  Fixpoint dict_set (k : K) (v : V) (d : list (K * V)) : list (K * V) :=
    match d with
    | [] => [(k, v)]
    | (k', v') :: r => if eqb k k' then (k', v) :: r else (k', v') :: dict_set k v r
    end.
  Definition dict_mem (k : K) (d : list (K * V)) : bool :=
    match dict_get k d with Some _ => true | None => false end.
End Dict.
