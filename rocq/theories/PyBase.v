(** Python-level basics shared by the discrete models: exceptions as values,
    Python sequence indexing, and IEEE comparison of floats.

    Nothing here models ocbpy code itself; it fixes the reading of the Python
    and numpy primitives used by the ocbpy functions modelled elsewhere. *)
From Coq Require Import String Ascii ZArith QArith List Bool.
Import ListNotations.
Open Scope Z_scope.

(** Exceptions a modelled function may raise.  [OutOfFuel] is not a Python
    exception: it marks a loop that the model stopped unrolling, and every
    theorem that concludes [Ok _] excludes it. *)
Inductive exn :=
| ValueError | TypeError | IndexError | KeyError | AttributeError
| IOError | NameError | ZeroDivisionError | OverflowError | OutOfFuel.

Inductive res (A : Type) := Ok (a : A) | Err (e : exn).
Arguments Ok {A}. Arguments Err {A}.

Definition bind {A B} (m : res A) (k : A -> res B) : res B :=
  match m with Ok a => k a | Err e => Err e end.

Notation "x <- m ;; k" := (bind m (fun x => k))
  (at level 61, m at next level, right associativity).
Notation "' pat <- m ;; k" := (bind m (fun x => match x with pat => k end))
  (at level 61, pat pattern, m at next level, right associativity).

(** Python sequence indexing [l[i]]: negative indices count from the end,
    anything else out of range is an IndexError ([None] here). *)
Definition py_get {A} (l : list A) (i : Z) : option A :=
  let n := Z.of_nat (length l) in
  if (0 <=? i) && (i <? n) then nth_error l (Z.to_nat i)
  else if (- n <=? i) && (i <? 0) then nth_error l (Z.to_nat (n + i))
  else None.

Definition getE {A} (l : list A) (i : Z) : res A :=
  match py_get l i with Some a => Ok a | None => Err IndexError end.

Definition zlen {A} (l : list A) : Z := Z.of_nat (length l).

(** A float: NaN, the infinities, or a finite value.  Every finite binary64
    number is a rational, so comparing rationals is what the hardware does. *)
Inductive num := NaN | NInf | Fin (q : Q) | PInf.

(** IEEE [x < y], [x <= y], [x == y]: false as soon as one side is NaN. *)
Definition nlt (x y : num) : bool :=
  match x, y with
  | NaN, _ | _, NaN => false
  | NInf, NInf => false | NInf, _ => true
  | Fin _, NInf => false | Fin a, Fin b => negb (Qle_bool b a) | Fin _, PInf => true
  | PInf, _ => false
  end.
Definition nle (x y : num) : bool :=
  match x, y with
  | NaN, _ | _, NaN => false
  | NInf, _ => true
  | Fin _, NInf => false | Fin a, Fin b => Qle_bool a b | Fin _, PInf => true
  | PInf, PInf => true | PInf, _ => false
  end.
Definition neqb (x y : num) : bool :=
  match x, y with
  | NInf, NInf => true | PInf, PInf => true
  | Fin a, Fin b => Qeq_bool a b
  | _, _ => false
  end.

(** Association-list lookup: Python dictionaries and object attributes. *)
Fixpoint assoc {A} (k : string) (l : list (string * A)) : option A :=
  match l with
  | [] => None
  | (k', a) :: t => if String.eqb k k' then Some a else assoc k t
  end.
