(** Vocabulary for statements about the binary64 time conversions.  Nothing here depends on
    the model except the type of results. *)
From Coq Require Import ZArith Reals.
From Flocq Require Import Core BinarySingleNaN.
From Verif Require Import PyBase FloatModel.
Open Scope R_scope.

(** A loop allowed any number of passes: the call returns [w] (a run stopped early is not
    a result). *)
Definition returns (call : nat -> res f64) (w : f64) : Prop :=
  exists N, forall n, (N <= n)%nat -> call n = Ok w.

(** [a] is [b] up to whole turns of length [turn], with an error of at most [err]. *)
Definition near_mod (turn err a b : R) : Prop :=
  exists k : Z, Rabs (a - (b + IZR k * turn)) <= err.
(** ... exactly. *)
Definition same_mod (turn a b : R) : Prop := exists k : Z, a = b + IZR k * turn.

(** The unit roundoff of double precision. *)
Definition roundoff : R := bpow radix2 (-53).

(** A time of day, and its hours as a real number. *)
Definition time_of_day (h m s us : Z) : Prop :=
  (0 <= h < 24 /\ 0 <= m < 60 /\ 0 <= s < 60 /\ 0 <= us < 1000000)%Z.
Definition hours_exact (h m s us : Z) : R :=
  IZR h + IZR m / 60 + IZR s / 3600 + IZR us / 3600000000.
(** The microseconds since midnight. *)
Definition micros_of_day (h m s us : Z) : Z := (((h * 60 + m) * 60 + s) * 1000000 + us)%Z.
