(** Specification vocabulary for the processing loops. *)
From Coq Require Import String ZArith QArith List Bool Sorted.
From Verif Require Import PyBase CycleModel CycleSpec.
Import ListNotations.
Open Scope string_scope.
Open Scope list_scope.
Open Scope Z_scope.

(** The pair list [l] is complete and correct for the records in [C]: it holds,
    in increasing order of data index, exactly the measurements that have a
    record of [C] within [tol], each with the record closest to it. *)
Definition pairs_exactly (dtime dat : list Z) (C : Z -> Prop) (tol : Z)
  (l : list (Z * Z)) : Prop :=
  StronglySorted Z.lt (map fst l) /\
  forall i r, In (i, r) l <->
    (0 <= i < zlen dat /\ within dtime dat tol r i /\ closest dtime dat C i r).

(** No measurement can be paired, and in a way the search notices from the
    first measurement: either all usable records precede the first measurement
    by more than [tol], or (cursor not set yet) all measurements precede the
    first good record by more than [tol]. *)
Definition disjoint_periods (dtime dat : list Z) (G : Z -> Prop)
  (N rec tol : Z) : Prop :=
  ((exists k, candidate G N rec k) /\
   forall k, candidate G N rec k -> tm dtime k < tm dat 0 - tol) \/
  (rec = -1 /\ exists j, 0 <= j < N /\ G j /\ (forall k, 0 <= k < j -> ~ G k) /\
     forall i, 0 <= i < zlen dat -> tm dat i < tm dtime j - tol).
