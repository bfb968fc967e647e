(** Specification vocabulary for record cycling and matching, independent of
    the loops of CycleModel. *)
From Coq Require Import String ZArith QArith List Bool.
From Verif Require Import PyBase CycleModel.
Import ListNotations.
Open Scope string_scope.
Open Scope list_scope.
Open Scope Z_scope.

(** Value [tv] satisfies the criterion [(op, v)]; any other [op] asks nothing. *)
Definition satisfies (op : string) (tv v : num) : Prop :=
  (op = "min"   -> nle tv v = false) /\
  (op = "mineq" -> nlt tv v = false) /\
  (op = "equal" -> neqb tv v = true) /\
  (op = "maxeq" -> nlt v tv = false) /\
  (op = "max"   -> nle v tv = false).

(** Record [i] of [b] passes the criterion [c]: if the attribute exists, its
    value at [i] satisfies it. *)
Definition passes (b : boundary) (i : Z) (c : crit) : Prop :=
  forall l tv, getattr b (fst c) = Some (AArr l) ->
    nth_error l (Z.to_nat i) = Some tv ->
    satisfies (fst (snd c)) tv (snd (snd c)).

(** The merit limits in force: the caller's, else the instrument's. *)
Definition merit_lo (b : boundary) (m : option num) :=
  match m with Some x => x | None => b_min_fom b end.
Definition merit_hi (b : boundary) (m : option num) :=
  match m with Some x => x | None => b_max_fom b end.

(** A good record: exists, passes all criteria, and its figure of merit is in
    the closed merit interval. *)
Definition good_record (b : boundary) (mn mx : option num) (ks : list crit)
  (i : Z) : Prop :=
  0 <= i < b_records b /\
  (forall c, In c ks -> passes b i c) /\
  exists f, nth_error (b_fom b) (Z.to_nat i) = Some f /\
            nle (merit_lo b mn) f = true /\ nle f (merit_hi b mx) = true.

(** A loaded boundary object: every array has one value per record. *)
Definition wf_boundary (b : boundary) : Prop :=
  0 <= b_records b /\
  zlen (b_dtime b) = b_records b /\
  zlen (b_fom b) = b_records b /\
  forall k l, getattr b k = Some (AArr l) -> zlen l = b_records b.

(** Criteria refer to unknown names or to per-record arrays. *)
Definition wf_crits (b : boundary) (ks : list crit) : Prop :=
  forall c, In c ks -> getattr b (fst c) <> Some AScalar.

(** [j] is the next index after [i] satisfying [G] below [N], or [N] (at least
    [i+1]) when there is none. *)
Definition next_good (G : Z -> Prop) (N i j : Z) : Prop :=
  (i < j < N /\ G j /\ forall k, i < k < j -> ~ G k) \/
  (j = Z.max N (i + 1) /\ forall k, i < k < N -> ~ G k).

(** Everything but the cursor is the same. *)
Definition same_data (b b' : boundary) : Prop :=
  b_records b' = b_records b /\ b_dtime b' = b_dtime b /\
  b_fom b' = b_fom b /\ b_min_fom b' = b_min_fom b /\
  b_max_fom b' = b_max_fom b /\ b_attrs b' = b_attrs b.

(** Times by index. *)
Definition tm (l : list Z) (i : Z) : Z := nth (Z.to_nat i) l 0.

Definition time_sorted (l : list Z) : Prop :=
  forall i j, 0 <= i <= j -> j < zlen l -> tm l i <= tm l j.
Definition strictly_time_sorted (l : list Z) : Prop :=
  forall i j, 0 <= i < j -> j < zlen l -> tm l i < tm l j.

(** Records a search starting at cursor [rec] may use: the current record, or a
    later good one. *)
Definition candidate (G : Z -> Prop) (N rec k : Z) : Prop :=
  0 <= k < N /\ (k = rec \/ (rec < k /\ G k)).

Definition within (dtime dat : list Z) (tol k i : Z) : Prop :=
  Z.abs (tm dtime k - tm dat i) <= tol.

(** [r] is closest in time to measurement [i] among the records in [C], and the
    first such record. *)
Definition closest (dtime dat : list Z) (C : Z -> Prop) (i r : Z) : Prop :=
  C r /\
  forall k, C k ->
    Z.abs (tm dtime r - tm dat i) <= Z.abs (tm dtime k - tm dat i) /\
    (k < r -> Z.abs (tm dtime r - tm dat i) < Z.abs (tm dtime k - tm dat i)).

(** The documented reading of a criterion as a rejection (_boundary.py:464-468):
    value below, not equal to, or above the limit.  [nle]/[nlt]/[neqb] are the
    IEEE comparisons. *)
Definition rejected (op : string) (tv v : num) : Prop :=
  (op = "min"   /\ nle tv v = true) \/
  (op = "mineq" /\ nlt tv v = true) \/
  (op = "equal" /\ neqb tv v = false) \/
  (op = "maxeq" /\ nlt v tv = true) \/
  (op = "max"   /\ nle v tv = true).

Definition known_operator (op : string) : Prop :=
  In op ["min"; "mineq"; "equal"; "maxeq"; "max"].
