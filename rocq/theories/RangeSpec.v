(** Independent vocabulary for cyclic ranges. *)
From Coq Require Import Reals ZArith List.
Open Scope R_scope.

(** [w] is [v] shifted by a whole number of periods. *)
Definition shifted (rng v w : R) : Prop := exists k : Z, w = v + IZR k * rng.

(** The range in force: the one given, or the width of the interval. *)
Definition eff_range (mn mx : R) (rng : option R) : R :=
  match rng with Some r => r | None => mx - mn end.

(** [w] is the representative of [v] modulo [period] in [lo, lo+period). *)
Definition representative (period lo v w : R) : Prop :=
  shifted period v w /\ lo <= w < lo + period.

(** A valid time of day, and its length in microseconds since midnight. *)
Definition valid_tod (h m s us : Z) : Prop :=
  (0 <= h < 24 /\ 0 <= m < 60 /\ 0 <= s < 60 /\ 0 <= us < 1000000)%Z.
Definition tod_us (h m s us : Z) : Z := (((h * 60 + m) * 60 + s) * 1000000 + us)%Z.
