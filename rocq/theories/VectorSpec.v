(** Independent vocabulary for vectors on the sphere. *)
From Coq Require Import Reals ZArith List.
From Verif Require Import PyBase RangeModel RangeSpec.
Open Scope R_scope.

(** Three-dimensional vectors. *)
Definition vec3 := (R * R * R)%type.
Definition dot (a b : vec3) : R :=
  fst (fst a) * fst (fst b) + snd (fst a) * snd (fst b) + snd a * snd b.
Definition norm3 (a : vec3) : R := sqrt (dot a a).
Definition lin (x : R) (a : vec3) (y : R) (b : vec3) : vec3 :=
  (x * fst (fst a) + y * fst (fst b), x * snd (fst a) + y * snd (fst b), x * snd a + y * snd b).
Definition cross (a b : vec3) : vec3 :=
  let '(a1, a2, a3) := a in let '(b1, b2, b3) := b in
  (a2 * b3 - a3 * b2, a3 * b1 - a1 * b3, a1 * b2 - a2 * b1).

(** The point of the unit sphere at latitude [lat] (degrees) and local time [lt]
    (hours), and the unit vectors to the north and to the east there. *)
Definition deg (x : R) : R := x * PI / 180.
Definition hr (x : R) : R := x * PI / 12.
Definition place (lat lt : R) : vec3 :=
  (cos (deg lat) * cos (hr lt), cos (deg lat) * sin (hr lt), sin (deg lat)).
Definition north (lat lt : R) : vec3 :=
  (- sin (deg lat) * cos (hr lt), - sin (deg lat) * sin (hr lt), cos (deg lat)).
Definition east (lat lt : R) : vec3 := (- sin (hr lt), cos (hr lt), 0).

(** The direction, at [x], of the great circle from [x] to [y]. *)
Definition towards (x y : vec3) : vec3 := lin 1 y (- dot x y) x.

(** [a] degrees is the angle between [u] and [v]. *)
Definition angle_between (u v : vec3) (a : R) : Prop :=
  0 <= a <= 180 /\ cos (deg a) * (norm3 u * norm3 v) = dot u v.

(** The pole of the hemisphere of latitude [lat]. *)
Definition base_pole (lat : R) : vec3 := place (if Rlt_dec lat 0 then -90 else 90) 0.

(** Destination pole [dl] hours to the east (dl < 12) or to the west of the data. *)
Definition hours_east (data_lt pole_lt dl : R) : Prop := representative 24 0 (pole_lt - data_lt) dl.

(** The two local times are neither equal nor opposite. *)
Definition off_meridian (data_lt pole_lt : R) : Prop := ~ shifted 12 (pole_lt - data_lt) 0.

(** Rotating (n, e) by [a] degrees towards the east ([s = 1]) or west ([s = -1]). *)
Definition rotated (s a n e : R) : R * R :=
  (n * cos (deg a) + s * e * sin (deg a), e * cos (deg a) - s * n * sin (deg a)).

(** At [x], the vector [v] has component [n] along the direction [t] and component
    [e] along the direction to the right of it (seen from above). *)
Definition seen_along (x t v : vec3) (n e : R) : Prop :=
  n * norm3 t = dot v t /\ e * norm3 t = dot v (cross t x).

(** The horizontal vector with components [n] and [e] at the given place. *)
Definition horizontal (lat lt n e : R) : vec3 := lin n (north lat lt) e (east lat lt).

(** Equal and opposite meridians. *)
Definition same_meridian (a b : R) : Prop := shifted 24 (b - a) 0.
Definition opposite_meridian (a b : R) : Prop := shifted 24 (b - a) 12.

(** Quadrants 1 [N, E], 2 [N, W], 3 [S, W], 4 [S, E]. *)
Definition quad_north (q : Z) : Prop := q = 1%Z \/ q = 2%Z.
Definition quad_east (q : Z) : Prop := q = 1%Z \/ q = 4%Z.
Definition quad_defined (q : Z) : Prop := (1 <= q <= 4)%Z.
