(** Independent vocabulary for [VectorData]. *)
From Coq Require Import Reals ZArith List.
From Verif Require Import PyBase RangeModel CoordModel CoordSpec ScalingModel.
Import ListNotations.
Open Scope R_scope.

(** A measured vector: location and components, all numbers. *)
Record datum := mkDatum { g_lat : R; g_lt : R; g_n : R; g_e : R; g_z : R }.

(** The same vector as [VectorData] holds it before [set_ocb]. *)
Definition given (d : datum) : vel :=
  fresh (Some (g_lat d)) (Some (g_lt d)) (Some (g_n d)) (Some (g_e d)) (Some (g_z d)).

(** Record [ind] of the boundary is [rc], the vector lies in the hemisphere of the
    boundary (not at the pole), and the radius there, corrected by [c], is not 0. *)
Definition usable (b : bnd) (ind : Z) (d : datum) (rc : rec) (c : R) : Prop :=
  ((hemi b = 1 \/ hemi b = -1) /\ 0 <= ind < Z.of_nat (length (recs b)))%Z /\ nth_error (recs b) (Z.to_nat ind) = Some rc /\
  0 < IZR (hemi b) * g_lat d < 90 /\ rfun rc (Some (g_lt d)) = Some c /\ rr rc + c <> 0 /\ 0 <= rcent rc < 90.

(** [rec_ind] of the boundary is a valid index. *)
Definition loaded_at (b : bnd) : Prop :=
  (- Z.of_nat (length (recs b)) <= rind b < Z.of_nat (length (recs b)))%Z.

(** The same boundary with another [rec_ind]. *)
Definition with_rind (b : bnd) (i : Z) : bnd := mkBnd (hemi b) (blat b) (recs b) i.

(** Attributes of a vector that [set_ocb] is given, and those it derives. *)
Definition location (v : vel) := (w_lat v, w_lt v).
Definition components (v : vel) := (w_n v, w_e v, w_z v).
Definition coordinates (v : vel) := (w_olat v, w_omlt v, w_rc v).
Definition radii (v : vel) := (w_unr v, w_scr v).
Definition normalised (v : vel) := (w_on v, w_oe v, w_oz v).

(** Squared length, and length. *)
Definition length3 (n e z : R) : R := sqrt (n ^ 2 + e ^ 2 + z ^ 2).

(** Scalar, or of the given shape. *)
Definition scalar_or (s x : list nat) : Prop := x = [] \/ x = s.
