(** Independent vocabulary for the coordinate conversions: positions in the plane
    around the magnetic pole. *)
From Coq Require Import Reals ZArith List.
From Verif Require Import PyBase RangeModel RangeSpec CoordModel.
Import ListNotations.
Open Scope R_scope.

(** The point at colatitude [d] and local time [m] (hours from midnight, towards
    dawn) in the plane around the pole: first axis to midnight, second to dawn. *)
Definition point (d m : R) : R * R := (d * cos (m * PI / 12), d * sin (m * PI / 12)).
Definition colat (h : Z) (lat : R) : R := 90 - IZR h * lat.

(** The centre of a boundary record: [r_cent] degrees from the pole, at [phi_cent]
    degrees from midnight. *)
Definition centre (rc : rec) : R * R :=
  (rcent rc * cos (phic rc * PI / 180), rcent rc * sin (phic rc * PI / 180)).

Definition dist (p q : R * R) : R := sqrt ((fst p - fst q) ^ 2 + (snd p - snd q) ^ 2).

(** A boundary whose reference latitude is in its hemisphere, short of the pole. *)
Definition config_ok (h : Z) (bl : R) : Prop :=
  (h = 1%Z \/ h = (-1)%Z) /\ 0 < IZR h * bl < 90.

(** The latitude lies in hemisphere [h]. *)
Definition in_hemisphere (h : Z) (lat : R) : Prop := 0 < IZR h * lat.

(** The record that [rec_ind] selects. *)
Definition selected (b : bnd) (rc : rec) : Prop :=
  (0 <= rind b < Z.of_nat (length (recs b)))%Z /\ nth_error (recs b) (Z.to_nat (rind b)) = Some rc.
Definition none_selected (b : bnd) : Prop :=
  (rind b < 0 \/ Z.of_nat (length (recs b)) <= rind b)%Z.

(** A scalar argument, and the scalar results. *)
Definition sc (v : fl) : arr := mkArr true false false [v].

(** Element [i] of an array under numpy broadcasting. *)
Definition belem (l : list fl) (i : nat) : fl :=
  match l with [x] => x | _ => nth i l None end.

(** A value that is not known to lie in hemisphere [h]: NaN, 0 or the other sign. *)
Definition outside (h : Z) (v : fl) : Prop :=
  match v with None => True | Some x => ~ in_hemisphere h x end.

(** The point at colatitude [rho] on the meridian [mlt] is at distance [|s|] from
    the centre of the record. *)
Definition meets (rc : rec) (mlt s rho : R) : Prop :=
  0 <= rho /\ dist (point rho mlt) (centre rc) = Rabs s.

(** Index [i] (Python style) denotes position [k] of a list of length [n]. *)
Definition denotes (n : nat) (i : Z) (k : nat) : Prop :=
  (k < n)%nat /\ (i = Z.of_nat k \/ i = Z.of_nat k - Z.of_nat n)%Z.

(** A non-empty argument; a scalar has one element. *)
Definition wf_arr (a : arr) : Prop := el a <> [] /\ (is0d a = true -> length (el a) = 1%nat).
