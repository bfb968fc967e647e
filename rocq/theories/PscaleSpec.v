(** Vocabulary for variables with several coordinates that are scaled (C154, C155). *)
From Coq Require Import String Ascii ZArith List Bool Permutation.
From Verif Require Import PysatModel PysatSpec.
Import ListNotations.
Open Scope list_scope.

Section Variables.
Context {V : Type} (names : list (list ascii)) (shape : list nat) (mask : list nat -> bool).
(** The value of a variable at the place with the coordinates of [ix]. *)
Definition seen_at (ix : list nat) (d : nd V) (x : V) : Prop :=
  incl (nd_dims d) names /\ exists jx, position (nd_shape d) jx /\ same_place names ix (nd_dims d) jx /\ x = nd_at d jx.
(** A variable on the first coordinates of the output, in any order but that of all of them. *)
Definition on_first (d : nd V) : Prop :=
  exists k, (k <= length names)%nat /\ length (nd_shape d) = length (nd_dims d) /\ NoDup (nd_dims d) /\ Permutation (nd_dims d) (firstn k names) /\
    same_sizes names shape (nd_dims d) (nd_shape d) /\ nd_dims d <> names.
(** A variable on all coordinates of the output, in the same order. *)
Definition on_all (d : nd V) : Prop := nd_dims d = names /\ nd_shape d = shape.
(** The samples used at one time; at every time they are a box. *)
Definition used_at (i : nat) (ix : list nat) : bool := mask ix && (hd 0 ix =? i)%nat.
Definition boxes : Prop := forall i, box shape (used_at i).
End Variables.
