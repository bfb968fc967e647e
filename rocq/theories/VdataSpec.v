(** Vocabulary for the properties of VectorData's attributes, independent of how the
    assignments are carried out. *)
From Coq Require Import Reals ZArith List Bool PeanoNat.
From Verif Require Import PyBase RangeModel CoordModel VdataModel.
Import ListNotations.
Open Scope R_scope.

(** The value for place [i]: a scalar stands for all of them. *)
Definition at_ {A} (x : av A) (i : nat) : option A := match x with Sc a => Some a | Ar l => nth_error l i end.
(** The places an index has. *)
Definition place (ind : av Z) (i : nat) : Prop := match ind with Sc _ => i = 0%nat | Ar l => (i < List.length l)%nat end.
(** Both scalars, or arrays of one length. *)
Definition like {A B} (x : av A) (y : av B) : Prop :=
  match x, y with Sc _, Sc _ => True | Ar l, Ar m => List.length l = List.length m | _, _ => False end.
Definition scalar_value {A} (x : av A) : Prop := match x with Sc _ => True | Ar _ => False end.
(** NaN in every place. *)
Definition undefined (x : av fl) : Prop := forall i y, at_ x i = Some y -> y = None.
(** The results of [set_ocb] are unset. *)
Definition no_results (o : outputs) : Prop :=
  undefined (r_n o) /\ undefined (r_e o) /\ undefined (r_z o) /\ undefined (r_mag o) /\
  undefined (r_angle o) /\ undefined (r_plat o) /\ undefined (r_pmlt o) /\
  (forall i y, at_ (r_oquad o) i = Some y -> y = Some 0) /\ (forall i y, at_ (r_vquad o) i = Some y -> y = Some 0).
Definition results_like {B} (o : outputs) (x : av B) : Prop :=
  like (r_n o) x /\ like (r_e o) x /\ like (r_z o) x /\ like (r_mag o) x /\ like (r_angle o) x /\
  like (r_plat o) x /\ like (r_pmlt o) x /\ like (r_oquad o) x /\ like (r_vquad o) x.
(** The length of the vector with the given components. *)
Definition is_length (m n e z : fl) : Prop :=
  match n, e, z with
  | Some a, Some b, Some c => exists y, m = Some y /\ 0 <= y /\ y * y = a * a + b * b + c * c
  | _, _, _ => m = None
  end.

(** Histories in which only the two indices are assigned, and the indices at their end. *)
Definition index_only (a : assign) : Prop := match a with DatInd _ | OcbInd _ => True | _ => False end.
Fixpoint last_dat (h : list assign) (d : av Z) : av Z :=
  match h with [] => d | DatInd x :: r => last_dat r x | _ :: r => last_dat r d end.
Fixpoint last_ocb (h : list assign) (o : av Z) : av Z :=
  match h with [] => o | OcbInd x :: r => last_ocb r x | _ :: r => last_ocb r o end.

(** An object that a program can have: constructed, then changed by assignments. *)
Definition reachable (v : vdata) : Prop :=
  exists dat ocb lat lt h n e z mag olat omlt rc v0 hist,
    construct dat ocb lat lt h n e z mag olat omlt rc = Ok v0 /\ run hist v0 = Ok v.
