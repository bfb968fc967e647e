(** Independent vocabulary for satellite tracks. *)
From Coq Require Import Reals ZArith.
From Verif Require Import CoordSpec.
Open Scope R_scope.

Section Track.
(** Two crossings, in degrees along the dawn-dusk and noon-midnight axes, and tolerances. *)
Context (A B : R * R) (del_x del_y past : R) (h : Z).
(** The line through the crossings. *)
Definition on_line (p : R * R) : Prop := (snd p - snd A) * (fst B - fst A) = (snd B - snd A) * (fst p - fst A).
(** Not below the line moved by [(- del_x, - del_y)], not above the line moved by [(del_x, del_y)]. *)
Definition between_lines (p : R * R) : Prop :=
  (exists q, on_line q /\ fst q - del_x = fst p /\ snd q - del_y <= snd p) /\
  (exists q, on_line q /\ fst q + del_x = fst p /\ snd p <= snd q + del_y).
(** Where a latitude and local time are: local time 6 is on the first axis. *)
Definition place (lat mlt : R) : R * R := point (colat h lat) (mlt - 6).
(** At most [past] degrees further from the pole than the nearer crossing. *)
Definition poleward_enough (lat mlt : R) : Prop :=
  let p := place lat mlt in
  (dist A p <= dist B p -> colat h lat <= dist A (0, 0) + past) /\ (dist B p < dist A p -> colat h lat <= dist B (0, 0) + past).
Definition on_track (lat mlt : R) : Prop := between_lines (place lat mlt) /\ poleward_enough lat mlt.
Definition valid_request : Prop := 0 <= del_x /\ 0 <= del_y /\ 0 <= past /\ (h = 1 \/ h = -1)%Z.
End Track.
