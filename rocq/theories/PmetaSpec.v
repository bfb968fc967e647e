(** Vocabulary for the metadata of the pysat output (C156-C160). *)
From Coq Require Import String Ascii List Bool.
From Verif Require Import PyBase TimeModel PysatSpec.
Import ListNotations.
Open Scope list_scope.

(** The words for boundaries in names, in upper case, and in descriptions. *)
Inductive boundary_words : list ascii -> list ascii -> list ascii -> Prop :=
  | words_ocb : boundary_words (s2l "ocb") (s2l "OCB") (s2l "Open Closed field-line Boundary")
  | words_eab : boundary_words (s2l "eab") (s2l "EAB") (s2l "Equatorward Auroral Boundary")
  | words_dual : boundary_words (s2l "dualb") (s2l "DUALB") (s2l "Dual Boundary").
(** [p] is one of the pieces of [s] between underscores. *)
Definition piece (p s : list ascii) : Prop := ~ In "_"%char p /\ exists a c, "_"%char :: s ++ ["_"%char] = a ++ "_"%char :: p ++ "_"%char :: c.
(** No piece names a boundary. *)
Definition untitled (s : list ascii) : Prop := forall p u d, piece p s -> ~ boundary_words p u d.
(** Underscores as spaces. *)
Definition spaced (s : list ascii) : list ascii := map (fun c => if Ascii.eqb c "_" then " "%char else c) s.
(** The name of the output for the variable [v]. *)
Definition out_name (v b : list ascii) : list ascii := v ++ "_"%char :: b.
