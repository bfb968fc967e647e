(** Independent vocabulary for lines of text: words separated by white space, and integers. *)
From Coq Require Import String Ascii ZArith List Bool.
From Verif Require Import PyBase TimeModel TimeSpec.
Import ListNotations.
Open Scope list_scope.
Open Scope Z_scope.

(** White space, and a word. *)
Definition blank (s : str) : Prop := Forall (fun c => isspace c = true) s.
Definition word (s : str) : Prop := s <> [] /\ Forall (fun c => isspace c = false) s.
(** The line consists of the words, separated by white space. *)
Inductive spaced : list str -> str -> Prop :=
| sp_end w : blank w -> spaced [] w
| sp_last w t v : blank w -> word t -> blank v -> spaced [t] (w ++ t ++ v)
| sp_word w t c ts s : blank w -> word t -> isspace c = true -> spaced ts s -> spaced (t :: ts) (w ++ t ++ c :: s).
(** A word denoting an integer. *)
Definition integer (z : Z) (s : str) : Prop := written z s \/ exists t, s = "-"%char :: t /\ written (- z) t.
