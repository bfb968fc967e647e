(** Python string primitives used by several models: [str.lower], [str.find],
    slicing from the end.  Nothing here models ocbpy code itself.
    Simplification: strings are sequences of 8-bit characters and [lower] changes the
    letters A to Z only. *)
From Coq Require Import String Ascii ZArith List Bool.
Import ListNotations.
Open Scope string_scope.

Definition lower_char (c : ascii) : ascii :=
  let n := nat_of_ascii c in
  if (65 <=? n)%nat && (n <=? 90)%nat then ascii_of_nat (n + 32) else c.
Fixpoint lower (s : string) : string :=
  match s with EmptyString => EmptyString | String c t => String (lower_char c) (lower t) end.

(** [x in l] for a list of strings. *)
Definition str_in (x : string) (l : list string) : bool := existsb (String.eqb x) l.

(** [s.find(sub) >= 0]. *)
Fixpoint has_sub (sub s : string) : bool :=
  if prefix sub s then true
  else match s with EmptyString => false | String _ t => has_sub sub t end.

(** [s.find(sub)] for a non-empty [sub]; -1 if absent. *)
Fixpoint find_from (i : Z) (sub s : string) : Z :=
  if prefix sub s then i
  else match s with EmptyString => (-1)%Z | String _ t => find_from (i + 1)%Z sub t end.
Definition find (sub s : string) : Z := find_from 0 sub s.
