(** Vocabulary for the statements about [add_ocb_to_data], independent of the model. *)
From Coq Require Import String Ascii ZArith QArith List Bool Sorted.
From Verif Require Import PyBase.
Import ListNotations.
Open Scope list_scope.

(** ** Text *)
Definition mentions (w s : list ascii) : Prop := exists a b, s = a ++ w ++ b.
Definition begins (w s : list ascii) : Prop := exists r, s = w ++ r.
(** [p] is what follows the last slash of [f]. *)
Definition file_part (f p : list ascii) : Prop := ~ In "/"%char p /\ (f = p \/ exists d, f = d ++ "/"%char :: p).
(** [t] is [s] in lower case. *)
Definition lower_case (s t : list ascii) : Prop :=
  Forall2 (fun a b => nat_of_ascii b = if (65 <=? nat_of_ascii a)%nat && (nat_of_ascii a <=? 90)%nat then (nat_of_ascii a + 32)%nat else nat_of_ascii a) s t.

(** ** Hemispheres *)
Inductive side := North | South.
Definition sign_of (h : side) : num := match h with North => Fin 1 | South => Fin (-1) end.
Definition on (h : side) (lat : num) : Prop := match h with North => nlt (Fin 0) lat = true | South => nlt lat (Fin 0) = true end.
(** At least one value is finite, and none is plus infinity. *)
Definition some_value (vs : list num) : Prop := (exists q, In (Fin q) vs) /\ ~ In PInf vs.

(** ** Arrays *)
(** [ix] is a position of an array with this shape. *)
Definition position (shape ix : list nat) : Prop := Forall2 (fun i n => (i < n)%nat) ix shape.
(** Row-major order of positions. *)
Fixpoint earlier (a b : list nat) : Prop :=
  match a, b with i :: a', j :: b' => (i < j)%nat \/ i = j /\ earlier a' b' | _, _ => False end.
(** [l] lists the positions where [sel] holds, in row-major order. *)
Definition selection (shape : list nat) (sel : list nat -> bool) (l : list (list nat)) : Prop :=
  (forall ix, In ix l <-> position shape ix /\ sel ix = true) /\ StronglySorted earlier l.
(** A box: the positions whose every index is among the chosen ones of its dimension. *)
Definition box (shape : list nat) (sel : list nat -> bool) : Prop :=
  exists chosen : nat -> nat -> Prop, forall ix, position shape ix -> (sel ix = true <-> forall k, (k < length shape)%nat -> chosen k (nth k ix 0%nat)).
(** [jx] is the position of an array with dimensions [ddims] seen from position [ix] of an
    array with dimensions [mdims]: common dimensions have the same index. *)
Definition same_place (mdims : list (list ascii)) (ix : list nat) (ddims : list (list ascii)) (jx : list nat) : Prop :=
  length jx = length ddims /\ forall a b d, nth_error ddims a = Some d -> nth_error mdims b = Some d -> nth a jx 0%nat = nth b ix 0%nat.
(** The same dimension has the same size in both. *)
Definition same_sizes (mdims : list (list ascii)) (mshape : list nat) (ddims : list (list ascii)) (dshape : list nat) : Prop :=
  forall a b d, nth_error ddims a = Some d -> nth_error mdims b = Some d -> nth a dshape 0%nat = nth b mshape 0%nat.
