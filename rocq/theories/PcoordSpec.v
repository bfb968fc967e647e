(** Vocabulary for locations and heights with several coordinates (C143-C147); the type of the
    heights given by the caller is that of PcoordModel. *)
From Coq Require Import String Ascii ZArith List Bool.
From Verif Require Import PysatSpec PcoordModel.
Import ListNotations.
Open Scope list_scope.

Notation name := (list ascii).
(** The value at a position of an array with this shape, whose values are listed with the
    last index changing fastest. *)
Fixpoint row_major (acc : nat) (shape ix : list nat) : nat :=
  match shape, ix with n :: r, i :: t => row_major (acc * n + i) r t | _, _ => acc end.
Definition value {V} (shape : list nat) (vals : list V) (ix : list nat) : option V := nth_error vals (row_major 0 shape ix).
(** The array with coordinates [names] has at every position the value that a variable has at
    the place with the same coordinates, all of which are among [names]. *)
Definition own_values {V} (names : list name) (shape : list nat) (vals : list V) (vnames : list name) (vshape : list nat) (vvals : list V) : Prop :=
  incl vnames names /\ length names = length shape /\
  forall ix, position shape ix -> exists jx x, position vshape jx /\ same_place names ix vnames jx /\ value vshape vvals jx = Some x /\ value shape vals ix = Some x.
(** A variable: names and sizes of its coordinates, and as many values as it has places. *)
Definition variable {V} (coords : list (name * nat)) (vals : list V) : Prop :=
  NoDup (map fst coords) /\ length vals = fold_right Nat.mul 1 (map snd coords).
(** The value of a variable at the place with the coordinates of [ix]. *)
Definition seen {V} (names : list name) (ix : list nat) (vnames : list name) (vshape : list nat) (vvals : list V) (x : V) : Prop :=
  exists jx, position vshape jx /\ same_place names ix vnames jx /\ value vshape vvals jx = Some x.
(** One height, or one for each place of the locations: its coordinates, shape and values. *)
Definition simple_height {V} (coords : list (name * nat)) (h : heights V) (hn : list name) (hs : list nat) (hv : list V) : Prop :=
  (exists v, (h = HArr [] [v] \/ h = HVar [] [v]) /\ hn = [] /\ hs = [] /\ hv = [v]) \/
  ((h = HVar coords hv \/ h = HArr (map snd coords) hv) /\ hn = map fst coords /\ hs = map snd coords /\ length hv = fold_right Nat.mul 1%nat hs).
(** Latitudes and local times have no coordinate in common, or the same coordinates; all of
    them. *)
Definition joined (latc ltc coords : list (name * nat)) : Prop :=
  (forall c, In c (map fst latc) -> ~ In c (map fst ltc)) /\ coords = ltc ++ latc \/ latc = ltc /\ coords = ltc.
(** The shapes of latitudes and local times tell that they have to be combined. *)
Definition told_apart (n : nat) (latc ltc : list (name * nat)) : Prop := map snd latc <> map snd ltc \/ exists m r, map snd latc = m :: r /\ m <> n.
(** The coordinates of the output: those of the locations, then the others of the data. *)
Definition name_dec : forall a b : name, {a = b} + {a <> b} := list_eq_dec ascii_dec.
Definition output_coords (base dat : list (name * nat)) : list (name * nat) :=
  base ++ filter (fun c => if in_dec name_dec (fst c) (map fst base) then false else true) dat.
