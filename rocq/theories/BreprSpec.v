(** Vocabulary for the texts of boundary objects (C139, C140). *)
From Coq Require Import String Reals ZArith List Bool Sorted.
From Verif Require Import PyBase PyString CoordModel CycleModel LoadModel BreprModel.
Import ListNotations.
Open Scope list_scope.

(** Two boundary objects that cannot be told apart: loaded data includes the corrections
    of every record; without data the corrections are those given. *)
Definition same_boundary {F K} (o o' : obj F K) : Prop :=
  o_file o' = o_file o /\ o_inst o' = o_inst o /\ o_hemi o' = o_hemi o /\ o_lat o' = o_lat o /\
  o_min o' = o_min o /\ o_max o' = o_max o /\ o_data o' = o_data o /\
  (o_data o = None -> o_rf o' = o_rf o /\ o_kw o' = o_kw o).

(** A number with at most six decimals. *)
Definition six_decimals (x : R) : Prop := exists k : Z, x = (IZR k / 1000000)%R.

(** The first and the last of the loaded times bound all of them. *)
Definition bounded_by_ends (ts : list Z) : Prop :=
  exists s e, hd_error ts = Some s /\ hd_error (rev ts) = Some e /\ Forall (fun t => (s <= t <= e)%Z) ts.

(** The file name that "default" stands for is a path, and its instrument is in small letters. *)
Definition plain_defaults (fs : files) : Prop :=
  forall s e h i b f i', default_file fs s e h i b = Ok (f, i') ->
    (lower i = i -> lower i' = i') /\ forall n, f = Some n -> lower n <> "default"%string.

(** A way of listing a set: every element once. *)
Definition lists_a_set (order : list string -> list string) : Prop :=
  forall l, NoDup (order l) /\ forall x, In x (order l) <-> In x l.

(** No dot in a name. *)
Definition no_dot (s : string) : Prop := has_sub "." s = false.

(** The records of [n] that are shown: the first two and the last two. *)
Definition near_an_end (n i : nat) : Prop := (i < n)%nat /\ (i <= 1 \/ n <= i + 2)%nat.
