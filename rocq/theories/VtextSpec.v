(** Vocabulary for the texts of VectorData (C141, C142). *)
From Coq Require Import String Reals ZArith List Bool.
From Verif Require Import PyBase PyString RangeModel CoordModel VdataModel VdataSpec VtextModel.
Import ListNotations.
Open Scope list_scope.

(** The word "array" is not in the text. *)
Definition plain (s : string) : Prop := has_sub "array" s = false.
Definition plain_opt (s : option string) : Prop := match s with Some t => plain t | None => True end.
(** Some number in it. *)
Definition a_number (x : av fl) : Prop := exists i y, at_ x i = Some (Some y).
(** At most eight decimals. *)
Definition eight_decimals (x : av fl) : Prop := forall i y, at_ x i = Some (Some y) -> exists k : Z, y = (IZR k / 100000000)%R.
(** NaN in some place. *)
Definition has_nan (x : av fl) : Prop := exists i, at_ x i = Some None.

(** One vector and one boundary. *)
Definition one_one (v : vdata) : Prop :=
  scalar_value (d_ind v) /\ scalar_value (o_ind v) /\ scalar_value (d_lat v) /\ scalar_value (d_lt v) /\ scalar_value (d_h v) /\
  scalar_value (o_lat v) /\ scalar_value (o_mlt v) /\ scalar_value (d_n v) /\ scalar_value (d_e v) /\ scalar_value (d_z v) /\
  scalar_value (d_mag v) /\ results_like (d_out v) (d_ind v).
(** Several vectors, for each of them all values; one boundary, or one for each vector. *)
Definition many (v : vdata) : Prop :=
  ~ scalar_value (d_ind v) /\ like (d_lat v) (d_ind v) /\ like (d_lt v) (d_ind v) /\ like (d_h v) (d_ind v) /\
  like (d_n v) (d_ind v) /\ like (d_e v) (d_ind v) /\ like (d_z v) (d_ind v) /\ like (d_mag v) (d_ind v) /\ results_like (d_out v) (d_ind v) /\
  (scalar_value (o_ind v) \/ like (o_ind v) (d_ind v)) /\
  (like (o_lat v) (d_ind v) /\ like (o_mlt v) (d_ind v) \/ scalar_value (o_ind v) /\ o_lat v = Sc None /\ o_mlt v = Sc None).
(** One vector and several boundaries. *)
Definition one_many (v : vdata) : Prop :=
  scalar_value (d_ind v) /\ ~ scalar_value (o_ind v) /\ scalar_value (d_lat v) /\ scalar_value (d_lt v) /\ scalar_value (d_h v) /\
  scalar_value (d_n v) /\ scalar_value (d_e v) /\ scalar_value (d_z v) /\ scalar_value (d_mag v) /\
  like (o_lat v) (o_ind v) /\ like (o_mlt v) (o_ind v) /\ results_like (d_out v) (o_ind v).

(** The lines a user wants to see for vector or boundary [i] of an object. *)
Definition loc_of {G} (w : labels (G := G)) (v : vdata) (i : nat) (l : vline) : Prop :=
  exists a b c d, at_ (d_lat v) i = Some a /\ at_ (d_lt v) i = Some b /\ at_ (d_h v) i = Some c /\ at_ (d_ind v) i = Some d /\
    (l = TLoc (lb_loc w) a b c (Some d)).
Definition ocb_of (v : vdata) (i : nat) (l : vline) : Prop :=
  exists x y o, at_ (o_lat v) i = Some x /\ at_ (o_mlt v) i = Some y /\ at_ (o_ind v) i = Some o /\ l = TOcb x y (Some o).
Definition vec_of {G} (w : labels (G := G)) (v : vdata) (i : nat) (l : vline) : Prop :=
  exists m a b c d, at_ (d_mag v) i = Some m /\ at_ (d_n v) i = Some a /\ at_ (d_e v) i = Some b /\ at_ (d_z v) i = Some c /\ at_ (d_ind v) i = Some d /\
    l = TVec (lb_vec w) m a b c (Some d).
(** No line for a result that is not there. *)
Definition result_of (v : vdata) (i : nat) (ls : list vline) : Prop :=
  exists m a b c o, at_ (r_mag (d_out v)) i = Some m /\ at_ (r_n (d_out v)) i = Some a /\ at_ (r_e (d_out v)) i = Some b /\ at_ (r_z (d_out v)) i = Some c /\
    at_ (o_ind v) i = Some o /\ ls = match m with None => [] | Some _ => [TOcbVec m a b c (Some o)] end.
(** One block of lines for each of the places of [ind], in order. *)
Definition blocks (ind : av Z) (bs : list (list vline)) (one : nat -> list vline -> Prop) : Prop :=
  exists l, ind = Ar l /\ List.length bs = List.length l /\ forall i b, nth_error bs i = Some b -> one i b.
