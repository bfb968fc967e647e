(** Vocabulary for the symmetries of the coordinate conversions: the same boundary
    in the other hemisphere, and the same boundary turned around the pole. *)
From Coq Require Import Reals ZArith List Bool.
From Verif Require Import PyBase RangeModel CoordModel DualCoordModel.
Import ListNotations.
Open Scope R_scope.

(** ** The other hemisphere *)

(** Opposite latitudes; NaN stays NaN. *)
Definition opp (v : fl) : fl := match v with Some x => Some (- x) | None => None end.
Definition opps (l : list fl) : list fl := map opp l.
Definition opp_arr (a : arr) : arr := mkArr (is0d a) (isint a) (isnd a) (opps (el a)).

(** The boundary with the same circles, in the other hemisphere. *)
Definition mirror (b : bnd) : bnd := mkBnd (- hemi b) (- blat b) (recs b) (rind b).
(** What it has stored: opposite latitudes at the same local times. *)
Definition mirror_store (s : option cache) : option cache :=
  match s with
  | None => None
  | Some c => Some (map (fun e => match e with
                                  | None => None
                                  | Some p => Some (opps (fst p), snd p) end) c)
  end.
Definition mirror_dual (d : dualc) : dualc :=
  mkDual (mirror (d_o d)) (mirror (d_e d)) (d_oi d) (d_ei d) (d_n d) (d_rec d)
    (mirror_store (d_os d)) (mirror_store (d_es d)).

(** A call that returns, with its result changed; or the same exception. *)
Definition and_then {A B} (f : A -> B) (r : res A) : res B :=
  match r with Ok a => Ok (f a) | Err e => Err e end.

(** ** Turning around the pole *)

(** [rc'] is [rc] turned by [a] hours: its centre at 15 degrees per hour further,
    its correction that of the earlier local time. *)
Record turned (a : R) (rc rc' : rec) : Prop := mkTurned {
  t_r : rr rc' = rr rc;
  t_rc : rcent rc' = rcent rc;
  t_phi : phic rc' = phic rc + 15 * a;
  t_f : forall m, rfun rc' (Some (m + a)) = rfun rc (Some m) }.

(** [rc'] is [rc] with dawn and dusk exchanged. *)
Record swapped (rc rc' : rec) : Prop := mkSwapped {
  s_r : rr rc' = rr rc;
  s_rc : rcent rc' = rcent rc;
  s_phi : phic rc' = - phic rc;
  s_f : forall m, rfun rc' (Some (- m)) = rfun rc (Some m) }.

(** Both boundaries are in the same hemisphere with the same reference latitude. *)
Definition alike (b b' : bnd) : Prop := hemi b' = hemi b /\ blat b' = blat b.
