(** Model of [hr2rad] and [rad2hr] (ocbpy/ocb_time.py:271-319) in IEEE binary64 arithmetic, one value
    at a time. *)
From Coq Require Import ZArith.
From Flocq Require Import Core BinarySingleNaN.
From Verif Require Import PyBase FloatModel FtimeModel.

(** [np.pi], 0x1.921fb54442d18p+1. *)
Definition pi_f : f64 := @B754_finite 53 1024 false 7074237752028440 (-51) eq_refl.
(** [2.0 * np.pi]. *)
Definition turn_f : f64 := f64_mul (whole 2) pi_f.
(** ocb_time.py:271-295. *)
Definition hr2rad_to (fuel : nat) (lt max_range : f64) : res f64 :=
  fix_range_f fuel (f64_div (f64_mul lt pi_f) (whole 12)) (f64_sub max_range turn_f) max_range None.
(** ocb_time.py:271, the default [max_range=2.0 * np.pi]. *)
Definition hr2rad_f (fuel : nat) (lt : f64) : res f64 := hr2rad_to fuel lt turn_f.
(** ocb_time.py:298-319. *)
Definition rad2hr_f (fuel : nat) (lon : f64) : res f64 :=
  fix_range_f fuel (f64_div (f64_mul lon (whole 12)) pi_f) (whole 0) (whole 24) None.
