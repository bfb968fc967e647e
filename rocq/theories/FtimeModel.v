(** Model of the hour and degree conversions (ocbpy/ocb_time.py:205-268) and of the solar
    local times (322-396) in IEEE binary64 arithmetic, one value at a time ([fix_range_f]
    and the comparison with arrays: FloatModel).  Integers are those Python converts to
    floats exactly. *)
From Coq Require Import ZArith.
From Flocq Require Import Core BinarySingleNaN.
From Verif Require Import PyBase FloatModel.

Definition f64_mul : f64 -> f64 -> f64 := @Bmult 53 1024 prec53 emax1024 mode_NE.
Definition f64_div : f64 -> f64 -> f64 := @Bdiv 53 1024 prec53 emax1024 mode_NE.
(** A whole number, as a float. *)
Definition whole (z : Z) : f64 := binary_normalize 53 1024 prec53 emax1024 mode_NE z 0 false.

(** ocb_time.py:205-226. *)
Definition deg2hr_f (fuel : nat) (lon : f64) : res f64 :=
  fix_range_f fuel (f64_div lon (whole 15)) (whole 0) (whole 24) None.

(** ocb_time.py:229-268; [mn], [mx]: the limits, whole numbers of degrees. *)
Definition hr2deg_lim (fuel : nat) (lt : f64) (mn mx : Z) : res f64 :=
  let mn' := if (mx - mn <? 360)%Z then (mx - 360)%Z else mn in
  fix_range_f fuel (f64_mul lt (whole 15)) (whole mn') (whole mx) (Some (whole 360)).
Definition hr2deg_f (fuel : nat) (lt : f64) : res f64 := hr2deg_lim fuel lt (-180) 360.

(** ocb_time.py:337-338: the literal [1.0e-6] is the float nearest to it. *)
Definition micro : f64 := @B754_finite 53 1024 false 4722366482869645 (-72) eq_refl.
Definition datetime2hr_f (hour minute second micros : Z) : f64 :=
  f64_add (f64_add (whole hour) (f64_div (whole minute) (whole 60)))
    (f64_div (f64_add (whole second) (f64_mul (whole micros) micro)) (whole 3600)).

(** ocb_time.py:343-370. *)
Definition slt2glon_f (fuel : nat) (slt uth : f64) : res f64 :=
  g <- hr2deg_f fuel (f64_sub slt uth) ;;
  fix_range_f fuel g (whole (-180)) (whole 360) (Some (whole 360)).
(** ocb_time.py:373-396. *)
Definition glon2slt_f (fuel : nat) (glon uth : f64) : res f64 :=
  s <- deg2hr_f fuel glon ;;
  fix_range_f fuel (f64_add s uth) (whole 0) (whole 24) None.
