(** Model of the time of a date line of [load_vorticity_ascii_data]
    (ocbpy/instruments/vort.py:289-296) in binary64, for the parameter [secs] of [VortModel]. *)
From Coq Require Import ZArith.
From Flocq Require Import Core BinarySingleNaN.
From Verif Require Import PyBase FloatModel FtimeModel FsoyModel.
Open Scope Z_scope.

(** vort.py:296, [np.floor(hh * 3600.0)] as the seconds of a [timedelta], which refuses NaN with
    ValueError and the infinities with OverflowError. *)
Definition vort_secs (hh : f64) : res Z :=
  match f64_floor (f64_mul hh (whole 3600)) with
  | B754_nan => Err ValueError
  | B754_infinity _ => Err OverflowError
  | x => Ok (b2z x)
  end.
