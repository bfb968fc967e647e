(** Model of the middle times of [format_ssj_boundary_files]
    (ocbpy/boundaries/dmsp_ssj_files.py:371-373 and 389-391) in binary64, where [SsjModel] has
    exact rationals. *)
From Coq Require Import ZArith.
From Flocq Require Import Core BinarySingleNaN.
From Verif Require Import PyBase TimeModel FloatModel FtimeModel FsoyModel.
Open Scope Z_scope.

(** [round] of a float to a whole number, ties to even. *)
Definition f64_nearest (x : f64) : f64 := @Bnearbyint 53 1024 emax1024 mode_NE x.
(** [timedelta(seconds=x)] in microseconds: whole seconds, and the fraction times 10**6 to the
    nearest microsecond (CPython's _datetimemodule.c, [accum] and [delta_new]).  Simplified: the
    limit of 999999999 days is left to the addition that follows. *)
Definition timedelta_seconds (x : f64) : res Z :=
  match x with
  | B754_nan => Err ValueError
  | B754_infinity _ => Err OverflowError
  | _ => let sec := f64_trunc x in
         Ok (b2z sec * 1000000 + b2z (f64_nearest (f64_mul (f64_sub x sec) (whole 1000000))))
  end.
(** Lines 371-373 and 389-391. *)
Definition mid_time_f (day : Z) (t1 t2 : f64) : res Z :=
  us <- timedelta_seconds (f64_mul (f64_div (whole 1) (whole 2)) (f64_add t2 t1)) ;;
  add_us day us.
