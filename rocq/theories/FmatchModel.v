(** Model of [match_data_ocb] (ocbpy/cycle_boundary.py:68-221) with the time differences as the
    floats of [total_seconds()], where [CycleModel] has whole microseconds. *)
From Coq Require Import ZArith List Bool.
From Flocq Require Import Core BinarySingleNaN.
From Verif Require Import PyBase FloatModel FtimeModel CycleModel.
Import ListNotations.
Open Scope list_scope.
Open Scope Z_scope.

(** [timedelta.total_seconds()]: the number of microseconds divided by 10**6, correctly rounded.
    Simplified: for more than 2^53 microseconds (285 years) Python divides the exact number,
    here it is rounded first. *)
Definition total_seconds (us : Z) : f64 := f64_div (whole us) (whole 1000000).
(** [abs] of a float. *)
Definition f64_abs (x : f64) : f64 := Babs x.

Section MatchF.
  Variable records : Z.
  Variable dtime : list Z.
  Variable cycle : Z -> res Z.
  Variable dat : list Z.
  Variable max_tol : Z.       (* seconds *)

  (** cycle_boundary.py:198-204. *)
  Fixpoint descend_f (fuel : nat) (d rec : Z) (sdiff lastd : f64) (lastr : Z) : res Z :=
    if f64_lt (f64_abs sdiff) (f64_abs lastd) then
      match fuel with
      | O => Err OutOfFuel
      | S f =>
          rec' <- cycle rec ;;
          if rec' <? records then
            t <- getE dtime rec' ;;
            descend_f f d rec' (total_seconds (t - d)) sdiff rec
          else descend_f f d rec' sdiff sdiff rec
      end
    else Ok lastr.

  (** cycle_boundary.py:174-221.  Python compares a float with an int exactly, as the double
      of the int does up to 2^53. *)
  Fixpoint main_loop_f (fuel : nat) (rec idat : Z) (last : option f64) : res (option Z * Z) :=
    if (idat <? zlen dat) && (rec <? records) then
      match fuel with
      | O => Err OutOfFuel
      | S f =>
          t <- getE dtime rec ;;
          d <- getE dat idat ;;
          let sdiff := total_seconds (t - d) in
          if f64_lt sdiff (whole (- max_tol)) then
            rec' <- cycle rec ;;
            main_loop_f f rec' idat (Some sdiff)
          else if f64_lt (whole max_tol) sdiff then
            main_loop_f f rec (idat + 1) (Some sdiff)
          else
            rec' <- cycle rec ;;
            (if rec' <? records then
               t' <- getE dtime rec' ;;
               last_iocb <- descend_f (S (Z.to_nat (records - rec')))
                              d rec' (total_seconds (t' - d)) sdiff rec ;;
               Ok (Some idat, last_iocb)
             else Ok (Some idat, rec))
      end
    else if idat =? 0 then
      match last with
      | None => Err NameError
      | Some sdiff =>
          if f64_lt (whole max_tol) (f64_abs sdiff) then Ok (None, rec) else Ok (Some idat, rec)
      end
    else Ok (Some idat, rec).

  (** cycle_boundary.py:169-221: datetimes are compared exactly. *)
  Definition match_from_f (rec idat : Z) : res (option Z * Z) :=
    t <- getE dtime rec ;;
    d <- getE dat idat ;;
    if t =? d then Ok (Some idat, rec)
    else main_loop_f (S (Z.to_nat (records - rec) + Z.to_nat (zlen dat - idat))) rec idat None.

  (** cycle_boundary.py:149-221: [dt.timedelta(seconds=max_tol)] is exact. *)
  Definition match_core_f (rec idat : Z) : res (option Z * Z) :=
    if rec <? 0 then
      rec1 <- cycle rec ;;
      if records <=? rec1 then Ok (Some idat, rec1)
      else
        t <- getE dtime rec1 ;;
        o <- skip_early dat (S (Z.to_nat (zlen dat - idat))) idat (t - max_tol * usec) ;;
        match o with
        | None => Ok (None, rec1)
        | Some idat1 => match_from_f rec1 idat1
        end
    else match_from_f rec idat.
End MatchF.

(** cycle_boundary.py:68-221 for an OCBoundary or EABoundary object. *)
Definition match_data_ocb_f (b : boundary) (dat : list Z) (idat max_tol : Z)
  (min_merit max_merit : option num) (kwargs : list crit) : res (option Z * boundary) :=
  if zlen dat <=? idat then Ok (Some idat, b)
  else if b_records b <=? b_rec_ind b then Ok (Some idat, b)
  else
    '(o, r) <- match_core_f (b_records b) (b_dtime b)
                 (next_rec b min_merit max_merit kwargs) dat max_tol
                 (b_rec_ind b) idat ;;
    Ok (o, set_rec_ind b r).
