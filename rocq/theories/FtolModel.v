(** Model of [match_data_ocb] (ocbpy/cycle_boundary.py:68-221) with a tolerance that is a float. *)
From Coq Require Import ZArith List Bool.
From Flocq Require Import Core BinarySingleNaN.
From Verif Require Import PyBase FloatModel FtimeModel CycleModel FmatchModel FmidModel.
Import ListNotations.
Open Scope list_scope.
Open Scope Z_scope.

(** Minus a float. *)
Definition f64_opp (x : f64) : f64 := Bopp x.

Section MatchT.
  Variable records : Z.
  Variable dtime : list Z.
  Variable cycle : Z -> res Z.
  Variable dat : list Z.
  Variable max_tol : f64.       (* seconds *)

  (** cycle_boundary.py:174-221.  The messages of lines 184-186 and 216-218 are formatted
      before they are logged, and a float has no format "d". *)
  Fixpoint main_loop_t (fuel : nat) (rec idat : Z) (last : option f64) : res (option Z * Z) :=
    if (idat <? zlen dat) && (rec <? records) then
      match fuel with
      | O => Err OutOfFuel
      | S f =>
          t <- getE dtime rec ;;
          d <- getE dat idat ;;
          let sdiff := total_seconds (t - d) in
          if f64_lt sdiff (f64_opp max_tol) then
            rec' <- cycle rec ;;
            main_loop_t f rec' idat (Some sdiff)
          else if f64_lt max_tol sdiff then Err ValueError
          else
            rec' <- cycle rec ;;
            (if rec' <? records then
               t' <- getE dtime rec' ;;
               last_iocb <- descend_f records dtime cycle (S (Z.to_nat (records - rec')))
                              d rec' (total_seconds (t' - d)) sdiff rec ;;
               Ok (Some idat, last_iocb)
             else Ok (Some idat, rec))
      end
    else if idat =? 0 then
      match last with
      | None => Err NameError
      | Some sdiff => if f64_lt max_tol (f64_abs sdiff) then Err ValueError else Ok (Some idat, rec)
      end
    else Ok (Some idat, rec).

  (** cycle_boundary.py:169-221. *)
  Definition match_from_t (rec idat : Z) : res (option Z * Z) :=
    t <- getE dtime rec ;;
    d <- getE dat idat ;;
    if t =? d then Ok (Some idat, rec)
    else main_loop_t (S (Z.to_nat (records - rec) + Z.to_nat (zlen dat - idat))) rec idat None.

  (** cycle_boundary.py:149-221.  Simplified as in [CycleModel]: the times have no limits. *)
  Definition match_core_t (rec idat : Z) : res (option Z * Z) :=
    if rec <? 0 then
      rec1 <- cycle rec ;;
      if records <=? rec1 then Ok (Some idat, rec1)
      else
        t <- getE dtime rec1 ;;
        us <- timedelta_seconds max_tol ;;
        o <- skip_early dat (S (Z.to_nat (zlen dat - idat))) idat (t - us) ;;
        match o with
        | None => Ok (None, rec1)
        | Some idat1 => match_from_t rec1 idat1
        end
    else match_from_t rec idat.
End MatchT.

(** cycle_boundary.py:68-221 for an OCBoundary or EABoundary object. *)
Definition match_data_ocb_t (b : boundary) (dat : list Z) (idat : Z) (max_tol : f64)
  (min_merit max_merit : option num) (kwargs : list crit) : res (option Z * boundary) :=
  if zlen dat <=? idat then Ok (Some idat, b)
  else if b_records b <=? b_rec_ind b then Ok (Some idat, b)
  else
    '(o, r) <- match_core_t (b_records b) (b_dtime b)
                 (next_rec b min_merit max_merit kwargs) dat max_tol
                 (b_rec_ind b) idat ;;
    Ok (o, set_rec_ind b r).
