(** Model of the pairing of [DualBoundary.set_good_ind] (ocbpy/_boundary.py:1211-1310) with a
    maximum time difference that is a float. *)
From Coq Require Import ZArith List Bool.
From Verif Require Import PyBase CycleModel DualModel FloatModel FtolModel.
Import ListNotations.
Open Scope list_scope.
Open Scope Z_scope.

(** _boundary.py:1277-1294, as [pair_loop] of [DualModel]. *)
Fixpoint pair_loop_t (fuel : nat) (e : boundary) (odat good_ocb : list Z)
  (iocb : Z) (max_delta : f64) (mn mx : option num) (ks : list crit) : res (list (Z * Z)) :=
  if b_rec_ind e <? b_records e then
    match fuel with
    | O => Err OutOfFuel
    | S f =>
        '(o, e1) <- match_data_ocb_t e odat iocb max_delta mn mx ks ;;
        match o with
        | Some i =>
            if (i <? zlen good_ocb) && (b_rec_ind e1 <? b_records e1) then
              io <- getE good_ocb i ;;
              e2 <- get_next_good_ocb_ind e1 mn mx ks ;;
              rest <- pair_loop_t f e2 odat good_ocb i max_delta mn mx ks ;;
              Ok ((io, b_rec_ind e1) :: rest)
            else if b_rec_ind e1 <? b_records e1 then
              _ <- get_next_good_ocb_ind e1 mn mx ks ;; Ok []
            else Ok []
        | None =>
            if b_rec_ind e1 <? b_records e1 then
              _ <- get_next_good_ocb_ind e1 mn mx ks ;; Ok []
            else Ok []
        end
    end
  else Ok [].

(** _boundary.py:1253-1298: the pairs (OCB record, EAB record) of loaded boundaries. *)
Definition dual_pairs_t (ocb eab : boundary) (max_delta : f64) (omn omx : option num) (oks : list crit)
  (emn emx : option num) (eks : list crit) : res (list (Z * Z)) :=
  '(good_ocb, ocb1) <- retrieve_all_good_indices ocb omn omx oks ;;
  odat <- pick (b_dtime ocb1) good_ocb ;;
  pair_loop_t (S (S (Z.to_nat (b_records eab)))) (set_rec_ind eab (-1)) odat good_ocb 0 max_delta emn emx eks.
