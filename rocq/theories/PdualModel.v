(** Model of the processing functions given a DualBoundary: ocbpy/instruments/supermag.py
    lines 147-202 and ocbpy/instruments/pysat_instruments.py, [add_ocb_to_data], lines 206-228
    (the arguments of the DualBoundary made there) and 333-338, 412-546 (its output for one time
    coordinate).  The matching itself is in DualModel. *)
From Coq Require Import String Ascii ZArith QArith List Bool.
From Verif Require Import PyBase TimeModel FilesModel SmagModel CycleModel DriverModel DualModel PysatModel.
Import ListNotations.
Open Scope string_scope.
Open Scope list_scope.
Open Scope Z_scope.

(** supermag.py:147-202: data indices with the record index of the DualBoundary. *)
Definition supermag_pairs_dual (d : dual) (dat : list Z) (max_sdiff : Z)
  (mn mx : option num) (ks : list crit) : res (list (Z * Z)) :=
  supermag_loop dual d_records dual_cursor
    (fun d i => match_data_dual d dat i max_sdiff mn mx ks) dat
    (S (length dat)) d 0.

(** pysat_instruments.py:434-542: every matched time with the records the two boundaries are at
    while its samples are converted ([ocb.ocb.rec_ind] and [ocb.eab.rec_ind], which
    [normal_coord] and line 519 use). *)
Fixpoint dual_loop (dat : list Z) (max_sdiff : Z) (mn mx : option num) (ks : list crit)
  (fuel : nat) (d : dual) (i : Z) : res (list (Z * (Z * Z))) :=
  if (i <? zlen dat) && (dual_cursor d <? d_records d) then
    match fuel with
    | O => Err OutOfFuel
    | S f =>
        '(o, d') <- match_data_dual d dat i max_sdiff mn mx ks ;;
        match o with
        | None => Err TypeError
        | Some i' =>
            if (i' <? zlen dat) && (dual_cursor d' <? d_records d') then
              rest <- dual_loop dat max_sdiff mn mx ks f d' (i' + 1) ;;
              Ok ((i', (b_rec_ind (d_ocb d'), b_rec_ind (d_eab d'))) :: rest)
            else dual_loop dat max_sdiff mn mx ks f d' i'
        end
    end
  else Ok [].

(** pysat_instruments.py:333-338, 412-546, as [convert] of PysatModel, with the same
    simplification.  [conv] gives the values of a sample from the records of the two boundaries. *)
Definition convert_dual {V} (conv : Z * Z -> Z -> V) (single : bool) (d : dual) (times : list Z) (keep : list bool)
  (max_sdiff : Z) (mn mx : option num) (ks : list crit) : res (option (list (option V))) :=
  if d_records d =? 0 then Ok None else
  let uind := where_from 0 keep in
  let dat := flat_map (fun i => match py_get times i with Some t => [t] | None => [] end) uind in
  pairs <- dual_loop dat max_sdiff mn mx ks (S (length dat)) d 0 ;;
  if single && negb (length pairs =? 0)%nat then Err IndexError else
  Ok (Some (fill conv uind pairs (repeat None (length times)))).
Definition pandas_dual {V} (conv : Z * Z -> Z -> V) (single : bool) (d : dual) (hemisphere : num) (rows : list (Z * (num * list num))) :=
  convert_dual conv single d (map fst rows) (map (fun r => pandas_keep hemisphere (snd r)) rows).

(** _boundary.py:1084-1088: the arguments of DualBoundary, [inspect.getfullargspec(...).args]. *)
Definition dual_params : list str := map s2l
  ["self"; "eab_filename"; "ocb_filename"; "eab_instrument"; "ocb_instrument"; "hemisphere"; "eab_lat"; "ocb_lat"; "stime"; "etime";
   "eab_rfunc"; "eab_rfunc_kwargs"; "ocb_rfunc"; "ocb_rfunc_kwargs"; "eab"; "ocb"; "max_delta"].
Definition has {A} (k : str) (d : list (str * A)) : bool := member k (map fst d).
(** Lines 209-228: the arguments of the new DualBoundary and the keywords that are left as
    selection criteria. *)
Definition dual_arguments {A} (hemisphere stime etime instrument : A) (kwargs : list (str * A)) : list (str * A) * list (str * A) :=
  let init0 := [(s2l "hemisphere", hemisphere); (s2l "stime", stime); (s2l "etime", etime)] in
  let init1 := fold_left (fun d kv => if member (fst kv) dual_params then setkey (fst kv) (snd kv) d else d) kwargs init0 in
  let rest := filter (fun kv => negb (has (fst kv) init1)) kwargs in
  let init2 := if has (s2l "ocb_instrument") init1 then init1 else setkey (s2l "ocb_instrument") instrument init1 in
  let init3 := if has (s2l "eab_instrument") init2 then init2 else setkey (s2l "eab_instrument") instrument init2 in
  (init3, rest).
