(** Model of record pairing and record cycling of DualBoundary:
    ocbpy/_boundary.py lines 1080-1125, 1188-1319, and of match_data_ocb
    (ocbpy/cycle_boundary.py:68-221) applied to a DualBoundary. *)
From Coq Require Import String ZArith QArith List Bool.
From Verif Require Import PyBase CycleModel DriverModel.
Import ListNotations.
Open Scope string_scope.
Open Scope list_scope.
Open Scope Z_scope.

(** The attributes used for pairing (_boundary.py:1050-1061).  [d_loaded] is
    false when one of the component boundaries has [dtime = None] (no file was
    loaded, _boundary.py:1253); [d_rec] is [None] while [_rec_ind] does not
    exist.  [d_dtime], [d_ocb_ind] and [d_eab_ind] are [] where Python has
    None. *)
Record dual := mkD {
  d_ocb : boundary;
  d_eab : boundary;
  d_loaded : bool;
  d_max_delta : Z;
  d_records : Z;
  d_dtime : list Z;
  d_ocb_ind : list Z;
  d_eab_ind : list Z;
  d_rec : option Z
}.

(** _boundary.py:1188-1191: the [rec_ind] property. *)
Definition dual_rec_ind (d : dual) : res Z :=
  match d_rec d with Some r => Ok r | None => Err AttributeError end.

Definition dual_put (d : dual) (o e : boundary) (r : option Z) : dual :=
  mkD o e (d_loaded d) (d_max_delta d) (d_records d) (d_dtime d) (d_ocb_ind d)
      (d_eab_ind d) r.

(** _boundary.py:1193-1209: the [rec_ind] setter. *)
Definition dual_set_rec_ind (d : dual) (r : Z) : res dual :=
  if r <? 0 then
    Ok (dual_put d (set_rec_ind (d_ocb d) r) (set_rec_ind (d_eab d) r) (Some r))
  else if d_records d <=? r then
    let del_ind := d_records d - r in
    Ok (dual_put d (set_rec_ind (d_ocb d) (b_records (d_ocb d) + del_ind))
                   (set_rec_ind (d_eab d) (b_records (d_eab d) + del_ind)) (Some r))
  else
    io <- getE (d_ocb_ind d) r ;;
    ie <- getE (d_eab_ind d) r ;;
    Ok (dual_put d (set_rec_ind (d_ocb d) io) (set_rec_ind (d_eab d) ie) (Some r)).

(** _boundary.py:1312-1319 [get_next_good_ind]. *)
Definition dual_get_next_good_ind (d : dual) : res dual :=
  if 0 <? d_records d then
    r <- dual_rec_ind d ;;
    if r <? d_records d then dual_set_rec_ind d (r + 1) else Ok d
  else Ok d.

(** [self.ocb.dtime[good_ocb]] (_boundary.py:1280): numpy fancy indexing. *)
Fixpoint pick (l : list Z) (idx : list Z) : res (list Z) :=
  match idx with
  | [] => Ok []
  | i :: t => a <- getE l i ;; rest <- pick l t ;; Ok (a :: rest)
  end.

(** _boundary.py:1277-1294: the pairing loop.  [e] is the EAB object with its
    cursor; the result lists (OCB index, EAB index). *)
Fixpoint pair_loop (fuel : nat) (e : boundary) (odat good_ocb : list Z)
  (iocb max_delta : Z) (mn mx : option num) (ks : list crit)
  : res (list (Z * Z)) :=
  if b_rec_ind e <? b_records e then
    match fuel with
    | O => Err OutOfFuel
    | S f =>
        '(o, e1) <- match_data_ocb e odat iocb max_delta mn mx ks ;;
        match o with
        | Some i =>
            if (i <? zlen good_ocb) && (b_rec_ind e1 <? b_records e1) then
              io <- getE good_ocb i ;;
              e2 <- get_next_good_ocb_ind e1 mn mx ks ;;
              rest <- pair_loop f e2 odat good_ocb i max_delta mn mx ks ;;
              Ok ((io, b_rec_ind e1) :: rest)
            else
              (* line 1290 iocb = None, 1293-1294 one more cycle, loop ends *)
              if b_rec_ind e1 <? b_records e1 then
                _ <- get_next_good_ocb_ind e1 mn mx ks ;; Ok []
              else Ok []
        | None =>
            if b_rec_ind e1 <? b_records e1 then
              _ <- get_next_good_ocb_ind e1 mn mx ks ;; Ok []
            else Ok []
        end
    end
  else Ok [].

(** _boundary.py:1211-1310 [set_good_ind]. *)
Definition set_good_ind (d : dual)
  (omn omx : option num) (oks : list crit)
  (emn emx : option num) (eks : list crit) : res dual :=
  if negb (d_loaded d) then
    Ok (mkD (d_ocb d) (d_eab d) false (d_max_delta d) 0 [] [] [] (d_rec d))
  else
    '(good_ocb, ocb1) <- retrieve_all_good_indices (d_ocb d) omn omx oks ;;
    odat <- pick (b_dtime ocb1) good_ocb ;;
    pairs <- pair_loop (S (S (Z.to_nat (b_records (d_eab d)))))
               (set_rec_ind (d_eab d) (-1)) odat good_ocb 0 (d_max_delta d)
               emn emx eks ;;
    let ocb_ind := map fst pairs in
    let eab_ind := map snd pairs in
    dtime <- pick (b_dtime ocb1) ocb_ind ;;
    dual_set_rec_ind
      (mkD ocb1 (d_eab d) true (d_max_delta d) (zlen pairs) dtime ocb_ind
           eab_ind (d_rec d)) 0.

(** cycle_boundary.py:68-221 applied to a DualBoundary: lines 116-119, the
    re-pairing when criteria are given (131-144), then the common search with
    the cycling method get_next_good_ind. *)
Definition dual_cycle (records r : Z) : res Z :=
  Ok (if (0 <? records) && (r <? records) then r + 1 else r).

Definition match_data_dual (d : dual) (dat : list Z) (idat max_tol : Z)
  (mn mx : option num) (ks : list crit) : res (option Z * dual) :=
  if zlen dat <=? idat then Ok (Some idat, d)
  else
    r0 <- dual_rec_ind d ;;
    if d_records d <=? r0 then Ok (Some idat, d)
    else
      let custom := match mn, mx, ks with None, None, [] => false | _, _, _ => true end in
      d1 <- (if custom then set_good_ind d mn mx ks mn mx ks else Ok d) ;;
      r1 <- dual_rec_ind d1 ;;
      if custom && (d_records d1 <=? r1) then Ok (Some idat, d1)
      else
        '(o, r) <- match_core (d_records d1) (d_dtime d1) (dual_cycle (d_records d1))
                     dat (max_tol * usec) r1 idat ;;
        d2 <- dual_set_rec_ind d1 r ;;
        Ok (o, d2).

(** [ocb.rec_ind] as read by the processing loops.  It exists whenever the
    boundaries were loaded; otherwise [records] is 0 and the loops are not
    entered (vort.py:132-135). *)
Definition dual_cursor (d : dual) : Z :=
  match d_rec d with Some r => r | None => 0 end.

(** ocbpy/instruments/vort.py:176-211 with a DualBoundary. *)
Definition vort_pairs_dual (d : dual) (dat : list Z) (max_sdiff : Z)
  (mn mx : option num) (ks : list crit) : res (list (Z * Z)) :=
  vort_loop dual d_records dual_cursor
    (fun d i => match_data_dual d dat i max_sdiff mn mx ks) dat
    (S (length dat)) d 0.

(** vort.py:187-192: the radius used to scale the vorticity, before the
    correction is added.  OCBoundary: [ocb.r[ocb.rec_ind]]. *)
Definition vort_radius_ocb (b : boundary) (r : list num) : res num :=
  getE r (b_rec_ind b).
(** DualBoundary: [ocb.ocb.r[ocb.rec_ind]], [r] being the OCB radii. *)
Definition vort_radius_dual (d : dual) (r : list num) : res num :=
  rec <- dual_rec_ind d ;; getE r rec.
