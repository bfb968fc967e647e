(** Model of the coordinate conversions of DualBoundary, magnetic coordinates:
    ocbpy/_boundary.py [DualBoundary.__init__] (1083-1125),
    [_get_current_aacgm_boundary] (1150-1186), [normal_coord] (1321-1492),
    [revert_coord] (1494-1689), [get_aacgm_boundary_lats] (1691-1730) and
    [calc_r] (1732-1828).

    Arrays and floats are as in CoordModel.v.  Every function returns the object
    afterwards together with the result or exception. *)
From Coq Require Import Reals ZArith List Bool.
From Verif Require Import PyBase RangeModel CoordModel.
Import ListNotations.
Open Scope R_scope.

(** The attributes used: both boundaries (with their own [rec_ind]), the paired
    indices, [records], [rec_ind], and what each boundary has stored under
    [aacgm_boundary_lat]/[aacgm_boundary_mlt] ([None]: no such attribute yet). *)
Record dualc := mkDual {
  d_o : bnd; d_e : bnd; d_oi : list Z; d_ei : list Z; d_n : Z; d_rec : Z;
  d_os : option cache; d_es : option cache }.

Definition put_stores (d : dualc) (os es : option cache) : dualc :=
  mkDual (d_o d) (d_e d) (d_oi d) (d_ei d) (d_n d) (d_rec d) os es.

(** ** Construction, _boundary.py:1090-1122: the two reference latitudes and the
    hemispheres.  [eab] and [ocb] are boundary objects given by the caller, as
    (hemisphere, boundary_lat). *)
Definition dual_init (eab_lat ocb_lat max_delta : R) (hemisphere : Z)
  (eab ocb : option (Z * R)) : res ((Z * R) * (Z * R)) :=
  if Rle_dec (Rabs ocb_lat) (Rabs eab_lat) then Err ValueError
  else if Rle_dec max_delta 0 then Err ValueError
  else
    e <- match eab with
         | Some p => Ok p
         | None => l <- init_lat hemisphere (Some eab_lat) ;; Ok (hemisphere, l)
         end ;;
    o <- match ocb with
         | Some p => Ok p
         | None => l <- init_lat hemisphere (Some ocb_lat) ;; Ok (hemisphere, l)
         end ;;
    if (fst o =? fst e)%Z then Ok (e, o) else Err ValueError.

(** _boundary.py:1193-1209: the [rec_ind] setter. *)
Definition at_rec (b : bnd) (r : Z) : bnd := mkBnd (hemi b) (blat b) (recs b) r.
Definition set_rec (d : dualc) (r : Z) : res dualc :=
  let put o e := mkDual (at_rec (d_o d) o) (at_rec (d_e d) e) (d_oi d) (d_ei d) (d_n d) r (d_os d) (d_es d) in
  if (r <? 0)%Z then Ok (put r r)
  else if (d_n d <=? r)%Z then
    let del := (d_n d - r)%Z in
    Ok (put (zlen (recs (d_o d)) + del) (zlen (recs (d_e d)) + del))%Z
  else io <- getE (d_oi d) r ;; ie <- getE (d_ei d) r ;; Ok (put io ie).

(** ** Stored boundaries *)

(** _boundary.py:1691-1730 for one pair [k] (an index into the pairs), with
    overwrite.  The MLT array is wrapped in place by both calls; results are the
    object, the EAB and OCB latitudes now stored at the boundaries' own [rec_ind]
    and the array afterwards.  [None] stored there makes the callers' arithmetic a
    TypeError. *)
Definition stored_at (s : option cache) (i : Z) : res (option (list fl * list fl)) :=
  match s with None => Ok None | Some c => getE c i end.

Definition update_pair (d : dualc) (mlts : list fl) (int : bool) (k : Z)
  : dualc * res (list fl * list fl * list fl) :=
  match py_get (d_ei d) k, py_get (d_oi d) k with
  | Some ie, Some io =>
      let '(es, er, m1) := get_aacgm_boundary_lat (d_e d) (d_es d) (mkArr false int true mlts) (Some [ie]) true in
      let d1 := put_stores d (d_os d) (Some es) in
      match er with
      | Some e => (d1, Err e)
      | None =>
          let '(os, er2, m2) := get_aacgm_boundary_lat (d_o d) (d_os d) (mkArr false int true m1) (Some [io]) true in
          let d2 := put_stores d (Some os) (Some es) in
          match er2 with
          | Some e => (d2, Err e)
          | None =>
              (d2, o <- getE os (rind (d_o d)) ;; e <- getE es (rind (d_e d)) ;;
                   match o, e with
                   | Some (ol, _), Some (elats, _) => Ok (elats, ol, m2)
                   | _, _ => Err TypeError
                   end)
          end
      end
  | _, _ => (d, Err IndexError)
  end.

(** _boundary.py:1439-1444 (and 1615-1620, 1794-1799), [_get_current_aacgm_boundary]
    (1150-1186): what was stored, and
    whether it will be put back. *)
Definition originals (d : dualc) : res (option (list fl * list fl) * option (list fl * list fl)) :=
  o <- stored_at (d_os d) (rind (d_o d)) ;; e <- stored_at (d_es d) (rind (d_e d)) ;; Ok (e, o).

(** _boundary.py:1480-1487: put back what was stored. *)
Definition restore (d : dualc) (orig : option (list fl * list fl) * option (list fl * list fl)) : dualc :=
  let os := match snd orig, d_os d with
            | Some x, Some c => Some (set_at c (rind (d_o d)) (Some x)) | _, s => s end in
  let es := match fst orig, d_es d with
            | Some x, Some c => Some (set_at c (rind (d_e d)) (Some x)) | _, s => s end in
  put_stores d os es.

(** Lines 1439-1449 and 1480-1487 around the use of the boundaries: [use] gets the
    EAB latitudes, the OCB latitudes and the wrapped MLTs. *)
Definition with_boundaries {A} (d : dualc) (mlts : list fl) (int ow : bool)
  (use : list fl -> list fl -> list fl -> res A) : dualc * res A :=
  match (if ow then Ok (None, None) else originals d) with
  | Err e => (d, Err e)
  | Ok orig =>
      let '(d2, r) := update_pair d mlts int (d_rec d) in
      match r with
      | Err e => (d2, Err e)
      | Ok (eb, ob, ms) =>
          match use eb ob ms with
          | Err e => (d2, Err e)
          | Ok a => (if ow then d2 else restore d2 orig, Ok a)
          end
      end
  end.

(** ** Regions *)
Definition abs_lt (a b : fl) : bool :=
  match a, b with Some x, Some y => if Rlt_dec (Rabs x) (Rabs y) then true else false | _, _ => false end.
Definition abs_ge (a b : fl) : bool :=
  match a, b with Some x, Some y => if Rle_dec (Rabs y) (Rabs x) then true else false | _, _ => false end.

Definition fsub := fmap2 Rminus.
Definition fmul := fmap2 Rmult.
Definition fdiv2 (a b : fl) : fl :=
  match a, b with Some x, Some y => if Req_EM_T y 0 then None else Some (x / y) | _, _ => None end.

(** Arguments to arrays of one length, _boundary.py:1369-1397 (and 1553-1583): scalars are
    repeated (as floats), two arrays must have the same length.  The height
    is a scalar here. *)
Definition spread (a b : arr) : res (arr * arr) :=
  match is0d a, is0d b with
  | true, true => Ok (mkArr false (isint a) true (el a), mkArr false (isint b) true (el b))
  | true, false => Ok (mkArr false false true (repeat (hd None (el a)) (length (el b))),
                       mkArr false (isint b) true (el b))
  | false, true => Ok (mkArr false (isint a) true (el a),
                       mkArr false false true (repeat (hd None (el b)) (length (el a))))
  | false, false => if (length (el a) =? length (el b))%nat then Ok (mkArr false (isint a) true (el a), mkArr false (isint b) true (el b))
                    else Err ValueError
  end.

Definition isnan (v : fl) : bool := match v with None => true | _ => false end.

(** _boundary.py:1451-1478 for one point: regions, and the value in the auroral
    and sub-auroral regions. *)
Definition reg_mid (lat ob eb : fl) : bool := abs_lt lat ob && abs_ge lat eb.
Definition reg_out (lat eb : fl) : bool := abs_lt lat eb.
Definition reg_ocb (obl : R) (olat : fl) : bool := abs_ge olat (Some obl).
Definition mid_lat (obl ebl : R) (lat ob eb : fl) : fl :=
  fsub (Some obl) (fdiv2 (fmul (fsub ob lat) (Some (obl - ebl))) (fsub ob eb)).
Definition out_lat (ebl : R) (lat eb : fl) : fl :=
  fsub (Some ebl) (fmul (fsub eb lat) (fdiv2 (Some ebl) eb)).

Definition count {A} (f : A -> bool) (l : list A) : nat := length (filter f l).

(** One point: (AACGM latitude, latitude relative to the OCB, OCB, EAB). *)
Definition pt := (fl * fl * (fl * fl))%type.
Definition bound_lat (obl ebl : R) (bad_to_nan : bool) (p : pt) : fl :=
  let '(lat, olat, (ob, eb)) := p in
  if reg_out lat eb then out_lat ebl lat eb
  else if reg_mid lat ob eb then mid_lat obl ebl lat ob eb
  else if reg_ocb obl olat then olat
  else if bad_to_nan then None else olat.

(** Lines 1456-1467: points in no region become NaN, if the regions hold fewer
    points than there are. *)
Definition some_bad (obl : R) (l : list pt) : bool :=
  (count (fun p : pt => reg_ocb obl (snd (fst p))) l
   + count (fun p : pt => reg_mid (fst (fst p)) (fst (snd p)) (snd (snd p))) l
   + count (fun p : pt => reg_out (fst (fst p)) (snd (snd p))) l <? length l)%nat.

(** _boundary.py:1321-1492.  Results: dual latitude, MLT, OCB latitude, radius
    correction. *)
Definition dual_normal (d : dualc) (lat lt : arr) (ow : bool)
  : dualc * res (arr * arr * arr * arr) :=
  let z := is0d lat && is0d lt in
  match spread lat lt with
  | Err e => (d, Err e)
  | Ok (la, ta) =>
      if ((d_rec d <? 0) || (d_n d <=? d_rec d))%Z then
        let n := out z (map (fun _ => None) (el la)) in (d, Ok (n, n, n, n))
      else
        match normal_coord (d_o d) la ta with
        | Err e => (d, Err e)
        | Ok (L, M, C, after) =>
            let ret (b : list fl) := (out z b, out z (el M), out z (el L), out z (el C)) in
            if forallb isnan (el L) then (d, Ok (ret (el L)))
            else
              let ow' := ow || match originals d with Ok (None, None) => true | _ => false end in
              with_boundaries d (el ta) (isint ta) ow'
                (fun eb ob _ =>
                   let ps := combine (combine after (el L)) (combine ob eb) in
                   Ok (ret (map (bound_lat (blat (d_o d)) (blat (d_e d)) (some_bad (blat (d_o d)) ps)) ps)))
        end
  end.

(** _boundary.py:1494-1689.  Simplification: an [aacgm_mlt] array shorter than the
    positions is an IndexError even if the missing elements are not needed. *)
Definition rev_mid (obl ebl : R) (olat ob eb : fl) : fl :=
  fsub ob (fdiv2 (fmul (fsub (Some obl) olat) (fsub ob eb)) (Some (obl - ebl))).
Definition rev_out (ebl : R) (olat eb : fl) : fl :=
  fsub eb (fmul (fsub (Some ebl) olat) (fdiv2 eb (Some ebl))).

(** One point: the latitude given, its AACGM MLT, OCB and EAB; and the result of
    the OCB reversion. *)
Definition rev_pt (obl ebl : R) (p : (fl * fl) * (fl * (fl * fl)) * fl) : fl * fl :=
  let '((lat, lt), (olat, (ob, eb)), m) := p in
  if abs_lt olat (Some ebl) then (rev_out ebl olat eb, m)
  else if abs_lt olat (Some obl) && abs_ge olat (Some ebl) then (rev_mid obl ebl olat ob eb, m)
  else (lat, lt).

Definition dual_revert (d : dualc) (olat omlt rcorr : arr) (is_ocb : bool) (amlt : option arr) (ow : bool)
  : dualc * res (arr * arr) :=
  let z := is0d olat && is0d omlt in
  match spread olat omlt with
  | Err e => (d, Err e)
  | Ok (la, ta) =>
      match revert_coord (d_o d) la ta rcorr with
      | Err e => (d, Err e)
      | Ok (L, M) =>
          let fin (l m : list fl) :=
            (out z (if z then firstn 1 l else l), out z (if z then firstn 1 m else m)) in
          if is_ocb || forallb (fun v => abs_ge v (Some (blat (d_o d)))) (el la)
          then (d, Ok (fin (el L) (el M)))
          else
            match amlt with
            | None => (d, Err ValueError)
            | Some a =>
                let ms := if is0d a then if z then el a else repeat (hd None (el a)) (length (el la)) else el a in
                let int := isint a && negb (is0d a && negb z) in
                let ow' := ow || match originals d with Ok (None, None) => true | _ => false end in
                with_boundaries d ms int ow'
                  (fun eb ob ms' =>
                     if (length ms' <? length (el la))%nat then Err IndexError
                     else
                       let n := length (el la) in
                       let ps := combine (combine (combine (el L) (el M)) (combine (el la) (combine ob eb))) ms' in
                       let rs := map (rev_pt (blat (d_o d)) (blat (d_e d))) ps in
                       Ok (fin (map fst rs ++ skipn n (el L)) (map snd rs ++ skipn n (el M))))
            end
      end
  end.

(** _boundary.py:1732-1828: the extent of the region of one point. *)
Definition radii_pt (obl ebl : R) (r : fl) (p : fl * (fl * fl)) : fl * fl :=
  let '(lat, (ob, eb)) := p in
  if abs_lt lat (Some ebl) then (Some (Rabs ebl), fmap Rabs eb)
  else if abs_lt lat (Some obl) && abs_ge lat (Some ebl) then
    (Some (Rabs (obl - ebl)), fmap Rabs (fsub ob eb))
  else (Some (90 - Rabs obl), r).

(** calc_r for arrays of one length; [rcorr] one value per point.  [rr_of] is
    [self.ocb.r[self.ocb_ind[self.rec_ind]]].  Simplification: the broadcasting of
    scalars among the arguments (1774-1787) is left out. *)
Definition dual_calc_r (d : dualc) (lats amlt rcorr : list fl) (ow : bool)
  : dualc * res (list fl * list fl) :=
  if ((d_rec d <? 0) || (d_n d <=? d_rec d))%Z then
    (d, Ok (map (fun _ => Some (90 - Rabs (blat (d_o d)))) lats, map (fun _ => None) lats))
  else
    match (k <- getE (d_oi d) (d_rec d) ;; rc <- getE (recs (d_o d)) k ;; Ok (rr rc)) with
    | Err e => (d, Err e)
    | Ok r =>
        let ow' := ow || match originals d with Ok (None, None) => true | _ => false end in
        with_boundaries d amlt false ow'
          (fun eb ob _ =>
             let rs := map (fun p => radii_pt (blat (d_o d)) (blat (d_e d))
                                       (fmap (fun c => r + c) (snd p)) (fst p))
                         (combine (combine lats (combine ob eb)) rcorr) in
             Ok (map fst rs, map snd rs))
    end.
