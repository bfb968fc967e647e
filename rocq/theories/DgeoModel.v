(** Model of ocbpy/_boundary.py: [DualBoundary.normal_coord] (1321-1492) and
    [DualBoundary.revert_coord] (1494-1689) for geographic coordinates, with the arrays of
    [OCBoundary.revert_coord] (638-740) that the latter uses.

    aacgmv2 is a parameter ([aacgm] of CoordModel.v, at the time of the record).  Its array functions take
    latitudes, longitudes and heights of one length; with other lengths (one height excepted)
    they raise ValueError, or their result does not fit the place it is assigned to, which is
    a ValueError as well.  [geodetic] and [geocentric] differ in that parameter only. *)
From Coq Require Import Reals ZArith List Bool.
From Verif Require Import PyBase RangeModel CoordModel DualCoordModel.
Import ListNotations.
Open Scope R_scope.

(** Lines 1369-1397 and 1553-1583: scalars are repeated, arrays must have the length of the
    longest. *)
Definition widen (n : nat) (a : arr) : res arr :=
  if is0d a then Ok (mkArr false false true (repeat (hd None (el a)) n))
  else if (length (el a) =? n)%nat then Ok (mkArr false (isint a) true (el a)) else Err ValueError.
Definition spread3 (a b c : arr) : res (arr * arr * arr) :=
  if is0d a && is0d b && is0d c then Ok (mkArr false (isint a) true (el a), mkArr false (isint b) true (el b), mkArr false (isint c) true (el c))
  else
    let n := max_len [a; b; c] in
    x <- widen n a ;; y <- widen n b ;; z <- widen n c ;; Ok (x, y, z).
Definition zip3 {A B C} (a : list A) (b : list B) (c : list C) : list (A * B * C) := combine (combine a b) c.

(** Lines 1369-1492.  After the conversion (1410-1420) the steps are those for magnetic
    coordinates, on new float arrays. *)
Definition dual_normal_geo (d : dualc) (g : aacgm) (uth : R) (lat lt height : arr) (ow : bool) : dualc * res (arr * arr * arr * arr) :=
  let z := is0d lat && is0d lt && is0d height in
  match spread3 lat lt height with
  | Err e => (d, Err e)
  | Ok (la, ta, ha) =>
      if ((d_rec d <? 0) || (d_n d <=? d_rec d))%Z then
        let n := out z (map (fun _ => None) (el la)) in (d, Ok (n, n, n, n))
      else
        match mapE (fun p => geo_to_mag g uth (fst (fst p)) (snd (fst p)) (snd p)) (zip3 (el la) (el ta) (el ha)) with
        | Err e => (d, Err e)
        | Ok ms => dual_normal d (out z (map fst ms)) (out z (map snd ms)) ow
        end
  end.

(** Elementwise conversion to geographic coordinates, 721-736 and 1666-1681. *)
Definition to_geo_arr (g : aacgm) (uth : R) (lat mlt height : list fl) : res (list (fl * fl)) :=
  if ((length lat =? length mlt) && (length lat =? length height))%nat
  then mapE (fun p => mag_to_geo g uth (fst (fst p)) (snd (fst p)) (snd p)) (zip3 lat mlt height)
  else Err ValueError.
(** Lines 680-740 with a height for each position.  NaN (686-690) is returned as it is. *)
Definition revert_geo (b : bnd) (g : aacgm) (uth : R) (olat omlt rcorr : arr) (height : list fl) : res (list fl * list fl) :=
  r <- revert_coord b olat omlt rcorr ;;
  match current b with
  | None => Ok (el (fst r), el (snd r))
  | Some _ =>
      if forallb (wrong_side (hemi b)) (el olat) then Ok (el (fst r), el (snd r))
      else ps <- to_geo_arr g uth (el (fst r)) (el (snd r)) height ;; Ok (map fst ps, map snd ps)
  end.

(** Lines 1627-1630: indices between the boundaries, and equatorward of both. *)
Definition in_mid (obl ebl : R) (v : fl) : bool := abs_lt v (Some obl) && abs_ge v (Some ebl).
Definition in_out (ebl : R) (v : fl) : bool := abs_lt v (Some ebl).
Definition where_ (f : fl -> bool) (l : list fl) : list nat := map fst (filter (fun p => f (snd p)) (combine (seq 0 (length l)) l)).
Fixpoint assign {A} (ps : list (nat * A)) (l : list A) : list A :=
  match ps with
  | [] => l
  | (i, a) :: r => assign r (firstn i l ++ match skipn i l with [] => [] | _ :: t => a :: t end)
  end.
(** Lines 1658-1681: [lat[imag]], [aacgm_mlt[imag]] and [lt[imag]] are taken in the order of
    [imag], the heights in that of the input. *)
Definition outside_to_geo (g : aacgm) (uth obl ebl : R) (olat height : list fl) (ps : list (fl * fl)) (ms : list fl) : res (list (fl * fl)) :=
  let imag := where_ (in_mid obl ebl) olat ++ where_ (in_out ebl) olat in
  vs <- to_geo_arr g uth (map (fun i => fst (nth i ps (None, None))) imag) (map (fun i => nth i ms None) imag) height ;;
  Ok (assign (combine imag vs) ps).

(** Lines 1553-1689.  The boundaries are put back (1646-1656) before the conversion.  As in
    [dual_revert], an [aacgm_mlt] array shorter than the positions is an IndexError. *)
Definition dual_revert_geo (d : dualc) (g : aacgm) (uth : R) (olat omlt rcorr height : arr) (is_ocb : bool) (amlt : option arr) (ow : bool)
  : dualc * res (arr * arr) :=
  let z := is0d olat && is0d omlt && is0d height in
  match spread3 olat omlt height with
  | Err e => (d, Err e)
  | Ok (la, ta, ha) =>
      match revert_geo (d_o d) g uth la ta rcorr (el ha) with
      | Err e => (d, Err e)
      | Ok (L, M) =>
          let fin (l : list (fl * fl)) := let l' := if z then firstn 1 l else l in (out z (map fst l'), out z (map snd l')) in
          if is_ocb || forallb (fun v => abs_ge v (Some (blat (d_o d)))) (el la)
          then (d, Ok (fin (combine L M)))
          else
            match amlt with
            | None => (d, Err ValueError)
            | Some a =>
                let ms := if is0d a then if z then el a else repeat (hd None (el a)) (length (el la)) else el a in
                let int := isint a && negb (is0d a && negb z) in
                let ow' := ow || match originals d with Ok (None, None) => true | _ => false end in
                let '(d', r) := with_boundaries d ms int ow'
                  (fun eb ob ms' =>
                     if (length ms' <? length (el la))%nat then Err IndexError
                     else Ok (map (rev_pt (blat (d_o d)) (blat (d_e d))) (combine (combine (combine L M) (combine (el la) (combine ob eb))) ms'), ms')) in
                (d', x <- r ;; ps <- outside_to_geo g uth (blat (d_o d)) (blat (d_e d)) (el la) (el ha) (fst x) (snd x) ;; Ok (fin ps))
            end
      end
  end.
