(** Model of [VectorData.set_ocb] with a DualBoundary: ocbpy/ocb_scaling.py 629-723
    and [_assign_normal_coord_output] (436-460), with the DualBoundary of
    ocbpy/_boundary.py ([rec_ind] setter 1193-1209, [normal_coord] 1321-1492).

    Locations and vectors are in magnetic coordinates; floats are reals or NaN.  Every
    function returns the dual boundary afterwards together with the vectors or the
    exception. *)
From Coq Require Import Reals ZArith List Bool.
From Verif Require Import PyBase RangeModel CoordModel DualCoordModel VectorModel ScalingModel.
Import ListNotations.
Open Scope R_scope.

(** ocb_scaling.py:646-647: the time of a pair ([dtime] of a DualBoundary has one entry
    per pair, _boundary.py:1286).  The time itself is not used for magnetic
    coordinates. *)
Definition pair_time (d : dualc) (k : Z) : res Z := getE (d_oi d) k.

(** ocb_scaling.py:659, 668: [ocb.rec_ind = ind] followed by [ocb.normal_coord];
    [z]: scalars.  DualBoundary copies the arrays it is given (_boundary.py:1369-1397),
    so that the latitudes of the vectors are not overwritten. *)
Definition dual_coords (d : dualc) (k : Z) (lat lt : arr) : dualc * res (arr * arr * arr) :=
  match set_rec d k with
  | Err e => (d, Err e)
  | Ok d1 =>
      let '(d2, r) := dual_normal d1 lat lt false in
      (d2, o <- r ;; let '(bl, m, _, c) := o in Ok (bl, m, c))
  end.

(** ocb_scaling.py:656-665, 436-460 for scalars (and 668-680 for one vector of an
    array): the third output of [normal_coord] is dropped. *)
Definition coords_of_dual (d : dualc) (k : Z) (v : vel) : dualc * res vel :=
  let '(d2, r) := dual_coords d k (sc0 (w_lat v)) (sc0 (w_lt v)) in
  (d2, o <- r ;; let '(bl, m, c) := o in Ok (put_coord v (w_lat v) (first bl) (first m) (first c))).

(** ocb_scaling.py:689-695: the record of the open-closed boundary in a pair. *)
Definition ocb_rec (d : dualc) (k : Z) : res rec := io <- getE (d_oi d) k ;; getE (recs (d_o d)) io.

(** [set_ocb] for scalars.  Lines 689-695 use the open-closed boundary whatever the
    region of the vector. *)
Definition set_ocb_dual (d : dualc) (k : Z) (own arg : option sfun) (v : vel) : dualc * res vel :=
  match pair_time d (d_rec d) with
  | Err e => (d, Err e)
  | Ok _ =>
      let '(d1, r) := if no_coords [v] then coords_of_dual d k v else (d, Ok v) in
      (d1, v1 <- r ;;
           if no_coords [v1] then Ok v1
           else rc <- ocb_rec d k ;; finish1 (d_o d) (choose_sf own arg) rc v1)
  end.

(** [set_ocb] for arrays of vectors and one boundary index. *)
Definition set_ocb_dual_array (d : dualc) (k : Z) (own arg : option sfun) (vs : list vel) : dualc * res (list vel) :=
  match pair_time d (d_rec d) with
  | Err e => (d, Err e)
  | Ok _ =>
      let '(d1, r) :=
        if no_coords vs then
          let '(d2, r) := dual_coords d k (mkArr false false true (map w_lat vs)) (mkArr false false true (map w_lt vs)) in
          (d2, o <- r ;; let '(bl, m, c) := o in Ok (put_coords vs (map w_lat vs) (el bl) (el m) (el c)))
        else (d, Ok vs) in
      (d1, vs1 <- r ;;
           if no_coords vs1 then Ok vs1
           else rc <- ocb_rec d k ;; finish (d_o d) (choose_sf own arg) (repeat rc (length vs1)) vs1)
  end.

(** Lines 667-680: the coordinates of each vector, at its own boundary index. *)
Fixpoint coords_each (d : dualc) (ks : list Z) (vs : list vel) : dualc * res (list vel) :=
  match ks, vs with
  | k :: ks', v :: vs' =>
      let '(d1, r) := coords_of_dual d k v in
      match r with
      | Err e => (d1, Err e)
      | Ok v1 => let '(d2, r2) := coords_each d1 ks' vs' in (d2, l <- r2 ;; Ok (v1 :: l))
      end
  | _, _ => (d, Ok [])
  end.

(** [set_ocb] for arrays of vectors with one boundary index each. *)
Definition set_ocb_dual_matched (d : dualc) (ks : list Z) (own arg : option sfun) (vs : list vel) : dualc * res (list vel) :=
  match mapE (pair_time d) ks with
  | Err e => (d, Err e)
  | Ok _ =>
      let '(d1, r) := if no_coords vs then coords_each d ks vs else (d, Ok vs) in
      (d1, vs1 <- r ;;
           if no_coords vs1 then Ok vs1
           else rcs <- mapE (ocb_rec d) ks ;; finish (d_o d) (choose_sf own arg) rcs vs1)
  end.
