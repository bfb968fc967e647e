(** Model of ocbpy/vectors.py: [get_pole_loc] (16-45), [calc_vec_pole_angle]
    (48-142), [define_pole_quadrants] (145-228), [define_vect_quadrants] (231-286),
    [calc_dest_polar_angle] (289-399), [calc_dest_vec_sign] (402-514) and
    [adjust_vector] (517-710).

    Floats are reals or NaN.  A result that numpy makes infinite by dividing by zero
    goes through [np.arccos] at once and is NaN there and here.  The masked array
    code is modelled per element; what it decides for the whole array (the tests
    that raise, the recomputation of quadrants) is modelled on the list. *)
From Coq Require Import Reals ZArith List Bool.
From Verif Require Import PyBase RangeModel CoordModel DualCoordModel.
Import ListNotations.
Open Scope R_scope.

(** [np.arccos], [np.sqrt]: NaN outside the domain. *)
Definition facos (x : R) : fl :=
  if Rle_dec (-1) x then if Rle_dec x 1 then Some (acos x) else None else None.
Definition fsqrt (x : R) : fl := if Rlt_dec x 0 then None else Some (sqrt x).

(** [a == b], [a <= b] and [a < b] of floats. *)
Definition feq (a b : fl) : bool :=
  match a, b with Some x, Some y => if Req_EM_T x y then true else false | _, _ => false end.
Definition fle (a b : fl) : bool :=
  match a, b with Some x, Some y => if Rle_dec x y then true else false | _, _ => false end.
Definition flt (a b : fl) : bool :=
  match a, b with Some x, Some y => if Rlt_dec x y then true else false | _, _ => false end.

(** vectors.py:16-45. *)
Definition get_pole_loc (phi_cent r_cent : fl) : res (fl * fl) :=
  lt <- deg2hr phi_cent ;; Ok (lt, fmap (fun r => 90 - r) r_cent).

(** ** Pole angle *)

(** vectors.py:113-142: Vincenty distance and half-angle formula. *)
Definition triangle_angle (d v p : R) : fl :=
  let h := IZR (sgn p) in
  let rad_pole := h * PI * (1 / 2) in
  let del_pole := h * (rad_pole - radians p) in
  let del_vect := h * (rad_pole - radians v) in
  let del_dest :=
    atan2 (sqrt ((cos (radians p) * sin d) ^ 2
                 + (cos (radians v) * sin (radians p) - sin (radians v) * cos (radians p) * cos d) ^ 2))
          (sin (radians v) * sin (radians p) + cos (radians v) * cos (radians p) * cos d) in
  let s := 1 / 2 * (del_vect + del_dest + del_pole) in
  let den := sin del_vect * sin del_dest in
  if Req_EM_T den 0 then None
  else match fsqrt (sin s * sin (s - del_pole) / den) with
       | None => None
       | Some half => fmap (fun a => degrees (2 * a)) (facos half)
       end.
Definition general_angle (del data_lat pole_lat : fl) : fl :=
  match del, data_lat, pole_lat with
  | Some d, Some v, Some p => triangle_angle d v p
  | _, _, _ => None
  end.

(** vectors.py:92 and 99: [del_long] is one of -pi, 0, pi. *)
Definition on_meridian (del : fl) : bool :=
  feq del (Some (- PI)) || feq del (Some 0) || feq del (Some PI).

(** vectors.py:48-142, scalars: an undefined latitude on the meridian of the pole
    falls into the [else] of line 95. *)
Definition calc_vec_pole_angle (data_lt data_lat pole_lt pole_lat : fl) : res fl :=
  del <- hr2rad (fmap2 Rminus pole_lt data_lt) PI ;;
  Ok (if on_meridian del then Some (if abs_lt pole_lat data_lat then 180 else 0)
      else general_angle del data_lat pole_lat).

(** vectors.py:48-142, one element of an array (98-111, 138-140). *)
Definition pole_angle_elem (data_lt data_lat pole_lt pole_lat : fl) : res fl :=
  del <- hr2rad (fmap2 Rminus pole_lt data_lt) PI ;;
  Ok (if on_meridian del && abs_lt pole_lat data_lat then Some 180
      else if on_meridian del && abs_ge pole_lat data_lat then Some 0
      else general_angle del data_lat pole_lat).

(** ** Quadrants *)

(** vectors.py:191-199: [while abs(del_lt) >= 24: del_lt -= 24 * sign(del_lt)]. *)
Fixpoint large_loop (fuel : nat) (d : R) : res R :=
  if Rle_dec 24 (Rabs d) then
    match fuel with O => Err OutOfFuel | S f => large_loop f (d - 24 * IZR (sgn d)) end
  else Ok d.

(** vectors.py:172-199: the difference in local time, wrapped. *)
Definition del_lt (data_lt pole_lt : fl) : res fl :=
  match fmap2 Rminus pole_lt data_lt with
  | None => Ok None
  | Some d =>
      a <- add_loop (passes_for 24 d) 0 24 d ;;
      b <- large_loop (passes_for 24 a) a ;;
      Ok (Some b)
  end.

(** vectors.py:145-228, one element. *)
Definition define_pole_quadrants (data_lt pole_lt pole_angle : fl) : res Z :=
  d <- del_lt data_lt pole_lt ;;
  Ok (match pole_angle, d with
      | Some a, Some t =>
          if Rlt_dec a 90 then if Rlt_dec t 12 then 1%Z else 2%Z
          else if Rlt_dec t 12 then 4%Z else 3%Z
      | _, _ => 0%Z
      end).

(** vectors.py:231-286, one element. *)
Definition define_vect_quadrants (vect_n vect_e : fl) : Z :=
  match vect_n, vect_e with
  | Some n, Some e =>
      if Rle_dec 0 n then if Rle_dec 0 e then 1%Z else 2%Z
      else if Rlt_dec e 0 then 3%Z else 4%Z
  | _, _ => 0%Z
  end.

(** ** Azimuth and signs in the destination system *)

Definition quad_ok (q : Z) : bool := ((1 <=? q) && (q <=? 4))%Z.

(** vectors.py:332-334 and 454-455: [quads[o][v]] for angles that are not NaN. *)
Definition quads (pq vq o v : Z) : bool := ((pq =? o) && (vq =? v))%Z.

(** vectors.py:330-397, one element. *)
Definition dest_angle (pq vq : Z) (base pole : fl) : fl :=
  match base, pole with
  | Some b, Some p =>
      let q := quads pq vq in
      if q 1 1 || q 2 2 || q 3 3 || q 4 4 then Some (Rabs (b - p))%R
      else if q 1 2 || q 1 3 || q 2 1 || q 2 4 || q 3 1 || q 4 2 then
        Some (if Rlt_dec 180 (p + b) then 360 - (p + b) else p + b)%R
      else if q 1 4 || q 2 3 then Some (b - p)%R
      else if q 3 2 || q 4 1 then Some (p - b)%R
      else if q 3 4 || q 4 3 then Some (360 - b - p)%R
      else None
  | _, _ => None
  end%Z.

(** vectors.py:289-399, scalars. *)
Definition calc_dest_polar_angle (pq vq : Z) (base pole : fl) : res fl :=
  if negb (quad_ok pq) then Err ValueError
  else if negb (quad_ok vq) then Err ValueError
  else Ok (dest_angle pq vq base pole).

(** vectors.py:462-487, one element. *)
Definition sign_north (pq vq : Z) (base pole : fl) : Z :=
  match base, pole with
  | Some b, Some p =>
      let q := quads pq vq in
      if q 1 1 || q 2 2 || q 3 3 || q 4 4
         || ((q 1 4 || q 2 3) && fle (Some b) (Some (p + 90)%R))
         || ((q 1 2 || q 2 1) && fle (Some b) (Some (90 - p)%R))
         || ((q 3 4 || q 4 3) && fle (Some (180 - (p - 90))%R) (Some b))
         || ((q 3 2 || q 4 1) && fle (Some (p - 90)%R) (Some b))
      then 1 else -1
  | _, _ => -1
  end%Z.
(** vectors.py:489-512, one element. *)
Definition sign_east (pq vq : Z) (base pole : fl) : Z :=
  match base, pole with
  | Some b, Some p =>
      let q := quads pq vq in
      if q 1 4 || q 2 1 || q 3 2 || q 4 3
         || ((q 1 1 || q 4 4) && fle (Some p) (Some b))
         || ((q 3 1 || q 2 4) && fle (Some b) (Some (180 - p)%R))
         || ((q 4 2 || q 1 3) && fle (Some (180 - p)%R) (Some b))
         || ((q 2 2 || q 3 3) && fle (Some b) (Some p))
      then 1 else -1
  | _, _ => -1
  end%Z.

(** vectors.py:402-514, scalars, [north=True, east=True]. *)
Definition calc_dest_vec_sign (pq vq : Z) (base pole : fl) : res (Z * Z) :=
  if negb (quad_ok pq) then Err ValueError
  else if negb (quad_ok vq) then Err ValueError
  else Ok (sign_north pq vq base pole, sign_east pq vq base pole).

(** ** adjust_vector *)

(** The arguments for one vector (after broadcasting). *)
Record vin := mkVin { v_lt : fl; v_lat : fl; v_n : fl; v_e : fl; v_z : fl; v_q : Z;
                      p_lt : fl; p_lat : fl; p_ang : fl; p_q : Z }.

(** vectors.py:581-583. *)
Definition is_zero (v : vin) : bool := feq (v_n v) (Some 0) && feq (v_e v) (Some 0).
Definition is_ns (v : vin) : bool := feq (p_ang v) (Some 0) || feq (p_ang v) (Some 180).
Definition is_norm (v : vin) : bool := negb (is_zero v || is_ns v).

(** vectors.py:585-629, one vector: [None] if neither special case applies.  The
    aligned case comes last in the code and so wins. *)
Definition special (v : vin) : option (fl * fl * fl) :=
  if is_ns v then
    let flip := feq (p_ang v) (Some 0) && fle (p_lat v) (v_lat v) in
    let s := fmap (fun x => if flip then x * -1 else x) in
    Some (s (v_n v), s (v_e v), v_z v)
  else if is_zero v then Some (Some 0, Some 0, Some 0)
  else None.

(** vectors.py:645-646: magnitude and north azimuth in the base system. *)
Definition vmag (n e : fl) : fl := fmap2 (fun a b => sqrt (a ^ 2 + b ^ 2)) n e.
Definition base_naz (n e : fl) : fl :=
  match fdiv2 n (vmag n e) with None => None | Some c => fmap degrees (facos c) end.

(** vectors.py:679-685, 690-693. *)
Definition acute (d : fl) : fl :=
  fmap (fun x => if Rlt_dec (PI / 2) x then PI - x else x) (fmap radians d).
Definition components (sn se : Z) (mag dest : fl) : fl * fl :=
  (fmap2 (fun m a => IZR sn * m * cos a) mag (acute dest),
   fmap2 (fun m a => IZR se * m * sin a) mag (acute dest)).

(** vectors.py:517-710, scalars. *)
Definition adjust_vector (v : vin) : res (fl * fl * fl) :=
  match special v with
  | Some r => Ok r
  | None =>
      let vq := if (v_q v =? 0)%Z then define_vect_quadrants (v_n v) (v_e v) else v_q v in
      pq <- (if (p_q v =? 0)%Z then define_pole_quadrants (v_lt v) (p_lt v) (p_ang v) else Ok (p_q v)) ;;
      let base := base_naz (v_n v) (v_e v) in
      d <- calc_dest_polar_angle pq vq base (p_ang v) ;;
      sg <- calc_dest_vec_sign pq vq base (p_ang v) ;;
      let ne := components (fst sg) (snd sg) (vmag (v_n v) (v_e v)) d in
      Ok (fst ne, snd ne, v_z v)
  end.

(** vectors.py:517-710 for arrays of one length; [vect_n], [vect_e] and [vect_z] are
    arrays, the other arguments arrays or scalars.  Quadrants are recomputed for
    all vectors if one of those needed is 0 (634-640); undefined quadrants raise
    only if no vector has one (320-324). *)
Definition with_quads (v : vin) (vq pq : Z) : vin :=
  mkVin (v_lt v) (v_lat v) (v_n v) (v_e v) (v_z v) vq (p_lt v) (p_lat v) (p_ang v) pq.

Definition elem_normal (v : vin) : fl * fl * fl :=
  let base := base_naz (v_n v) (v_e v) in
  let d := dest_angle (p_q v) (v_q v) base (p_ang v) in
  let m := vmag (v_n v) (v_e v) in
  let ne := components (sign_north (p_q v) (v_q v) base (p_ang v)) (sign_east (p_q v) (v_q v) base (p_ang v)) m d in
  (fst ne, snd ne, if isnan m || isnan d then None else v_z v).

Definition requad (vs : list vin) : res (list vin) :=
  let nv := filter is_norm vs in
  let redo_v := existsb (fun v => v_q v =? 0)%Z nv in
  let redo_p := existsb (fun v => p_q v =? 0)%Z nv in
  mapE (fun v =>
          pq <- (if redo_p then define_pole_quadrants (v_lt v) (p_lt v) (p_ang v) else Ok (p_q v)) ;;
          Ok (with_quads v (if redo_v then define_vect_quadrants (v_n v) (v_e v) else v_q v) pq)) vs.

Definition adjust_vectors (vs : list vin) : res (list (fl * fl * fl)) :=
  if existsb is_norm vs then
    ws <- requad vs ;;
    if negb (existsb (fun v => quad_ok (p_q v)) ws) then Err ValueError
    else if negb (existsb (fun v => quad_ok (v_q v)) ws) then Err ValueError
    else Ok (map (fun v => match special v with Some r => r | None => elem_normal v end) ws)
  else Ok (map (fun v => match special v with Some r => r | None => (None, None, None) end) vs).

(** vectors.py:517-710 for one vector (scalar location, components and vector
    quadrant) and arrays describing several poles: lines 695-702 return only the
    vectors of the general case. *)
Definition adjust_one (vs : list vin) : res (list (fl * fl * fl)) :=
  if existsb is_norm vs then
    ws <- requad vs ;;
    if negb (existsb (fun v => quad_ok (p_q v)) ws) then Err ValueError
    else if negb (existsb (fun v => quad_ok (v_q v)) ws) then Err ValueError
    else Ok (map (fun v => let r := elem_normal v in (fst (fst r), snd (fst r), v_z v)) (filter is_norm ws))
  else Ok (map (fun v => match special v with Some r => r | None => (None, None, None) end) vs).

(** The calls VectorData.set_ocb makes for one vector (ocb_scaling.py:700-701,
    704, 708, 721): pole location from [phi_cent] and [r_cent], pole angle,
    quadrants, adjustment. *)
Definition vector_to_boundary (lt lat n e z phi_cent r_cent : fl) : res (fl * fl * fl) :=
  pole <- get_pole_loc phi_cent r_cent ;;
  ang <- calc_vec_pole_angle lt lat (fst pole) (snd pole) ;;
  pq <- define_pole_quadrants lt (fst pole) ang ;;
  adjust_vector (mkVin lt lat n e z (define_vect_quadrants n e) (fst pole) (snd pole) ang pq).
