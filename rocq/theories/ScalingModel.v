(** Model of ocbpy/ocb_scaling.py: shapes of [VectorData] (274-434), [set_ocb]
    (629-723), [define_quadrants] (725-766), [scale_vector] (768-821),
    [calc_vec_pole_angle] (823-868), [update_vect_coords_to_mag] (990-1109),
    [normal_evar] (1112-1141), [normal_curl_evar] (1144-1173), [hav] (1176-1193)
    and [archav] (1196-1243).

    [set_ocb] is modelled for locations and vectors in magnetic coordinates and a
    single (not dual) boundary.  Floats are reals or NaN. *)
From Coq Require Import Reals ZArith List Bool.
From Verif Require Import PyBase RangeModel CoordModel DualCoordModel VectorModel.
Import ListNotations.
Open Scope R_scope.

(** ** Scaling functions *)

(** ocb_scaling.py:1112-1141. *)
Definition normal_evar (evar unscaled_r scaled_r : fl) : fl := fdiv2 (fmap2 Rmult evar unscaled_r) scaled_r.
(** ocb_scaling.py:1144-1173. *)
Definition normal_curl_evar (curl unscaled_r scaled_r : fl) : fl :=
  fmap2 Rmult curl (fmap (fun q => q ^ 2) (fdiv2 unscaled_r scaled_r)).

(** ocb_scaling.py:1176-1193. *)
Definition hav (a : fl) : fl := fmap (fun x => sin (x * (1 / 2)) ^ 2) a.

(** [np.arcsin]: NaN above 1 (the argument is never negative here). *)
Definition fasin (x : R) : fl := if Rle_dec x 1 then Some (asin x) else None.
(** ocb_scaling.py:1196-1243, one element. *)
Definition archav (h : fl) : fl :=
  match h with
  | None => None
  | Some x =>
      let small := / (10 ^ 16) in
      if Rlt_dec (Rabs x) small then Some 0
      else if Rle_dec small x then fmap (fun y => 2 * y) (fasin (sqrt x))
      else None
  end.

(** ** Shapes *)

(** A numpy shape; [[]] for scalars. *)
Definition shape := list nat.
Definition scalar (s : shape) : bool := match s with [] => true | _ => false end.
Definition shape_eqb : shape -> shape -> bool := fix f a b :=
  match a, b with
  | [], [] => true
  | x :: a', y :: b' => (x =? y)%nat && f a' b'
  | _, _ => false
  end.

(** The distinct shapes of a list, in order (ocb_scaling.py:376-380, 412-416). *)
Fixpoint distinct (seen l : list shape) : list shape :=
  match l with
  | [] => seen
  | s :: l' => distinct (if existsb (shape_eqb s) seen then seen else seen ++ [s]) l'
  end.
(** [min(shapes) == ()], and [max(shapes)] for at most two shapes of which, if there
    are two, one is (). *)
Definition has_scalar (l : list shape) : bool := existsb scalar l.
Definition largest (l : list shape) : shape :=
  match filter (fun s => negb (scalar s)) l with s :: _ => s | [] => [] end.

(** ocb_scaling.py:296-330: a scalar is repeated to the shape of the index. *)
Definition attr_shape (ind val : shape) : shape := if scalar val && negb (scalar ind) then ind else val.

(** ocb_scaling.py:360-400 and 402-434, as called by [__init__] (106-144): the
    shapes of lat, lt, vect_n, vect_e, vect_z afterwards and [vshape].  Not
    modelled: [height] and [vect_mag], whose shapes are not tested. *)
Record vshapes := mkVshapes { sh_lat : shape; sh_lt : shape; sh_n : shape; sh_e : shape; sh_z : shape;
                              sh_olat : shape; sh_omlt : shape; sh_rcorr : shape; sh_v : shape }.

Definition test_vector_shape (dat lat lt n e z : shape) : res (shape * shape * shape * shape) :=
  let vs := distinct [] [lat; lt; dat; n; e; z] in
  let vshape := largest vs in
  if (2 <? length vs)%nat || ((length vs =? 2)%nat && negb (has_scalar vs)) then Err ValueError
  else if (1 <? length vs)%nat && has_scalar vs then
    if scalar dat then Err ValueError
    else let grow s := if scalar s then vshape else s in Ok (grow n, grow e, grow z, vshape)
  else Ok (n, e, z, vshape).

Definition test_bound_shape (dat ocb vshape olat omlt rcorr : shape) : res shape :=
  let os := distinct [] [olat; omlt; rcorr] in
  let oshape := largest os in
  if (negb (scalar ocb) && (scalar oshape || negb (shape_eqb oshape ocb)))
     || (2 <? length os)%nat || ((length os =? 2)%nat && negb (has_scalar os))
  then Err ValueError
  else if scalar ocb then Ok vshape
  else if scalar dat then Ok oshape
  else if negb (length vshape =? length oshape)%nat then Err ValueError
  else match oshape, vshape with
       | [a], [b] => if (a =? b)%nat then Ok vshape else Err ValueError
       | _, _ => Err ValueError   (* truth value of an array of several elements *)
       end.

Definition vector_shapes (dat ocb lat lt n e z olat omlt rcorr : shape) : res vshapes :=
  let lat' := attr_shape dat lat in
  let lt' := attr_shape dat lt in
  v <- test_vector_shape dat lat' lt' n e z ;;
  let '(n', e', z', vs) := v in
  let olat' := attr_shape ocb olat in
  let omlt' := attr_shape ocb omlt in
  let rcorr' := attr_shape ocb rcorr in
  vs' <- test_bound_shape dat ocb vs olat' omlt' rcorr' ;;
  Ok (mkVshapes lat' lt' n' e' z' olat' omlt' rcorr' vs').

(** ** set_ocb *)

(** The values of one vector: location, components, boundary coordinates, radii
    ([None] before [set_ocb] sets them) and normalised components. *)
Record vel := mkVel { w_lat : fl; w_lt : fl; w_n : fl; w_e : fl; w_z : fl;
                      w_olat : fl; w_omlt : fl; w_rc : fl; w_unr : option fl; w_scr : option fl;
                      w_on : fl; w_oe : fl; w_oz : fl; w_omag : fl }.
Definition sfun := fl -> fl -> fl -> fl.

(** A vector as constructed without boundary coordinates (106-150, 612-627). *)
Definition fresh (lat lt n e z : fl) : vel :=
  mkVel lat lt n e z None None None None None None None None None.

Definition put_coord (v : vel) (lat olat omlt rc : fl) : vel :=
  mkVel lat (w_lt v) (w_n v) (w_e v) (w_z v) olat omlt rc (w_unr v) (w_scr v) (w_on v) (w_oe v) (w_oz v) (w_omag v).
Definition put_radii (v : vel) (unr scr : fl) : vel :=
  mkVel (w_lat v) (w_lt v) (w_n v) (w_e v) (w_z v) (w_olat v) (w_omlt v) (w_rc v) (Some unr) (Some scr)
        (w_on v) (w_oe v) (w_oz v) (w_omag v).
Definition put_out (v : vel) (n e z : fl) : vel :=
  mkVel (w_lat v) (w_lt v) (w_n v) (w_e v) (w_z v) (w_olat v) (w_omlt v) (w_rc v) (w_unr v) (w_scr v) n e z
        (match n, e, z with Some a, Some b, Some c => Some (sqrt (a ^ 2 + b ^ 2 + c ^ 2)) | _, _, _ => None end).

(** lines 652-653 and 683-684. *)
Definition no_coords (vs : list vel) : bool :=
  forallb (fun v => isnan (w_olat v)) vs || forallb (fun v => isnan (w_omlt v)) vs || forallb (fun v => isnan (w_rc v)) vs.

Definition first (a : arr) : fl := match el a with x :: _ => x | [] => None end.
Definition sc0 (x : fl) : arr := mkArr true false true [x].

(** lines 656-665 (and 668-680 for one vector of an array): [rec_ind] of the boundary
    is set to the index of the vector. *)
Definition coords_of (b : bnd) (ind : Z) (v : vel) : res vel :=
  nc <- normal_coord (at_rec b ind) (sc0 (w_lat v)) (sc0 (w_lt v)) ;;
  let '(ol, om, rc, _) := nc in
  Ok (put_coord v (w_lat v) (first ol) (first om) (first rc)).

(** lines 711-717. *)
Definition choose_sf (own arg : option sfun) : option sfun := match own with Some f => Some f | None => arg end.

(** The scaled value, lines 799-816. *)
Definition scaled (sf : option sfun) (x : fl) (unr scr : fl) : fl :=
  match sf with None => x | Some f => f x unr scr end.

(** lines 688-721 for scalars, given the boundary record.  Lines 800-809 scale the
    components [vect_n], [vect_e] and [vect_z], not those along the boundary
    directions. *)
Definition finish1 (b : bnd) (sf : option sfun) (rc : rec) (v : vel) : res vel :=
  let unr := fmap (fun c => rr rc + c) (w_rc v) in
  let scr := Some (90 - Rabs (blat b)) in
  let v2 := put_radii v unr scr in
  pole <- get_pole_loc (Some (phic rc)) (Some (rcent rc)) ;;
  if isnan (w_lt v2) || isnan (w_lat v2) then Err ValueError
  else
    ang <- calc_vec_pole_angle (w_lt v2) (w_lat v2) (fst pole) (snd pole) ;;
    if isnan ang then Ok v2
    else
      pq <- define_pole_quadrants (w_lt v2) (fst pole) ang ;;
      r <- adjust_vector (mkVin (w_lt v2) (w_lat v2) (w_n v2) (w_e v2) (w_z v2)
                            (define_vect_quadrants (w_n v2) (w_e v2)) (fst pole) (snd pole) ang pq) ;;
      let '(n, e, z) := r in
      match sf with
      | None => Ok (put_out v2 n e z)
      | Some f => Ok (put_out v2 (f (w_n v2) unr scr) (f (w_e v2) unr scr) (f (w_z v2) unr scr))
      end.

(** [set_ocb] for scalars, and the boundary afterwards (its [rec_ind] is set).  Line
    646 looks up the time of the boundary's own [rec_ind].  (An unloaded boundary,
    whose [dtime] is None, raises TypeError there; the model's error for a
    boundary without records is IndexError.) *)
Definition set_ocb (b : bnd) (ind : Z) (own arg : option sfun) (v : vel) : res (vel * bnd) :=
  _ <- getE (recs b) (rind b) ;;
  let b' := if no_coords [v] then at_rec b ind else b in
  v1 <- (if no_coords [v] then coords_of b ind v else Ok v) ;;
  if no_coords [v1] then Ok (v1, b')
  else
    rc <- getE (recs b) ind ;;
    v2 <- finish1 b (choose_sf own arg) rc v1 ;;
    Ok (v2, b').

(** The part after the coordinates (lines 687-721) for arrays, given the boundary
    record of each vector. *)
Definition finish (b : bnd) (sf : option sfun) (rcs : list rec) (vs : list vel) : res (list vel) :=
  let scr := Some (90 - Rabs (blat b)) in
  let vs2 := map (fun p => put_radii (snd p) (fmap (fun c => rr (fst p) + c) (w_rc (snd p))) scr) (combine rcs vs) in
  poles <- mapE (fun rc => get_pole_loc (Some (phic rc)) (Some (rcent rc))) rcs ;;
  if forallb (fun v => isnan (w_lt v)) vs2 || forallb (fun v => isnan (w_lat v)) vs2 then Err ValueError
  else
    angs <- mapE (fun p => pole_angle_elem (w_lt (snd p)) (w_lat (snd p)) (fst (fst p)) (snd (fst p))) (combine poles vs2) ;;
    if forallb isnan angs then Ok vs2
    else
      ins <- mapE (fun p => let '(pole, ang, v) := p in
                 pq <- define_pole_quadrants (w_lt v) (fst pole) ang ;;
                 Ok (mkVin (w_lt v) (w_lat v) (w_n v) (w_e v) (w_z v) (define_vect_quadrants (w_n v) (w_e v))
                           (fst pole) (snd pole) ang pq))
              (combine (combine poles angs) vs2) ;;
      outs <- adjust_vectors ins ;;
      Ok (map (fun p => let '(v, (n, e, z)) := p in
             let u := match w_unr v with Some u => u | None => None end in
             put_out v (scaled sf n u scr) (scaled sf e u scr) (scaled sf z u scr)) (combine vs2 outs)).

(** [set_ocb] for arrays of vectors with an array of boundary indices of the same
    length (lines 646-647, 666-680). *)
Definition last_rec (b : bnd) (inds : list Z) : bnd := fold_left at_rec inds b.
Definition set_ocb_matched (b : bnd) (inds : list Z) (own arg : option sfun) (vs : list vel) : res (list vel * bnd) :=
  rcs <- mapE (getE (recs b)) inds ;;
  let b' := if no_coords vs then last_rec b inds else b in
  vs1 <- (if no_coords vs then mapE (fun p => coords_of b (fst p) (snd p)) (combine inds vs) else Ok vs) ;;
  if no_coords vs1 then Ok (vs1, b')
  else vs2 <- finish b (choose_sf own arg) rcs vs1 ;; Ok (vs2, b').

(** [set_ocb] for arrays of vectors with one boundary index (lines 646, 656-665): the
    latitudes on the wrong side of the equator are overwritten. *)
Fixpoint put_coords (vs : list vel) (lat ol om rc : list fl) : list vel :=
  match vs, lat, ol, om, rc with
  | v :: vs', a :: lat', b :: ol', c :: om', d :: rc' => put_coord v a b c d :: put_coords vs' lat' ol' om' rc'
  | _, _, _, _, _ => []
  end.
Definition set_ocb_array (b : bnd) (ind : Z) (own arg : option sfun) (vs : list vel) : res (list vel * bnd) :=
  _ <- getE (recs b) (rind b) ;;
  let b' := if no_coords vs then at_rec b ind else b in
  vs1 <- (if no_coords vs then
            nc <- normal_coord (at_rec b ind) (mkArr false false true (map w_lat vs)) (mkArr false false true (map w_lt vs)) ;;
            let '(ol, om, rc, lat) := nc in
            Ok (put_coords vs lat (el ol) (el om) (el rc))
          else Ok vs) ;;
  if no_coords vs1 then Ok (vs1, b')
  else
    rc <- getE (recs b) ind ;;
    vs2 <- finish b (choose_sf own arg) (repeat rc (length vs1)) vs1 ;;
    Ok (vs2, b').

(** ** Geographic vectors *)

(** ocb_scaling.py:1083-1098 for one vector with defined pole angle: the location in
    geographic ([geo]) and magnetic ([mag]) coordinates and the geographic
    location of the magnetic pole. *)
Definition vect_to_mag (geo_lt geo_lat mag_lt mag_lat n e z pole_slt pole_glat : fl) : res (fl * fl * fl) :=
  ang <- calc_vec_pole_angle geo_lt geo_lat pole_slt pole_glat ;;
  pq <- define_pole_quadrants geo_lt pole_slt ang ;;
  adjust_vector (mkVin mag_lt mag_lat n e z (define_vect_quadrants n e) pole_slt pole_glat ang pq).
