(** Model of the coordinate systems of VectorData (ocbpy/ocb_scaling.py):
    [_test_coords] (332-358) with the lower-casing of the constructor (124-125),
    [update_loc_coords] (870-988), [update_vect_coords_to_mag] (990-1109) and the
    times [set_ocb] passes to it (645-648).

    Arrays are lists; [vo_single] says that the locations and the vectors are scalars
    (the lists then have one element).  The functions of aacgmv2 are parameters:
    they act element by element and may give NaN.  The shape of their results for
    scalars is not modelled.  Strings are those of PyString.  Reals stand for floats. *)
From Coq Require Import Reals ZArith List Bool String.
From Verif Require Import PyBase PyString RangeModel CoordModel DualCoordModel VectorModel ScalingModel.
Import ListNotations.
Open Scope R_scope.

(** One time (an object with a [year]) or a list of times, in microseconds. *)
Inductive times := One (t : Z) | Many (ts : list Z).

(** ocb_time.py:322-340 of a time in microseconds: its hour, minute, second and microsecond. *)
Definition uth (t : Z) : R :=
  let d := (t mod 86400000000)%Z in
  datetime2hr (d / 3600000000) (d / 60000000 mod 60) (d / 1000000 mod 60) (d mod 1000000).

(** An element of [lat], [lt] and [height]. *)
Record site := mkSite { pl_lat : fl; pl_lt : fl; pl_h : fl }.

(** The attributes [lat], [lt], [height], [loc_coord], [vect_n], [vect_e], [vect_z],
    [vect_coord] and [vect_mag]. *)
Record vobj := mkVobj { vo_single : bool; vo_pl : list site; vo_loc : string;
                        vo_vec : list (fl * fl * fl); vo_vc : string; vo_mag : list fl }.
Definition with_places (s : vobj) (single : bool) (ps : list site) (c : string) : vobj :=
  mkVobj single ps c (vo_vec s) (vo_vc s) (vo_mag s).

(** ocb_scaling.py:332-358 after 124-125: the stored names, or the error. *)
Definition good_coords : list string := ["magnetic"; "geocentric"; "geodetic"]%string.
Definition test_coords (loc_coord vect_coord : string) : res (string * string) :=
  let l := lower loc_coord in
  let v := lower vect_coord in
  if negb (str_in l good_coords) then Err ValueError
  else if negb (str_in v good_coords) then Err ValueError
  else if negb (String.eqb v l) && negb (str_in "magnetic"%string [v; l]) then Err ValueError
  else Ok (l, v).

(** ocb_scaling.py:896-917: the location and time of every conversion. *)
Definition pairing (s : vobj) (dt : times) : res (list (site * Z)) :=
  match vo_single s, dt with
  | true, Many ts => Ok (map (fun t => (hd (mkSite None None None) (vo_pl s), t)) ts)
  | _, One t => Ok (map (fun p => (p, t)) (vo_pl s))
  | false, Many ts =>
      if (List.length ts =? List.length (vo_pl s))%nat then Ok (combine (vo_pl s) ts) else Err ValueError
  end.
Definition still_single (s : vobj) (dt : times) : bool :=
  match dt with One _ => vo_single s | Many _ => false end.

(** ["|".join(methods)] (920, 925-927 and 953-955): ["GEOCENTRIC"] is what [upper]
    makes of a name that is "geocentric" in lower case. *)
Definition method_code (tr c way : string) : string :=
  String.concat "|" (tr :: (if String.eqb (lower c) "geocentric" then ["GEOCENTRIC"; way] else [way]))%string.

Section Aacgm.
(** [aacgmv2.get_aacgm_coord]: magnetic latitude and MLT (its outputs 0 and 2) of a
    latitude, longitude, height and time for a method code. *)
Context (g2a : string -> fl -> fl -> fl -> Z -> fl * fl).
(** [aacgmv2.convert_latlon]: latitude and longitude (outputs 0 and 1). *)
Context (a2g : string -> fl -> fl -> fl -> Z -> fl * fl).
(** [aacgmv2.convert_mlt(mlt, time, m2a=True)]: magnetic longitude. *)
Context (mlt2lon : fl -> Z -> fl).
(** [aacgmv2.convert_latlon] of one location called with the whole [height] array. *)
Context (a2g_heights : string -> fl -> fl -> list fl -> Z -> res (fl * fl)).

(** ocb_scaling.py:929-950: a geographic location; 925 compares the stored name. *)
Definition to_mag (m : string) (x : site * Z) : res site :=
  let '(p, t) := x in
  lon <- slt2glon (pl_lt p) (uth t) ;;
  let o := g2a m (pl_lat p) lon (pl_h p) t in
  Ok (mkSite (fst o) (snd o) (pl_h p)).
(** ocb_scaling.py:957-981: a magnetic location. *)
Definition from_mag (m : string) (x : site * Z) : res site :=
  let '(p, t) := x in
  let o := a2g m (pl_lat p) (mlt2lon (pl_lt p) t) (pl_h p) t in
  lt <- glon2slt (snd o) (uth t) ;;
  Ok (mkSite (fst o) lt (pl_h p)).

(** ocb_scaling.py:925: [self.loc_coord == "geocentric"], without [lower]. *)
Definition g2a_code (tr loc : string) : string :=
  String.concat "|" (tr :: (if String.eqb loc "geocentric" then ["GEOCENTRIC"; "G2A"] else ["G2A"]))%string.

(** ocb_scaling.py:870-988. *)
Definition update_loc (tr : string) (dt : times) (coord : string) (s : vobj) : res vobj :=
  if String.eqb (lower coord) (vo_loc s) then Ok s
  else
    prs <- pairing s dt ;;
    ps <- (if String.eqb (lower coord) "magnetic" then mapE (to_mag (g2a_code tr (vo_loc s))) prs
           else mapE (from_mag (method_code tr coord "A2G")) prs) ;;
    Ok (with_places s (still_single s dt) ps coord).

(** ocb_scaling.py:1057-1081: the geographic latitude and solar local time of the
    magnetic pole, for each location. *)
Definition pole_of (t : Z) (o : fl * fl) : res (fl * fl) :=
  slt <- glon2slt (snd o) (uth t) ;; Ok (fst o, slt).
Definition poles (tr c : string) (hem : Z) (dt : times) (heights : list fl) : res (list (fl * fl)) :=
  let m := method_code tr c "A2G" in
  match dt with
  | Many ts => mapE (fun x => pole_of (snd x) (a2g m (Some (IZR hem * 90)) (Some 0) (fst x) (snd x))) (combine heights ts)
  | One t =>
      o <- a2g_heights m (Some (IZR hem * 90)) (Some 0) heights t ;;
      q <- pole_of t o ;;
      Ok (map (fun _ => q) heights)
  end.

(** One vector with its geographic and magnetic location and pole. *)
Record vcase := mkCase { k_geo : site; k_mag : site; k_vec : fl * fl * fl; k_pole : fl * fl }.
Definition cases (geo mag : list site) (vs : list (fl * fl * fl)) (ps : list (fl * fl)) : list vcase :=
  map (fun x => let '(g, m, v, q) := x in mkCase g m v q) (combine (combine (combine geo mag) vs) ps).

(** ocb_scaling.py:1085-1086, an element of an array and a scalar. *)
Definition case_angle (single : bool) (k : vcase) : res fl :=
  (if single then calc_vec_pole_angle else pole_angle_elem)
    (pl_lt (k_geo k)) (pl_lat (k_geo k)) (snd (k_pole k)) (fst (k_pole k)).
(** ocb_scaling.py:1088-1098: the arguments of [adjust_vector]. *)
Definition case_in (x : vcase * fl) : res vin :=
  let '(k, ang) := x in
  let '(n, e, z) := k_vec k in
  pq <- define_pole_quadrants (pl_lt (k_geo k)) (snd (k_pole k)) ang ;;
  Ok (mkVin (pl_lt (k_mag k)) (pl_lat (k_mag k)) n e z (define_vect_quadrants n e)
            (snd (k_pole k)) (fst (k_pole k)) ang pq).
(** ocb_scaling.py:1083-1098.  Without any pole angle [pole_quad] is unbound in line 1098. *)
Definition vectors_to_mag (single : bool) (ks : list vcase) : res (list (fl * fl * fl)) :=
  angs <- mapE (case_angle single) ks ;;
  if forallb isnan angs then Err NameError
  else
    ins <- mapE case_in (combine ks angs) ;;
    if single then mapE adjust_vector ins else adjust_vectors ins.

(** ocb_scaling.py:470 (the magnitude is recomputed, 1107). *)
Definition length_of (v : fl * fl * fl) : fl :=
  let '(n, e, z) := v in
  match n, e, z with Some a, Some b, Some c => Some (sqrt (a ^ 2 + b ^ 2 + c ^ 2)) | _, _, _ => None end.

(** ocb_scaling.py:990-1109.  A scalar vector with a list of times is not modelled
    ([OutOfFuel]).  The places keep the heights. *)
Definition update_vect (tr : string) (dt : times) (hem : Z) (s : vobj) : res vobj :=
  if String.eqb (vo_vc s) "magnetic" then Ok s
  else if negb (Bool.eqb (still_single s dt) (vo_single s)) then Err OutOfFuel
  else
    let was_mag := String.eqb (vo_loc s) "magnetic" in
    s1 <- update_loc tr dt (if was_mag then vo_vc s else "magnetic"%string) s ;;
    let geo := if was_mag then vo_pl s1 else vo_pl s in
    let mag := if was_mag then vo_pl s else vo_pl s1 in
    let s2 := with_places s (vo_single s) mag (if was_mag then "magnetic"%string else vo_loc s1) in
    if forallb isnan (map pl_lat mag) || forallb isnan (map pl_lt mag) then Ok s2
    else
      ps <- poles tr (vo_vc s) hem dt (map pl_h mag) ;;
      vs <- vectors_to_mag (vo_single s) (cases geo mag (vo_vec s) ps) ;;
      Ok (mkVobj (vo_single s) mag (vo_loc s2) vs "magnetic" (map length_of vs)).

(** ocb_scaling.py:645-648: the call in [set_ocb].  [dtimes] and [rec_ind] belong to
    the boundary, [ind] is the [ocb_ind] of the vectors; the trace method of [set_ocb]
    is not handed on. *)
Inductive index := Scalar (i : Z) | Array (is : list Z).
Definition set_ocb_times (dtimes : list Z) (rec_ind : Z) (ind : index) : res times :=
  match ind with
  | Scalar _ => t <- getE dtimes rec_ind ;; Ok (One t)
  | Array inds => ts <- mapE (getE dtimes) inds ;; Ok (Many ts)
  end.
Definition set_ocb_convert (tr : string) (dtimes : list Z) (rec_ind : Z) (ind : index) (hem : Z) (s : vobj) : res vobj :=
  dt <- set_ocb_times dtimes rec_ind ind ;;
  update_vect "ALLOWTRACE"%string dt hem s.

End Aacgm.
